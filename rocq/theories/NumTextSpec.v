(** Specification vocabulary for numbers written as text. *)
From Coq Require Import List ZArith QArith.
Import ListNotations.
Open Scope Z_scope.

(** value of a list of digits, most significant first *)
Fixpoint num_of (base acc : Z) (ds : list Z) : Z :=
  match ds with [] => acc | d :: t => num_of base (acc * base + d) t end.
Definition numeral (base : Z) (ds : list Z) : Z := num_of base 0 ds.
Definition digits (base : Z) (ds : list Z) : Prop := Forall (fun d => 0 <= d < base) ds.

(** '0'..'9','A'..'F' *)
Definition digit_char (d : Z) : Z := if d <? 10 then 48 + d else 55 + d.

(** the text  [-]ds[.fs]  *)
Definition decimal_text (neg : bool) (ds fs : list Z) : list Z :=
  (if neg then [45] else []) ++ map digit_char ds ++
  match fs with [] => [] | _ => 46 :: map digit_char fs end.
(** and the number it denotes *)
Definition decimal_val (neg : bool) (ds fs : list Z) : Q :=
  let v := (inject_Z (numeral 10 ds) +
            inject_Z (numeral 10 fs) / inject_Z (10 ^ Z.of_nat (length fs)))%Q in
  if neg then (- v)%Q else v.

(** no leading zero (except the numeral 0 itself), no trailing zero in the
    fraction *)
Definition canonical (ds fs : list Z) : Prop :=
  (ds = [0] \/ exists d t, ds = d :: t /\ d <> 0) /\
  (fs = [] \/ exists t d, fs = t ++ [d] /\ d <> 0).

(** text after a number that cannot continue it: empty, or starting with a
    character outside [cs] *)
Definition stops (bad : Z -> Prop) (rest : list Z) : Prop :=
  match rest with [] => True | c :: _ => 0 <= c < 256 /\ ~ bad c end.
Definition dec_char (c : Z) : Prop := 48 <= c <= 57.
Definition hex_char_p (c : Z) : Prop := 48 <= c <= 57 \/ 65 <= c <= 70.
