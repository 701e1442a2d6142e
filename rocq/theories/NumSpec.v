(** Specification vocabulary for numbers: the rational value a BASIC program
    sees, and representability.  Independent of the model. *)
From Coq Require Import ZArith QArith Qround.
Open Scope Z_scope.

(** value of a 20.12 fixed-point content *)
Definition val (x : Z) : Q := x # 4096.
(** the contents that exist: int32 *)
Definition fixp (x : Z) : Prop := - 2 ^ 31 <= x < 2 ^ 31.
(** rounding toward zero *)
Definition Qtrunc (q : Q) : Z := if Qle_bool 0 q then Qfloor q else Qceiling q.
(** [q] in units of 1/4096 *)
Definition units (q : Q) : Q := (q * 4096)%Q.
