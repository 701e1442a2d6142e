(** What a BASIC program sees of the memory. *)
From Verif Require Import Base.
(** the memory a BASIC program may address: 8 megabytes from 0x02000000 *)
Definition first_address : Z := 33554432.
Definition past_address : Z := 33554432 + 8388608.
(** addresses [a .. a+n-1] *)
Definition range (a n b : Z) : Prop := a <= b < a + n.
Definition accessible (a n : Z) : Prop := first_address <= a /\ a + n <= past_address.
(** the memory [m'] is [m] outside the range *)
Definition only (a n : Z) (m m' : Z -> Z) : Prop := forall b, ~ range a n b -> m' b = m b.
Definition bytes (m : Z -> Z) : Prop := forall b, 0 <= m b < 256.
(** the value of a text of hexadecimal digits *)
Definition hex_value (c : Z) : option Z :=
  if (48 <=? c) && (c <=? 57) then Some (c - 48) else if (65 <=? c) && (c <=? 70) then Some (c - 55) else None.
Fixpoint hex_text (l : list Z) (acc : Z) : option Z :=
  match l with
  | [] => Some acc
  | c :: r => match hex_value c with Some d => hex_text r (16 * acc + d) | None => None end
  end.
