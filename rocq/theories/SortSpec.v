(** What SORT promises. *)
From Verif Require Import Base.
(** [p] is a permutation of the positions that moves only positions from [lo] (inclusive) to [hi] (exclusive) *)
Definition permutes (lo hi : Z) (p : nat -> nat) : Prop :=
  (exists q, forall k, p (q k) = k /\ q (p k) = k) /\ forall k, ~ (lo <= Z.of_nat k < hi) -> p k = k.
(** [l'] is [l] with the positions permuted by [p] *)
Definition moved {V} (p : nat -> nat) (l l' : list V) : Prop := length l' = length l /\ forall k, nth_error l' k = nth_error l (p k).
(** in order *)
Definition in_order {V} (comp : V -> V -> bool) (lo hi : Z) (l : list V) : Prop :=
  forall i j x y, lo <= Z.of_nat i -> (i < j)%nat -> Z.of_nat j < hi -> nth_error l i = Some x -> nth_error l j = Some y -> comp y x = false.
