(** What a user expects of dates and the frame counter. *)
From Verif Require Import Base.
(** [n] written with [k] decimal digits *)
Fixpoint decimal (k : nat) (n : Z) : list Z :=
  match k with O => [] | S k => decimal k (n / 10) ++ [48 + n mod 10] end.
Definition two_digits (n : Z) : Prop := 0 <= n <= 99.
(** "YYYY/MM/DD" and "HH:MM:SS" *)
Definition date_text (y m d : Z) : list Z := decimal 4 y ++ [47] ++ decimal 2 m ++ [47] ++ decimal 2 d.
Definition time_text (h m s : Z) : list Z := decimal 2 h ++ [58] ++ decimal 2 m ++ [58] ++ decimal 2 s.
