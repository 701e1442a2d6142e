(** SORT and RSORT (source/subsystem/variables.c:20-156).  The elements are values of any type with a
    comparison [comp]; the arrays are lists of elements, addressed by their number in [arrs] (in C: by
    pointer, so the same array may be given more than once). *)
From Verif Require Import Base Strs.

Section Sort.
Context {V : Type} (comp : V -> V -> bool).
Definition store := list (list V).
Definition arr (s : store) (a : nat) : list V := nth a s [].
Definition at_ (l : list V) (i : Z) : outcome V :=
  if i <? 0 then UB else match nth_error l (Z.to_nat i) with Some v => Ok v | None => UB end.
Definition swap1 (l : list V) (i j : Z) : outcome (list V) :=
  let* x := at_ l i in let* y := at_ l j in Ok (upd (upd l (Z.to_nat i) y) (Z.to_nat j) x).
(** variables.c:22-35 _sort_swap: the sorted array, then the extra arrays up to the first NULL *)
Fixpoint sort_swap (s : store) (ids : list nat) (i j : Z) : outcome store :=
  match ids with
  | [] => Ok s
  | a :: r => let* l := swap1 (arr s a) i j in sort_swap (upd s a l) r i j
  end.

(** variables.c:50-55: the two do-while loops, after the first ++start / --end.  They leave the array
    (UB) before [fuel], the number of its elements plus one, is used up. *)
Fixpoint scan_up (fuel : nat) (l : list V) (pivot : V) (i : Z) : outcome Z :=
  match fuel with
  | O => UB
  | S f => let* v := at_ l i in if comp v pivot then scan_up f l pivot (i + 1) else Ok i
  end.
Fixpoint scan_down (fuel : nat) (l : list V) (pivot : V) (j : Z) : outcome Z :=
  match fuel with
  | O => UB
  | S f => let* v := at_ l j in if comp pivot v then scan_down f l pivot (j - 1) else Ok j
  end.
(** variables.c:49-60 the while loop; every round advances [i] *)
Fixpoint part_loop (fuel : nat) (s : store) (ids : list nat) (d : nat) (pivot : V) (i j : Z) : outcome (store * Z) :=
  match fuel with
  | O => UB
  | S f =>
      let l := arr s d in
      let* i := scan_up (S (length l)) l pivot (i + 1) in
      let* j := scan_down (S (length l)) l pivot (j - 1) in
      if i >=? j then Ok (s, i)
      else let* s := sort_swap s ids i j in part_loop f s ids d pivot i j
  end.
(** variables.c:41-61 _partition; [ids] is the array [d] followed by the extra arrays *)
Definition partition (s : store) (ids : list nat) (d : nat) (start end_ : Z) : outcome (store * Z) :=
  if end_ - start <=? 1 then Ok (s, start) else
  let* pivot := at_ (arr s d) (start + (end_ - start) / 2) in
  part_loop (S (length (arr s d))) s ids d pivot (start - 1) (end_ + 1).
(** variables.c:100-107 quick_sort; None: the recursion is deeper than [fuel] *)
Fixpoint quick_sort (fuel : nat) (s : store) (ids : list nat) (d : nat) (start end_ : Z) : option (outcome store) :=
  match fuel with
  | O => None
  | S f =>
      if end_ - start <=? 1 then Some (Ok s) else
      match partition s ids d start end_ with
      | Ok (s, p) =>
          match quick_sort f s ids d start p with
          | Some (Ok s) => quick_sort f s ids d (p + 1) end_
          | r => r
          end
      | Err e => Some (Err e)
      | UB => Some UB
      end
  end.

(** variables.c:110-147 _cmd_sort_shared.  An argument is an array: its number and whether it has two
    dimensions; None is an array that was never created (NULL pointer).  [start], [size] are the integer
    parts of the first two arguments. *)
Definition arg := option (nat * bool).
Fixpoint check_extra (s : store) (d : nat) (min_size : Z) (extra : list arg) : outcome (Z * list nat) :=
  match extra with
  | [] => Ok (min_size, [])
  | None :: _ => UB
  | Some (a, two) :: r =>
      let n := Z.of_nat (length (arr s a)) in
      let m := if n <? min_size then n else min_size in
      if two then Err ERR_SORT_2D else if Nat.eqb a d then Err ERR_SORT_SAME_ARRAY else
      let* (m, ids) := check_extra s d m r in Ok (m, a :: ids)
  end.
Definition cmd_sort (fuel : nat) (s : store) (start size : Z) (data : arg) (extra : list arg) : option (outcome store) :=
  if (32 <? length extra)%nat then Some (Err ERR_SYNTAX) else
  match data with
  | None => Some UB
  | Some (d, two) =>
      if two then Some (Err ERR_SORT_2D) else
      match check_extra s d (Z.of_nat (length (arr s d))) extra with
      | Ok (m, ids) =>
          if (start <? 0) || (start >? m - 1) then Some (Err ERR_OUT_OF_RANGE)
          else if (size <? 0) || (size >? m - start) then Some (Err ERR_OUT_OF_RANGE)
          else quick_sort fuel s (d :: ids) d start (start + size - 1)
      | Err e => Some (Err e)
      | UB => Some UB
      end
  end.
End Sort.
(** variables.c:63-70 numbers; :72-98 strings (str_lex compares in the same way, Strs.v) *)
Definition fixp_sort_comp (a b : Z) : bool := a <? b.
Definition fixp_rsort_comp (a b : Z) : bool := a >? b.
Fixpoint str_sort_loop (a b : list Z) : bool :=   (* on the wide characters *)
  match a, b with
  | x :: a, y :: b => if x <? y then true else if y <? x then false else str_sort_loop a b
  | [], _ :: _ => true
  | _, _ => false
  end.
Definition str_sort_comp (a b : str) : bool := str_sort_loop (str_wide_copy a) (str_wide_copy b).
Fixpoint str_rsort_loop (a b : list Z) : bool :=
  match a, b with
  | x :: a, y :: b => if x =? y then str_rsort_loop a b else x >? y
  | _ :: _, [] => true
  | _, _ => false
  end.
Definition str_rsort_comp (a b : str) : bool := str_rsort_loop (str_wide_copy a) (str_wide_copy b).

(** variables.c:9-18 cmd_swap, on the two cells *)
Definition cmd_swap {V} (m : list V) (a b : nat) : outcome (list V) :=
  match nth_error m a, nth_error m b with Some x, Some y => Ok (upd (upd m a y) b x) | _, _ => UB end.
