(** The ideal computer of Ideal.v with READ and RESTORE: what is left to read is a list of items.  [UB] is what is left unspecified. *)
From Verif Require Import Base Tokens Runner Codes NumTextSpec ProgSpec Ideal HostData.

(** ** The number an item is: [-]digits[.digits], at most 16 characters, the whole part below 524288, at most six decimals.
    An item with a character no number has (among the first 16) cannot be read as a number. *)
Definition numeric (c : Z) : bool := ((48 <=? c) && (c <=? 57)) || (c =? 45) || (c =? 46).
Fixpoint numeric_part (t : list Z) : list Z * list Z :=
  match t with c :: r => if numeric c then let (p, q) := numeric_part r in (c :: p, q) else ([], t) | [] => ([], []) end.
Definition plain_number (t : list Z) : outcome Z :=
  let neg := is_char 45 t in
  let (ds, r) := leading 10 (if neg then tl t else t) in
  let value fs := if (524288 <=? numeral 10 ds) || (6 <? Z.of_nat (length fs)) || (16 <? Z.of_nat (length t)) then UB
    else let v := numeral 10 ds * 4096 + 4096 * numeral 10 fs / 10 ^ Z.of_nat (length fs) in Ok (if neg then - v else v) in
  match r with
  | [] => value []
  | c :: r => if c =? 46 then match leading 10 r with (f :: fs, []) => value (f :: fs) | _ => UB end else UB
  end.
Definition item_number (t : list Z) : outcome Z :=
  match numeric_part t with
  | (_, []) => plain_number t
  | (p, c :: _) => if (length p <? 16)%nat && negb (c =? 32) then Err ERR_READ_FAILURE else UB
  end.
(** the next items, as numbers (false) or texts (true), and what is left.  Running out in the middle is left unspecified. *)
Fixpoint take (ks : list bool) (todo : list (list Z)) : outcome (list thing * list (list Z)) :=
  match ks with
  | [] => Ok ([], todo)
  | k :: ks =>
      match todo with
      | [] => UB
      | i :: todo =>
          let* x := (if k then Ok (Words i) else let* z := item_number i in Ok (Number z)) in
          let* (xs, todo) := take ks todo in Ok (x :: xs, todo)
      end
  end.
Fixpoint places (args : list (entry iloc)) : outcome (list (bool * iloc)) :=
  match args with [] => Ok [] | ER k l :: r => let* ls := places r in Ok ((k, l) :: ls) | _ => UB end.
Fixpoint fill (s : istate) (ls : list (bool * iloc)) (xs : list thing) : istate :=
  match ls, xs with (_, l) :: ls, x :: xs => fill (put s l x) ls xs | _, _ => s end.

Section Data.
(** the statements of the program, and the items of each (none if it is not a DATA statement) *)
Variable us : list statement.
Variable its : list (list (list Z)).
(** the items from statement [n] on *)
Definition from_here (n : nat) : list (list Z) := concat (skipn n its).
Definition data_icmd (max cells : Z) (c : Z) (args : list (entry iloc)) (st : istate * list (list Z)) : option (outcome (istate * list (list Z))) :=
  let (s, todo) := st in
  if c =? CMD_READ then
    Some (match args with
          | [] => UB
          | _ => let* ls := places args in
                 match todo with
                 | [] => Err ERR_OUT_OF_DATA
                 | _ => let* (xs, todo) := take (map fst ls) todo in Ok (fill s ls xs, todo)
                 end
          end)
  else if c =? CMD_RESTORE then
    Some (match args with
          | [v] => let* n := slab (ideal max cells) ideal_text us v s in Ok (s, from_here (Z.to_nat n))
          | _ => UB
          end)
  else None.
End Data.
(** a computer with at most [max] variables and [cells] cells of array memory, running the statements [us] with the items [its] *)
Definition ideal_data (us : list statement) (its : list (list (list Z))) (max cells : Z) : host := attach (ideal max cells) (list (list Z)) (data_icmd us its max cells).
Definition ideal_data_text (st : istate * list (list Z)) (l : iloc) : list Z := ideal_text (fst st) l.
(** at the start everything is still to be read *)
Definition ideal_data_start (its : list (list (list Z))) : istate * list (list Z) := (ideal_start, from_here its 0).
