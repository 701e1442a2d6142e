(** A line editor: the text before the cursor (last character first) and the text after it. *)
From Verif Require Import Base Strs NumText NumTextSpec Console LineInput.
Open Scope Z_scope.
Definition line : Type := list Z * list Z.
Definition typed (l : line) : list Z := rev (fst l) ++ snd l.
Definition cursor (l : line) : Z := Z.of_nat (length (fst l)).
Definition full (l : line) : bool := Nat.leb 32 (length (typed l)).
(** L and R only switch the keyboard; then Backspace, Delete, Return, a character, left, right, the first that is pressed *)
Definition press (l : line) (k : keys) : line :=
  let '(before, after) := l in
  if k_lr k then l
  else if k_back k then match before with [] => l | _ :: b => (b, after) end
  else if k_del k then match after with [] => l | _ :: a => (before, a) end
  else if k_char k =? 13 then l
  else if negb (k_char k =? 0) && negb (full l) then (k_char k :: before, after)
  else if k_left k then match before with [] => l | c :: b => (b, c :: after) end
  else if k_right k then match after with [] => l | c :: a => (c :: before, a) end
  else l.
(** the line is finished with Return or A; an error breaks it off *)
Definition finishes (k : keys) : bool := (k_char k =? 13) || k_a k.
Definition breaks (k : keys) : bool := k_err k.
Inductive typing : line -> list keys -> line -> bool -> list keys -> Prop :=
| t_break l k t : breaks k = true -> typing l (k :: t) (press l k) true t
| t_finish l k t : breaks k = false -> finishes k = true -> typing l (k :: t) (press l k) false t
| t_more l k t l' e r : breaks k = false -> finishes k = false -> typing (press l k) t l' e r -> typing l (k :: t) l' e r.
(** cell [x] of row [y] *)
Definition cell (c : console) (x y : Z) : Z := nth (Z.to_nat (32 * y + x)) (text c) 0.
Definition hue (c : console) (x y : Z) : Z := nth (Z.to_nat (32 * y + x)) (color c) 0.
(** a console as it should be; the cursor on one of the 24 rows *)
Definition sound (c : console) : Prop := length (text c) = 768%nat /\ length (color c) = 768%nat /\ 0 <= cy c <= 23.
Definition blank_row (c : console) (y : Z) : Prop := forall x, 0 <= x < 32 -> cell c x y = 0.
(** the row of the cursor shows the text and nothing else, in the current colour; no other row differs from [c0] *)
Definition shows (c0 c : console) (ws : list Z) : Prop :=
  sound c /\ cy c = cy c0 /\ col c = col c0 /\ tabstep c = tabstep c0 /\
  (forall x, 0 <= x < 32 -> cell c x (cy c0) = nth (Z.to_nat x) ws 0) /\
  (forall x, 0 <= x < Z.of_nat (length ws) -> hue c x (cy c0) = col c0) /\
  (forall x y, 0 <= x < 32 -> 0 <= y < 24 -> y <> cy c0 -> cell c x y = cell c0 x y /\ hue c x y = hue c0 x y).
(** the characters of a string *)
Definition reads (s : str) : list Z := match s with SChar b | SBc b => map to_wide b | SWide w => w end.
(** the keys used up never meet a full line *)
Fixpoint never_full (l : line) (ks : list keys) : bool :=
  match ks with [] => true | k :: t => negb (full l) && (breaks k || finishes k || never_full (press l k) t) end.
(** only characters of the character set are typed (keys that give none give 0) *)
Definition in_set (k : keys) : Prop := exists b, 0 <= b < 256 /\ k_char k = to_wide b.

(** ** INPUT *)
(** the text of a field and the value it gives *)
Inductive field_value : ivar -> list Z -> ival -> Prop :=
| fv_num (neg : bool) ds fs : ds <> [] -> digits 10 ds -> digits 10 fs -> numeral 10 ds < 524288 -> (length fs <= 6)%nat ->
    field_value INum (decimal_text neg ds fs)
      (IVNum (let v := numeral 10 ds * 4096 + 4096 * numeral 10 fs / 10 ^ Z.of_nat (length fs) in if neg then - v else v))
| fv_str bs : Forall (fun b => 0 < b < 256 /\ b <> 44) bs -> field_value IStr bs (IVStr (SChar bs)).
(** the fields with commas between them *)
Fixpoint line_of (fs : list (list Z)) : list Z := match fs with [] => [] | [f] => f | f :: t => f ++ [44] ++ line_of t end.
Definition comma_count (ws : list Z) : nat := length (filter (fun w => w =? to_wide 44) ws).
(** the rows from the cursor's on are empty *)
Definition clear_below (c : console) : Prop := forall y, cy c <= y < 24 -> blank_row c y.
(** INPUT waits for a line in the cursor's row: [cmd_input] after the prompt *)
Definition asking (c : console) (prompt : option (list Z)) (vars : list ivar) (vals : list ival) (ks : list keys) : outcome (answer (list ival)) :=
  input_loop (S (length ks)) c prompt vars vals ks.
