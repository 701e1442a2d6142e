(** What DATA statements hold and what READ delivers. *)
From Verif Require Import Base NumTextSpec BytecodeSpec Data.

(** the text of one item between commas, and the item *)
Definition blank (l : list Z) : Prop := Forall (fun c => c = 32) l.
Definition word (l : list Z) : Prop :=
  match l with [] => False | c :: _ => c <> 34 end /\ Forall (fun c => c <> 0 /\ c <> 32 /\ c <> 44 /\ c <> 13) l.
Inductive field : list Z -> list Z -> Prop :=
| f_empty a : blank a -> field a []
| f_word a w b : blank a -> word w -> blank b -> field (a ++ w ++ b) w
| f_quoted a q b : blank a -> Forall (fun c => c <> 0 /\ c <> 34 /\ c <> 13) q -> blank b -> field (a ++ [34] ++ q ++ [34] ++ b) q.
(** the text of a DATA statement up to the end of the line: items separated by commas *)
Inductive data_text : list Z -> list (list Z) -> Prop :=
| dt_last f i : field f i -> data_text f [i]
| dt_more f i t is : field f i -> data_text t is -> data_text (f ++ [44] ++ t) (i :: is).

(** the items of a compiled DATA statement *)
Definition pack (is : list (list Z)) : list Z := concat (map (fun i => i ++ [0]) is).
Definition data_ok (i : instr) : Prop :=
  match i with IData s => exists is, is <> [] /\ Forall (Forall (fun c => c <> 0)) is /\ s = pack is | _ => True end.
Fixpoint unpack (acc s : list Z) : list (list Z) :=
  match s with [] => [] | c :: r => if c =? 0 then rev acc :: unpack [] r else unpack (c :: acc) r end.
(** all items of a piece of program, in textual order *)
Fixpoint items (l : list instr) : list (list Z) :=
  match l with [] => [] | IData s :: r => unpack [] s ++ items r | _ :: r => items r end.

(** the value an item has for a number or string variable *)
Inductive item_value : kind -> list Z -> value -> Prop :=
| iv_string s : ~ In 13 s -> item_value KStr s (RStr s)
| iv_number (neg : bool) ds fs : digits 10 ds -> digits 10 fs -> numeral 10 ds < 524288 -> (length fs <= 6)%nat ->
    (length (decimal_text neg ds fs) <= 16)%nat ->
    item_value KNum (decimal_text neg ds fs)
      (RNum (let v := numeral 10 ds * 4096 + 4096 * numeral 10 fs / 10 ^ Z.of_nat (length fs) in if neg then - v else v)).
Definition strings (ks : list kind) : Z := Z.of_nat (length (filter (fun k => match k with KStr => true | _ => false end) ks)).

(** programs of READ and RESTORE: [Restore k] names a label at instruction [k] *)
Inductive op := Read (ks : list kind) | Restore (k : nat).
Inductive delivers (prog : list instr) : list (list Z) -> list op -> list value -> list (list Z) -> Prop :=
| dl_nil rest : delivers prog rest [] [] rest
| dl_read ks is vs rest ops ws rest' : ks <> [] -> Forall2 (fun ki v => item_value (fst ki) (snd ki) v) (combine ks is) vs -> length is = length ks ->
    delivers prog rest ops ws rest' -> delivers prog (is ++ rest) (Read ks :: ops) (vs ++ ws) rest'
| dl_restore k rest0 ops ws rest' : (k <= length prog)%nat -> delivers prog (items (skipn k prog)) ops ws rest' ->
    delivers prog rest0 (Restore k :: ops) ws rest'.
Definition op_strings (o : op) : Z := match o with Read ks => strings ks | Restore _ => 0 end.
