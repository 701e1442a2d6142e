(** Property theorems on labels: C13. *)
From Verif Require Import Base HashProofs Labels LabelsProofs.
From Coq Require Import List ZArith Lia.
Import ListNotations.
Open Scope Z_scope.

(** Loading the label definitions [defs] (name, position) of a program into a
    fresh table of 2^n entries succeeds exactly when the names are distinct and
    fit; then every defined name resolves to its definition and every other name
    is not found.  [valid_name]: 1 to 16 characters, none NUL. *)
Theorem C13_load : forall n defs, 0 <= n -> Forall (fun d => valid_name (fst d)) defs ->
  match load (init_labels (2 ^ n)) defs with
  | Some l => NoDup (map fst defs) /\ Z.of_nat (length defs) <= 2 ^ n /\
      forall name, valid_name name ->
        (forall i, In (name, i) defs -> label_index l name = i) /\
        (~ In name (map fst defs) -> label_index l name = LABEL_NOT_FOUND)
  | None => ~ NoDup (map fst defs) \/ 2 ^ n < Z.of_nat (length defs)
  end.
Proof. exact load_resolves. Qed.
Print Assumptions C13_load.

(** GOTO/GOSUB/RESTORE to a label written in the program, or to a string
    beginning with '@' *)
Theorem C13_jump : forall n defs l name, 0 <= n -> Forall (fun d => valid_name (fst d) /\ 0 <= snd d < LABEL_NOT_FOUND) defs ->
  load (init_labels (2 ^ n)) defs = Some l -> valid_name name ->
  (forall i, In (name, i) defs -> search_label l (Lit name) = Ok i /\ search_label l (Text (64 :: name)) = Ok i) /\
  (~ In name (map fst defs) -> search_label l (Lit name) = Err ERR_LABEL_NOT_FOUND /\
                               search_label l (Text (64 :: name)) = Err ERR_LABEL_NOT_FOUND).
Proof. exact jump_spec. Qed.
Print Assumptions C13_jump.

(** after the table is reset it can be loaded again *)
Theorem C13_reload : forall n defs1 defs l1, 0 <= n ->
  Forall (fun d => valid_name (fst d)) defs1 -> Forall (fun d => valid_name (fst d)) defs ->
  load (init_labels (2 ^ n)) defs1 = Some l1 ->
  match load (reset_label l1) defs with
  | Some l => NoDup (map fst defs) /\ Z.of_nat (length defs) <= 2 ^ n /\
      forall name, valid_name name ->
        (forall i, In (name, i) defs -> label_index l name = i) /\
        (~ In name (map fst defs) -> label_index l name = LABEL_NOT_FOUND)
  | None => ~ NoDup (map fst defs) \/ 2 ^ n < Z.of_nat (length defs)
  end.
Proof. exact reload_spec. Qed.
Print Assumptions C13_reload.

(** the table sized for a source text is a power of two with room for every line
    starting with '@' (the lines that can define a label) *)
Theorem C13_table_size : forall data, Z.of_nat (length data) <= 2 ^ 31 -> 0 < label_lines data ->
  exists k, 0 <= k <= 31 /\ calc_min_labels data = 2 ^ k /\ label_lines data <= 2 ^ k.
Proof. exact table_size. Qed.
Print Assumptions C13_table_size.
Theorem C13_no_labels_refuted : calc_min_labels [] = 0 /\ forall l x, label_count l = 0 -> search_label l x = UB.
Proof. exact no_labels. Qed.
Print Assumptions C13_no_labels_refuted.

Example C13_ok : let l := load (init_labels (2 ^ 2)) [([65], 0); ([65; 65], 10); ([66], 20); ([67; 49], 30)] in
  match l with
  | Some l => map (label_index l) [[65]; [65; 65]; [66]; [67; 49]; [67]] = [0; 10; 20; 30; LABEL_NOT_FOUND]
  | None => False end.
Proof. reflexivity. Qed.
Example C13_dup : load (init_labels (2 ^ 2)) [([65], 0); ([66], 10); ([65], 20)] = None.
Proof. reflexivity. Qed.
Example C13_valid : Forall (fun d : list Z * Z => valid_name (fst d) /\ 0 <= snd d < LABEL_NOT_FOUND) [([65], 0); ([65; 65], 10)].
Proof. repeat constructor; simpl; unfold LABEL_NOT_FOUND; lia. Qed.
Example C13_size_ok : label_lines [64; 65; 13; 32; 64; 66; 13; 65; 64; 13; 64; 67] = 3 /\
  calc_min_labels [64; 65; 13; 32; 64; 66; 13; 65; 64; 13; 64; 67] = 4.
Proof. split; reflexivity. Qed.

(** A string label is not checked for its '@': GOTO "XA" jumps to @A.  A string
    longer than 17 characters, an empty one, or any label in a program without
    labels is undefined behaviour instead of Label not found. *)
Theorem C13_string_label_refuted : forall l name, valid_name name ->
  (forall c, search_label l (Text (c :: name)) = search_label l (Lit name)) /\
  search_label l (Text []) = UB /\
  (forall cs, (17 < length cs)%nat -> search_label l (Text cs) = UB).
Proof. exact string_label. Qed.
Print Assumptions C13_string_label_refuted.
