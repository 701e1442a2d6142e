(** C37: DATA, READ, RESTORE. *)
From Verif Require Import Base BaseLemmas Strs NumText NumTextSpec Memory Tokens Bytecode BytecodeSpec BytecodeProofs Runner Data DataSpec DataProofs.
Ltac Zify.zify_post_hook ::= Z.div_mod_to_equations.
Open Scope Z_scope.

(** A DATA line is compiled to one instruction holding exactly its items, in order. *)
Theorem C37_statement : forall t is d, data_text t is -> (length (pack is) < 256)%nat -> Nat.even (length d) = true ->
  tok_data d (t ++ [13]) = d ++ enc (IData (pack is)) /\ data_ok (IData (pack is)) /\ items [IData (pack is)] = is.
Proof.
  intros t is d T L E. destruct (text_items t is T) as (N & Z0). split; [|split].
  - unfold tok_data. rewrite (loop_text t is T). cbn [enc].
    replace (u8 (Z.of_nat (length (pack is)))) with (len (pack is)) by (unfold u8, len; change (2 ^ 8) with 256; lia). apply padded_text. exact E.
  - exists is. auto.
  - rewrite (items_data _ is []) by (assumption || reflexivity). apply app_nil_r.
Qed.
Example C37_statement_ok : data_text [32;49;32;44;34;97;44;98;34;44;44;88] [[49]; [97;44;98]; []; [88]].   (* DATA 1 ,"a,b",,X *)
Proof.
  change [32;49;32;44;34;97;44;98;34;44;44;88] with ([32;49;32] ++ [44] ++ [34;97;44;98;34] ++ [44] ++ [] ++ [44] ++ [88]).
  constructor; [apply (f_word [32] [49] [32]); repeat constructor; lia|].
  constructor; [apply (f_quoted [] [97;44;98] []); repeat constructor; lia|].
  constructor; [constructor; constructor|]. constructor. apply (f_word [] [88] []); repeat constructor; lia.
Qed.

(** Any sequence of READs and RESTOREs, from the start of the program, delivers what it should, as long
    as there are items and free strings. *)
Definition total (ops : list op) : Z := fold_right (fun o n => op_strings o + n) 0 ops.
Lemma total_pos ops : 0 <= total ops.
Proof. induction ops as [|o ops IH]; cbn [total fold_right]; [lia|]. change (fold_right _ 0 ops) with (total ops). destruct o; cbn [op_strings]; [pose proof (strings_pos ks)|]; lia. Qed.
Lemma history_from prog : Forall good prog -> Forall data_ok prog -> forall rest ops vs rest', delivers prog rest ops vs rest' -> forall s, standing prog s rest -> total ops <= d_free s ->
  exists s', run_ops prog s ops = (vs, s', Done) /\ standing prog s' rest' /\ d_free s' = d_free s - total ops.
Proof.
  intros G D rest ops vs rest' H. induction H as [rest|ks is vs rest ops ws rest' N V L H IH|k rest0 ops ws rest' K H IH]; intros s S T.
  - exists s. split; [reflexivity|]. split; [exact S|]. cbn. lia.
  - cbn [total fold_right op_strings] in T. change (fold_right _ 0 ops) with (total ops) in T. pose proof (total_pos ops) as TP.
    destruct (read_from prog s (is ++ rest) ks G D S) as [(W & _)|(i & ofs & B & E)].
    { destruct is; [destruct ks; [contradiction|discriminate]|discriminate]. }
    destruct (read_vars_ok prog G D ks is vs rest i ofs (d_free s) [] N L V ltac:(lia) B) as (s1 & E1 & S1 & F1).
    destruct (IH s1 S1 ltac:(lia)) as (s2 & E2 & S2 & F2). exists s2. cbn [run_ops]. rewrite E, E1, E2. split; [reflexivity|]. split; [exact S2|].
    cbn [total fold_right op_strings]. change (fold_right _ 0 ops) with (total ops). lia.
  - cbn [total fold_right op_strings] in T. change (fold_right _ 0 ops) with (total ops) in T.
    destruct (restore_from prog s k G D K) as (s1 & E1 & S1 & F1). destruct (IH s1 S1 ltac:(lia)) as (s2 & E2 & S2 & F2).
    exists s2. cbn [run_ops]. rewrite E1. split; [exact E2|]. split; [exact S2|]. cbn [total fold_right op_strings]. change (fold_right _ 0 ops) with (total ops). lia.
Qed.
Lemma run_snoc prog ops : forall s vs s1, run_ops prog s ops = (vs, s1, Done) -> forall o x, run_ops prog s1 [o] = x -> run_ops prog s (ops ++ [o]) = let '(ws, s2, f) := x in (vs ++ ws, s2, f).
Proof.
  induction ops as [|o ops IH]; intros s vs s1 E o' x X.
  - cbn in E. injection E as <- <-. cbn [app]. rewrite X. destruct x as [[ws s2] f]. reflexivity.
  - cbn [app]. cbn [run_ops] in E |- *. destruct o as [ks|k].
    + destruct (cmd_read (encode prog) s ks) as [[v1 s0] f]. destruct f; try discriminate. destruct (run_ops prog s0 ops) as [[v2 s2] f2] eqn:E2. injection E as <- <- ->.
      rewrite (IH s0 v2 s2 E2 _ x X). destruct x as [[ws s3] f3]. rewrite app_assoc. reflexivity.
    + destruct (cmd_restore (encode prog) s (Ok (start prog k))) as [s0 f]. destruct f; try discriminate. apply (IH s0 vs s1); assumption.
Qed.
Theorem C37_history : forall prog ops vs rest free, Forall good prog -> Forall data_ok prog ->
  delivers prog (items prog) ops vs rest -> total ops <= free ->
  exists s, run_ops prog (reader_start free) ops = (vs, s, Done).
Proof.
  intros prog ops vs rest free G D H T. destruct (history_from prog G D _ _ _ _ H (reader_start free) (start_standing prog free D) T) as (s & E & _). exists s. exact E.
Qed.
(** Reading on when the last item has been delivered: Out of data, whatever is read. *)
Theorem C37_out_of_data : forall prog ops vs free ks, Forall good prog -> Forall data_ok prog ->
  delivers prog (items prog) ops vs [] -> total ops <= free ->
  exists s, run_ops prog (reader_start free) (ops ++ [Read ks]) = (vs, s, Raised ERR_OUT_OF_DATA).
Proof.
  intros prog ops vs free ks G D H T. destruct (history_from prog G D _ _ _ _ H (reader_start free) (start_standing prog free D) T) as (s & E & S & _).
  rewrite (run_snoc _ _ _ _ _ E _ _ eq_refl). cbn [run_ops]. destruct (read_from prog s [] ks G D S) as [(_ & s' & E' & _)|(i & ofs & (a & c & pre & is & _ & N & _ & _ & _ & R) & _)].
  - rewrite E'. eexists. rewrite app_nil_r. reflexivity.
  - destruct is; [contradiction|discriminate].
Qed.
(** An item that is not a value of the wanted kind: an error, and it can be tried again. *)
Inductive unreadable : kind -> list Z -> Prop :=
| ur_text s : In 13 s -> unreadable KStr s                     (* text after an unquoted item, e.g. DATA A B *)
| ur_number p c q : Forall (fun c => 48 <= c <= 57 \/ c = 45 \/ c = 46) p -> (length p < 16)%nat ->
    ~ (48 <= c <= 57 \/ c = 45 \/ c = 46 \/ c = 32) -> unreadable KNum (p ++ c :: q).
Lemma unreadable_one free k it r : unreadable k it -> Forall (fun c => c <> 0) it -> read_one free k (it ++ 0 :: r) = Err ERR_READ_FAILURE.
Proof.
  intros U F. destruct U as [s I|p c q P L C].
  - cbn [read_one]. unfold read_string. replace (read_chars (s ++ 0 :: r)) with (@None (list Z)); [reflexivity|]. symmetry.
    induction F as [|x s X F IH]; [destruct I|]. cbn [app read_chars]. unfold BC_DATA_DELIM, BC_DATA_ERROR in *. destruct (Z.eqb_spec x 0); [contradiction|].
    destruct (Z.eqb_spec x 13); [reflexivity|]. destruct I as [W|I]; [contradiction|]. rewrite IH by exact I. reflexivity.
  - cbn [read_one]. unfold read_number. rewrite <- app_assoc. cbn [app].
    assert (Zc : c <> 0) by (apply Forall_app in F; destruct F as [_ F]; inversion F; assumption).
    assert (S0 : spaces (p ++ c :: q ++ 0 :: r) = 0%nat) by (destruct P as [|x p X P]; cbn [app spaces]; [destruct (Z.eqb_spec c 32)|destruct (Z.eqb_spec x 32)]; (lia || reflexivity)).
    rewrite S0. replace (Nat.leb (length (p ++ c :: q ++ 0 :: r)) 0) with false by (symmetry; apply Nat.leb_gt; rewrite app_length; cbn; lia). cbn [skipn Nat.sub].
    replace (read_digits 16 (p ++ c :: q ++ 0 :: r)) with (@Err (list Z) ERR_READ_FAILURE); [reflexivity|]. symmetry. clear S0 F.
    revert L. generalize 16%nat as n. induction P as [|x p X P IH]; intros n L; (destruct n as [|n]; [lia|]); cbn [app read_digits].
    + replace (is_number c || (c =? 45) || (c =? 46)) with false by (symmetry; unfold is_number; lia). unfold BC_DATA_DELIM. destruct (Z.eqb_spec c 0); [contradiction|reflexivity].
    + replace (is_number x || (x =? 45) || (x =? 46)) with true by (symmetry; unfold is_number; lia). cbn [length] in L. rewrite IH by lia. reflexivity.
Qed.
Theorem C37_unreadable : forall prog ops vs it rest free k ks, Forall good prog -> Forall data_ok prog ->
  delivers prog (items prog) ops vs (it :: rest) -> total ops <= free -> unreadable k it ->
  exists s, run_ops prog (reader_start free) (ops ++ [Read (k :: ks)]) = (vs, s, Raised ERR_READ_FAILURE).
Proof.
  intros prog ops vs it rest free k ks G D H T U. destruct (history_from prog G D _ _ _ _ H (reader_start free) (start_standing prog free D) T) as (s & E & S & _).
  rewrite (run_snoc _ _ _ _ _ E _ _ eq_refl). cbn [run_ops]. destruct (read_from prog s _ (k :: ks) G D S) as [(W & _)|(i & ofs & B & R)]; [discriminate|].
  destruct (one_item prog i ofs (d_free s) it rest k ks [] G D B) as (Zi & _ & Q & _). rewrite R, (Q ERR_READ_FAILURE).
  - eexists. rewrite app_nil_r. reflexivity.
  - intro r. apply unreadable_one; assumption.
Qed.

(** What does not hold.  A READ with more variables than items left ends the interpreter instead of
    raising Out of data. *)
Lemma past_end prog : Forall good prog -> Forall data_ok prog -> forall ks is vs i ofs free acc k kr,
  ks <> [] -> length is = length ks -> Forall2 (fun ki v => item_value (fst ki) (snd ki) v) (combine ks is) vs -> strings ks <= free -> blockat prog i ofs is ->
  exists s, read_vars (encode prog) i ofs free (ks ++ k :: kr) acc = (rev acc ++ vs, s, Crash).
Proof.
  intros G D. induction ks as [|k ks IH]; intros is vs i ofs free acc k' kr N L V S B; [contradiction|].
  destruct is as [|it is]; [discriminate|]. cbn [combine] in V. inversion V as [|? v ? vs' Hv V' Eq1 Eq2]; subst. cbn [fst snd] in Hv.
  rewrite strings_cons in S. pose proof (strings_pos ks) as SP. cbn [app].
  destruct (one_item prog i ofs free it is k (ks ++ k' :: kr) acc G D B) as (Zi & Q & _).
  assert (RI : forall r, read_one free k (it ++ 0 :: r) = Ok (zlen it, v)) by (intro r; apply read_item; [exact Hv|exact Zi|intros ->; lia]).
  specialize (Q v (RI []) RI). cbv zeta in Q.
  assert (Fr : match v with RStr _ => free - 1 | RNum _ => free end = free - match k with KStr => 1 | _ => 0 end) by (destruct Hv; lia).
  rewrite Fr in Q. injection L as L. destruct Q as [[R Q]|(j & o & B' & Q)]; rewrite Q.
  - subst is. destruct ks; [|discriminate]. inversion V'; subst. eexists. cbn [app rev]. reflexivity.
  - destruct ks as [|k2 ks].
    + destruct is; [|discriminate]. destruct B' as (a & c & pre & is & _ & Ne & _ & _ & _ & R). destruct is; [contradiction|discriminate].
    + destruct (IH is vs' j o (free - match k with KStr => 1 | _ => 0 end) (v :: acc) k' kr ltac:(discriminate) L V' ltac:(lia) B') as (s & E).
      exists s. rewrite E. cbn [rev]. rewrite <- app_assoc. reflexivity.
Qed.
Theorem C37_past_end_refuted : forall prog ops ws is ks vs free k kr, Forall good prog -> Forall data_ok prog ->
  delivers prog (items prog) ops ws is -> ks <> [] -> length is = length ks -> Forall2 (fun ki v => item_value (fst ki) (snd ki) v) (combine ks is) vs ->
  total ops + strings ks <= free ->
  exists s, run_ops prog (reader_start free) (ops ++ [Read (ks ++ k :: kr)]) = (ws ++ vs, s, Crash).
Proof.
  intros prog ops ws is ks vs free k kr G D H N L V T. pose proof (strings_pos ks) as SP. destruct (history_from prog G D _ _ _ _ H (reader_start free) (start_standing prog free D) ltac:(cbn [reader_start d_free]; lia)) as (s & E & S & F).
  rewrite (run_snoc _ _ _ _ _ E _ _ eq_refl). cbn [run_ops]. destruct (read_from prog s is (ks ++ k :: kr) G D S) as [(W & _)|(i & ofs & B & R)].
  { subst is. destruct ks; [contradiction|discriminate]. }
  cbn [reader_start d_free] in F. destruct (past_end prog G D ks is vs i ofs (d_free s) [] k kr N L V ltac:(lia) B) as (s' & E'). rewrite R, E'. eexists. reflexivity.
Qed.
(** Every string READ uses up one string of the pool for good, even when it replaces the variable's old
    value: when the pool is empty the next one ends the interpreter. *)
Theorem C37_pool_refuted : forall prog ops vs it rest, Forall good prog -> Forall data_ok prog ->
  delivers prog (items prog) ops vs (it :: rest) -> ~ In 13 it ->
  exists s, run_ops prog (reader_start (total ops)) (ops ++ [Read [KStr]]) = (vs, s, Crash).
Proof.
  intros prog ops vs it rest G D H N. destruct (history_from prog G D _ _ _ _ H (reader_start (total ops)) (start_standing prog _ D) ltac:(cbn; lia)) as (s & E & S & F).
  cbn [reader_start d_free] in F. rewrite (run_snoc _ _ _ _ _ E _ _ eq_refl). cbn [run_ops]. destruct (read_from prog s _ [KStr] G D S) as [(W & _)|(i & ofs & B & R)]; [discriminate|].
  destruct (one_item prog i ofs (d_free s) it rest KStr [] [] G D B) as (Zi & _ & _ & Q). rewrite R, Q.
  - eexists. rewrite app_nil_r. reflexivity.
  - intro r. cbn [read_one]. unfold read_string. rewrite read_chars_item by assumption. destruct (Z.leb_spec (d_free s) 0); [reflexivity|lia].
Qed.
(** A number of more than 16 characters is read as two items; spaces in front of a quoted number make it 0. *)
Definition demo (is : list (list Z)) : list instr := [IData (pack is); ICmd false 22].
Theorem C37_long_number_refuted : run_ops (demo [map (Z.add 48) [0;0;0;0;0;0;0;0;0;0;0;0;0;0;0;1;2]; [55]]) (reader_start 0) [Read [KNum; KNum]] =
  ([RNum (1 * 4096); RNum (2 * 4096)], mkReader (Some 0) 18 0, Done).
Proof. vm_compute. reflexivity. Qed.
Theorem C37_space_refuted : run_ops (demo [[32; 53]]) (reader_start 0) [Read [KNum]] = ([RNum 0], mkReader None 0 0, Done).
Proof. vm_compute. reflexivity. Qed.
(** A DATA line of 128 or more bytes cannot be passed: execution continues at or before the bytes of the
    line itself (on the PC, where char is signed). *)
Theorem C37_long_line_refuted : forall a s c, (128 <= length s < 256)%nat ->
  exists i nx, fetch (encode (a ++ IData s :: c)) (zlen (encode a)) = Ok (i, nx) /\ nx <= zlen (encode a) + 2.
Proof.
  intros a s c L. unfold fetch. rewrite data_here, data_size. cbv zeta.
  change (BC_DATA =? BC_SMALL_NUMBER) with false. change (BC_DATA =? BC_STRING) with false. change (BC_DATA =? BC_LABEL_STRING) with false. change (BC_DATA =? BC_COMMAND) with false. change (BC_DATA =? BC_COMMAND_FIRST) with false.
  change (BC_DATA =? BC_OPERATOR) with false. change (BC_DATA =? BC_FUNCTION) with false. change (BC_DATA =? BC_SYSVAR) with false. change (BC_DATA =? BC_SYSVAR_VALIDATE) with false. change (BC_DATA =? BC_NUMBER) with false.
  change (BC_DATA =? BC_VARIABLE_ID_SMALL) with false. change (BC_DATA =? BC_VARIABLE_ID) with false. change (BC_DATA =? BC_ARRAY_NAME) with false. change (BC_DATA =? BC_VARIABLE_NAME) with false. change (BC_DATA =? BC_DIM) with false.
  change (BC_DATA =? BC_ARGCOUNT) with false. change (BC_DATA =? BC_BEGIN_LOOP) with false. change (BC_DATA =? BC_DATA) with true. cbv iota.
  do 2 eexists. split; [reflexivity|]. rewrite land1. unfold s8, len. change (2 ^ 7) with 128. change (2 ^ 8) with 256. lia.
Qed.
(** the hypotheses are met: a program with two DATA lines and a RESTORE in between *)
Definition sample : list instr := [IData (pack [[49]; [65]]); ILabel [76]; IData (pack [[45;50;46;53]]); ICmd false 22].
Example C37_ok : Forall good sample /\ Forall data_ok sample /\ items sample = [[49]; [65]; [45;50;46;53]] /\
  delivers sample (items sample) [Read [KNum; KStr]; Read [KNum]; Restore 1; Read [KNum]] [RNum 4096; RStr [65]; RNum (-10240); RNum (-10240)] [].
Proof.
  split; [repeat constructor; cbn; unfold is_byte; lia|]. split; [|split; [reflexivity|]].
  - repeat constructor; cbn. { exists [[49]; [65]]. split; [discriminate|]. split; [repeat constructor; lia|reflexivity]. } exists [[45;50;46;53]]. split; [discriminate|]. split; [repeat constructor; lia|reflexivity].
  - assert (V : item_value KNum [45;50;46;53] (RNum (-10240))) by (apply (iv_number true [2] [5]); try (repeat constructor; lia); cbn; lia).
    apply (dl_read sample [KNum; KStr] [[49]; [65]] [RNum 4096; RStr [65]] [[45;50;46;53]]); [discriminate| |reflexivity|].
    { constructor; [apply (iv_number false [1] []); try (repeat constructor; lia); cbn; lia|]. constructor; [constructor; cbn; lia|constructor]. }
    apply (dl_read sample [KNum] [[45;50;46;53]] [RNum (-10240)] []); [discriminate| |reflexivity|]. { constructor; [exact V|constructor]. }
    apply dl_restore; [cbn; lia|]. change (items (skipn 1 sample)) with ([[45;50;46;53]] ++ []).
    apply (dl_read sample [KNum] [[45;50;46;53]] [RNum (-10240)] [] [] []); [discriminate| |reflexivity|constructor]. constructor; [exact V|constructor].
Qed.
Print Assumptions C37_statement.
Print Assumptions C37_history.
Print Assumptions C37_out_of_data.
Print Assumptions C37_unreadable.
Print Assumptions C37_past_end_refuted.
Print Assumptions C37_pool_refuted.
Print Assumptions C37_long_line_refuted.
