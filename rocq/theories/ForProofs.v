From Verif Require Import Base BaseLemmas Tokens ExprSpec ExprProofs EvalProofs NumText Bytecode BytecodeSpec BytecodeProofs Runner RunnerSpec RunnerProofs ExecProofs StmtSpec StmtProofs EvalLine FlowSpec FlowProofs FlowLine ForSpec.
Ltac Zify.zify_post_hook ::= Z.div_mod_to_equations.

Lemma lor_shift x y : 0 <= x < 16777216 -> 0 <= y < 256 -> u32 (Z.lor x (y * 2 ^ 24)) = x + y * 16777216.
Proof.
  intros X Y. assert (E : Z.lor x (y * 2 ^ 24) = x + y * 2 ^ 24).
  { assert (L : Z.land x (y * 2 ^ 24) = 0).
    { apply Z.bits_inj'. intros n Hn. rewrite Z.land_spec, Z.bits_0. destruct (Z.lt_ge_cases n 24) as [L|G].
      - rewrite Z.mul_pow2_bits_low by exact L. apply andb_false_r.
      - replace (Z.testbit x n) with false; [reflexivity|]. symmetry. destruct (Z.eq_dec x 0) as [->|Nz]; [apply Z.bits_0|]. apply Z.bits_above_log2; [lia|].
        apply Z.lt_le_trans with 24; [|exact G]. apply Z.log2_lt_pow2; [lia|]. change (2 ^ 24) with 16777216. lia. }
    rewrite <- Z.lxor_lor by exact L. symmetry. apply Z.add_nocarry_lxor. exact L. }
  rewrite E. unfold u32. change (2 ^ 24) with 16777216. change (2 ^ 32) with 4294967296. lia.
Qed.

Definition expri (i : instr) : Prop := is_simple i /\ i <> IOp OP_ASSIGN.
Section For.
Context {h : host}.
Variable ids : option ids_fun.
Hypothesis Gi : forall f, ids = Some f -> good_ids f.
Variable lab : labels_fun h.
Notation ref := (ref_of ids).
Notation here pre := (Z.of_nat (length pre)).
Notation ent := (entry (Loc h)).

Definition etok (t : token) : Prop := otok t /\ (ty t = operation -> cl t <> OP_ASSIGN).
Lemma rpn_etok e : wfe e -> forall n, Forall etok (rpn n e).
Proof.
  assert (One : forall o p, o <> OP_ASSIGN -> Forall etok [op_tok o p]) by (intros o p N; constructor; [split; [exact I|intros _; exact N]|constructor]).
  induction e as [k c w|e IH|o e IH|o l r IHl IHr|fn c w b args IH] using expr_ind2; cbn [wfe]; intros Wf n; cbn [rpn].
  - constructor; [|constructor]. unfold etok, otok. cbn [ty]. destruct k; try discriminate; (split; [exact I|]); intro Q; discriminate Q.
  - apply IH. exact Wf.
  - destruct Wf as (U & Wf & _). apply Forall_app. split; [apply IH; exact Wf|]. apply One. intros ->. discriminate U.
  - assert (W2 : bin_level o <> None /\ wfe l /\ wfe r) by tauto. destruct W2 as (W0 & W1 & W2). repeat (apply Forall_app; split); [apply IHl; exact W1|apply IHr; exact W2|]. apply One. apply (bin_bound o W0).
  - apply Forall_app. split; [|constructor; [split; [exact I|intro Q; discriminate Q]|constructor; [destruct fn; (split; [exact I|intro Q; discriminate Q])|constructor]]].
    apply Forall_concat, Forall_map. rewrite Forall_forall. intros x Hx. rewrite Forall_forall in IH. apply IH; [exact Hx|].
    destruct Wf as (Wa & _). apply wfe_args in Wa. rewrite Forall_forall in Wa. apply Wa. exact Hx.
Qed.
Lemma etok_instr t i : etok t -> instr_of ids t = Ok i -> expri i.
Proof.
  assert (Nm : forall b w i, name_instr ids b w = Ok i -> expri i).
  { intros b w j Q. destruct (name_instr_ref ids Gi b w j Q) as [(u & -> & _)|(b' & k & -> & _)]; [destruct b|]; (split; [exact I|intro W; discriminate W]). }
  intros [O N]. unfold otok, instr_of in *. destruct (ty t) eqn:T; try contradiction; try (intros [= <-]; split; [exact I|intro W; discriminate W]); try apply Nm.
  all: first [ intros [= <-]; split; [exact I|]; specialize (N eq_refl); destruct (_ && _); [intro W; discriminate W|congruence]
    | destruct (u8_to_num (text t)) as [n| |]; cbn [bind]; try discriminate; destruct (_ && _); [discriminate|]; intros [= <-]; destruct (num_instr_val n) as [b ->]; split; [exact I|intro W; discriminate W]
    | destruct (u8_to_number _ _ _) as [n| |]; cbn [bind]; try discriminate; intros [= <-]; destruct (num_instr_val n) as [b ->]; split; [exact I|intro W; discriminate W] ].
Qed.
Lemma rpn_expri e n is : wfe e -> instrs ids (rpn n e) = Ok is -> Forall expri is.
Proof.
  intros Wf. generalize (rpn_etok e Wf n). generalize (rpn n e). intros l F. revert is. induction F as [|t l T _ IH]; intros is; cbn [instrs]; [intros [= <-]; constructor|].
  destruct (instr_of ids t) as [i| |] eqn:Q; cbn [bind]; try discriminate. destruct (instrs ids l) as [r| |]; cbn [bind]; try discriminate. intros [= <-]. constructor; [eapply etok_instr; eauto|apply IH; reflexivity].
Qed.
Lemma simple_ix (c : cfg h) i c' : simple c i = Ok c' -> ix c' = ix c.
Proof.
  unfold simple. destruct i; repeat match goal with |- context [bind ?x _] => destruct x as [?| |]; cbn [bind] | |- context [let (_, _) := ?p in _] => destruct p | |- context [if ?b then _ else _] => destruct b end; try discriminate; try (intros [= <-]; reflexivity).
Qed.
Definition condi (i : instr) : Prop := expri i \/ i = ICmd false CMD_TO \/ i = ICmd false CMD_STEP.
(** the private interpreter of NEXT does what the ordinary one does *)
Lemma cond_runs is : Forall good is -> Forall short is -> Forall condi is -> forall pre (c : cfg h) c' fuel, ix c = here pre -> (length is < fuel)%nat ->
  steps lab (pre ++ encode is) (length is) c = Ok c' -> ix c' = here (pre ++ encode is) -> run_cond h fuel (pre ++ encode is) c = Ok c'.
Proof.
  induction is as [|i is IH]; intros G Sh Co pre c c' fuel X L R X'.
  - destruct fuel; [cbn in L; lia|]. cbn [run_cond]. unfold encode in *. cbn [map concat length steps] in *. rewrite app_nil_r in *. injection R as <-. rewrite X. replace (_ <? _) with false by lia. reflexivity.
  - destruct fuel as [|fuel]; [cbn in L; lia|]. cbn [run_cond]. rewrite encode_cons in *. rewrite X. pose proof (enc_len2 i (Forall_inv G)) as E2. rewrite !app_length.
    replace (_ <? _) with true by lia. cbn [length steps] in R.
    assert (Q : step lab (pre ++ enc i ++ encode is) c = cond_step h (pre ++ enc i ++ encode is) c /\ forall c1, step lab (pre ++ enc i ++ encode is) c = Ok c1 -> ix c1 = here (pre ++ enc i)).
    { pose proof (Forall_inv Co) as Ci. unfold cond_step. destruct Ci as [[Si _]|Ci].
      - rewrite (step_simple lab pre i (encode is) c (Forall_inv G) (Forall_inv Sh) Si X). rewrite X, (fetch_enc pre i (encode is) (Forall_inv G) (Forall_inv Sh)). cbn [bind]. split; [unfold goto_; destruct i; try contradiction; reflexivity|]. intros c1 S1. apply simple_ix in S1. exact S1.
      - assert (exists k, i = ICmd false k /\ (k = CMD_TO \/ k = CMD_STEP)) as (k & -> & K) by (destruct Ci as [-> | ->]; eauto). rewrite step_command by (auto; destruct K as [-> | ->]; unfold is_byte, CMD_TO, CMD_STEP; lia).
        rewrite X, (fetch_enc pre (ICmd false k) (encode is) (Forall_inv G) (Forall_inv Sh)). cbn [bind]. unfold goto_. destruct K as [-> | ->]; (split; [reflexivity|intros c1 [= <-]; reflexivity]). }
    destruct Q as [Q1 Q2]. rewrite Q1 in *. destruct (cond_step h _ c) as [c1| |]; cbn [bind] in *; try discriminate.
    specialize (Q2 _ eq_refl). rewrite app_assoc. apply IH; [exact (Forall_inv_tail G)|exact (Forall_inv_tail Sh)|exact (Forall_inv_tail Co)|exact Q2|cbn [length] in L; lia|rewrite <- app_assoc; exact R|rewrite X', <- app_assoc; reflexivity].
Qed.

(** scanning *)
Lemma seek_skip find : forall is p at_ post, forallb (fun i => negb (opcode i =? find)) is = true ->
  snd (seek p at_ (is ++ post) find) = snd (seek p (at_ + here (encode is)) post find).
Proof.
  induction is as [|i is IH]; intros p at_ post N; cbn [app].
  - unfold encode. cbn. rewrite Z.add_0_r. reflexivity.
  - cbn [forallb] in N. apply andb_true_iff in N. destruct N as [N1 N2]. apply negb_true_iff in N1. cbn [seek]. rewrite N1, IH by exact N2. rewrite encode_cons, app_length.
    assert (E : forall l q q' x, snd (seek q x l find) = snd (seek q' x l find)) by (clear; induction l as [|i l IH]; intros; cbn [seek]; [reflexivity|]; destruct (opcode i =? find); [reflexivity|apply IH]).
    rewrite (E post (Some at_) p). f_equal. f_equal. lia.
Qed.
Lemma scan_to find is i post pre : Forall good is -> good i -> Forall good post -> forallb (fun i => negb (opcode i =? find)) is = true -> opcode i = find ->
  bc_scan (pre ++ encode (is ++ i :: post)) (here pre) find = Some (here (pre ++ encode is)).
Proof.
  intros G1 G2 G3 N E. unfold bc_scan. rewrite bc_scan_seek by (apply Forall_app; split; [exact G1|constructor; [exact G2|exact G3]]). rewrite seek_skip by exact N. cbn [seek]. rewrite E, Z.eqb_refl. cbn [snd]. rewrite app_length. f_equal. lia.
Qed.
Lemma opcode_operator i : good i -> (opcode i =? BC_OPERATOR) = true -> exists o, i = IOp o.
Proof.
  intros G. unfold opcode. destruct i as [big v|lb s|f c|o|f|c|c|s|s|s|big i0|n| |s|s|e]; cbn [enc hd app]; try (intro Q; discriminate Q).
  - destruct big; intro Q; discriminate Q.
  - destruct lb; intro Q; discriminate Q.
  - destruct f; intro Q; discriminate Q.
  - eauto.
  - destruct (named_len BC_VARIABLE_NAME s G) as (c & r & E & _). rewrite E. intro Q. discriminate Q.
  - destruct (named_len BC_ARRAY_NAME s G) as (c & r & E & _). rewrite E. intro Q. discriminate Q.
  - destruct (named_len BC_DIM s G) as (c & r & E & _). rewrite E. intro Q. discriminate Q.
  - destruct big; intro Q; discriminate Q.
Qed.
Lemma opcode_loop i : good i -> (opcode i =? BC_BEGIN_LOOP) = true -> i = ILoop.
Proof.
  intros G. unfold opcode. destruct i as [big v|lb s|f c|o|f|c|c|s|s|s|big i0|n| |s|s|e]; cbn [enc hd app]; try (intro Q; discriminate Q).
  - destruct big; intro Q; discriminate Q.
  - destruct lb; intro Q; discriminate Q.
  - destruct f; intro Q; discriminate Q.
  - destruct (named_len BC_VARIABLE_NAME s G) as (c & r & E & _). rewrite E. intro Q. discriminate Q.
  - destruct (named_len BC_ARRAY_NAME s G) as (c & r & E & _). rewrite E. intro Q. discriminate Q.
  - destruct (named_len BC_DIM s G) as (c & r & E & _). rewrite E. intro Q. discriminate Q.
  - destruct big; intro Q; discriminate Q.
  - intros _. reflexivity.
Qed.
Lemma find_assign_at : forall is pre post fuel, Forall good is -> Forall good post -> Forall expri is -> (length is < fuel)%nat ->
  find_assign fuel (pre ++ encode (is ++ IOp OP_ASSIGN :: post)) (here pre) = Some (here (pre ++ encode is)).
Proof.
  intros is. remember (length is) as n eqn:En. revert is En. induction n as [n IHn] using lt_wf_ind. intros is En pre post fuel G1 G2 Ex Lf.
  destruct fuel as [|fuel]; [lia|]. cbn [find_assign].
  assert (Ga : good (IOp OP_ASSIGN)) by (cbn; unfold is_byte, OP_ASSIGN; lia).
  assert (Sp : (forallb (fun i => negb (opcode i =? BC_OPERATOR)) is = true) \/ exists a o b, is = a ++ IOp o :: b /\ forallb (fun i => negb (opcode i =? BC_OPERATOR)) a = true).
  { clear - G1. induction G1 as [|i is G _ IH]; [left; reflexivity|]. destruct (opcode i =? BC_OPERATOR) eqn:O.
    - destruct (opcode_operator i G O) as [o ->]. right. exists [], o, is. auto.
    - destruct IH as [IH|(a & c & b & -> & N)]; [left; cbn [forallb]; rewrite O; exact IH|right; exists (i :: a), c, b; split; [reflexivity|cbn [forallb]; rewrite O; exact N]]. }
  assert (By : forall a o b, byte (pre ++ encode (a ++ IOp o :: b)) (here (pre ++ encode a) + 1) = o).
  { intros a o b. rewrite encode_app, encode_cons. unfold byte. replace (Z.to_nat (here (pre ++ encode a) + 1)) with (length (pre ++ encode a) + 1)%nat by lia. rewrite app_assoc, app_nth2_plus. reflexivity. }
  destruct Sp as [N|(a & o & b & -> & N)].
  - rewrite (scan_to BC_OPERATOR is (IOp OP_ASSIGN) post pre G1 Ga G2 N eq_refl), By, Z.eqb_refl. reflexivity.
  - apply Forall_app in G1. destruct G1 as [Ga1 Gb]. rewrite <- app_assoc, <- app_comm_cons.
    rewrite (scan_to BC_OPERATOR a (IOp o) (b ++ IOp OP_ASSIGN :: post) pre Ga1 (Forall_inv Gb)); [|apply Forall_app; split; [exact (Forall_inv_tail Gb)|constructor; [exact Ga|exact G2]]|exact N|reflexivity].
    rewrite By. apply Forall_app in Ex. destruct Ex as [_ Ex]. destruct (Forall_inv Ex) as [_ Ne]. replace (o =? OP_ASSIGN) with false by (symmetry; apply Z.eqb_neq; intros ->; apply Ne; reflexivity).
    assert (Lb : (length b < n)%nat) by (rewrite En, app_length; cbn [length]; lia). assert (Lf' : (length b < fuel)%nat) by lia.
    specialize (IHn (length b) Lb b eq_refl ((pre ++ encode a) ++ enc (IOp o)) post fuel (Forall_inv_tail Gb) G2 (Forall_inv_tail Ex) Lf').
    replace (pre ++ encode (a ++ IOp o :: b ++ IOp OP_ASSIGN :: post)) with (((pre ++ encode a) ++ enc (IOp o)) ++ encode (b ++ IOp OP_ASSIGN :: post)) by (rewrite !encode_app, !encode_cons, !encode_app, !encode_cons, <- !app_assoc; reflexivity).
    replace (here (pre ++ encode a) + 2) with (here ((pre ++ encode a) ++ enc (IOp o))) by (rewrite !app_length; cbn [enc length]; lia).
    rewrite IHn. f_equal. f_equal. f_equal. rewrite encode_app, encode_cons, <- !app_assoc. reflexivity.
Qed.

Lemma for_split first lv a b s is : instrs ids (scode first (SFor lv a b s)) = Ok is ->
  exists i1 i2 ic, instrs ids (rpn 0 lv) = Ok i1 /\ instrs ids (rpn 0 a) = Ok i2 /\ instrs ids (bounds_code b s) = Ok ic /\
  is = i1 ++ ICmd first CMD_FOR :: i2 ++ IOp OP_ASSIGN :: ic ++ [ILoop].
Proof.
  intros Q. cbn [scode] in Q. rewrite (instrs_app ids (rpn 0 lv)) in Q. destruct (instrs ids (rpn 0 lv)) as [i1| |]; cbn [bind] in Q; try discriminate.
  rewrite (instrs_app ids [cmd_code first CMD_FOR]), instrs_one, cmd_code_instr in Q. cbn [bind] in Q.
  rewrite (instrs_app ids (rpn 0 a)) in Q. destruct (instrs ids (rpn 0 a)) as [i2| |]; cbn [bind] in Q; try discriminate.
  rewrite (instrs_app ids [op_tok OP_ASSIGN 0]) in Q. change (instrs ids [op_tok OP_ASSIGN 0]) with (Ok [IOp OP_ASSIGN]) in Q. cbn [bind] in Q.
  replace (rpn 0 b ++ [cmd_code false CMD_TO] ++ match s with Some s => rpn 0 s ++ [cmd_code false CMD_STEP] | None => [] end ++ [loop_token]) with (bounds_code b s ++ [loop_token]) in Q by (unfold bounds_code; rewrite <- !app_assoc; reflexivity).
  rewrite (instrs_app ids (bounds_code b s)) in Q. destruct (instrs ids (bounds_code b s)) as [ic| |]; cbn [bind] in Q; try discriminate.
  change (instrs ids [loop_token]) with (Ok [ILoop]) in Q. cbn [bind] in Q. injection Q as <-. exists i1, i2, ic. auto.
Qed.
Definition fineo (s : option expr) : Prop := match s with Some s => fine s | None => True end.
Lemma bounds_good b s ic : fine b -> fineo s -> spelled b -> ospelled s -> instrs ids (bounds_code b s) = Ok ic -> Forall good ic /\ Forall short ic /\ Forall condi ic.
Proof.
  intros [Wb _] Ws Sb Ss Q.
  assert (Lp : lp (bounds_code b s)).
  { unfold bounds_code. apply lp_app; [apply lp_rpn; assumption|]. apply lp_app; [apply lp_cmd; [unfold is_byte, CMD_TO; lia|intro W; discriminate W]|].
    destruct s as [s|]; [|apply lp_nil]. destruct Ws as [Ws _]. apply lp_app; [apply lp_rpn; assumption|apply lp_cmd; [unfold is_byte, CMD_STEP; lia|intro W; discriminate W]]. }
  destruct (instrs_good ids _ _ Gi (proj1 Lp) (proj2 Lp) Q) as [G Sh]. split; [exact G|]. split; [exact Sh|]. clear G Sh Lp.
  unfold bounds_code in Q. rewrite instrs_app in Q. destruct (instrs ids (rpn 0 b)) as [i1| |] eqn:Q1; cbn [bind] in Q; try discriminate.
  rewrite (instrs_app ids [cmd_code false CMD_TO]) in Q. change (instrs ids [cmd_code false CMD_TO]) with (Ok [ICmd false CMD_TO]) in Q. cbn [bind] in Q. destruct (instrs ids (match s with Some s => _ | None => _ end)) as [i2| |] eqn:Q2; cbn [bind] in Q; try discriminate. injection Q as <-.
  assert (Up : forall l, Forall expri l -> Forall condi l) by (intros l; apply Forall_impl; intros x X; left; exact X).
  apply Forall_app. split; [apply Up; eapply rpn_expri; eauto|]. constructor; [right; left; reflexivity|].
  destruct s as [s|]; [|injection Q2 as <-; constructor]. destruct Ws as [Ws _]. rewrite instrs_app in Q2. destruct (instrs ids (rpn 0 s)) as [i3| |] eqn:Q3; cbn [bind] in Q2; try discriminate.
  rewrite instrs_one, cmd_code_instr in Q2. cbn [bind] in Q2. injection Q2 as <-. apply Forall_app. split; [apply Up; eapply rpn_expri; eauto|]. constructor; [right; right; reflexivity|constructor].
Qed.
Lemma bounds_run b s ic : fine b -> fineo s -> spelled b -> ospelled s -> instrs ids (bounds_code b s) = Ok ic -> (length (toks b) + length (otoks s) <= 100)%nat ->
  forall pre post k st vb st1 vs st2, sem h ref b st = Ok (vb, st1) -> osem h ref s st1 = Ok (vs, st2) ->
  steps lab (pre ++ encode ic ++ post) (length ic) (mkC (here pre) [] k 0 st) = Ok (mkC (here (pre ++ encode ic)) (rev vs ++ [vb]) k 0 st2).
Proof.
  intros [Wb _] Ws Sb Ss Q L pre post k st vb st1 vs st2 E1 E2. unfold bounds_code in Q. rewrite instrs_app in Q. destruct (instrs ids (rpn 0 b)) as [i1| |] eqn:Q1; cbn [bind] in Q; try discriminate.
  rewrite (instrs_app ids [cmd_code false CMD_TO]) in Q. change (instrs ids [cmd_code false CMD_TO]) with (Ok [ICmd false CMD_TO]) in Q. cbn [bind] in Q. destruct (instrs ids (match s with Some s => _ | None => _ end)) as [i2| |] eqn:Q2; cbn [bind] in Q; try discriminate. injection Q as <-.
  rewrite run_two, (exec_expr ids Gi b Wb Sb 0 i1) by (auto; cbn [stk length]; unfold size; lia). cbn [hst]. rewrite E1. cbn [bind stk calls].
  change (ICmd false CMD_TO :: i2) with ([ICmd false CMD_TO] ++ i2). rewrite run_two, run_one, step_command; [|unfold is_byte, CMD_TO; lia|reflexivity]. cbn [ix calls stk hst argc].
  change (command_step lab _ _ CMD_TO) with (Ok (mkC (here ((pre ++ encode i1) ++ enc (ICmd false CMD_TO))) [vb] k 0 st1)). cbn [bind].
  destruct s as [s|].
  - destruct Ws as [Ws _]. rewrite instrs_app in Q2. destruct (instrs ids (rpn 0 s)) as [i3| |] eqn:Q3; cbn [bind] in Q2; try discriminate.
    rewrite instrs_one, cmd_code_instr in Q2. cbn [bind] in Q2. injection Q2 as <-. cbn [osem otoks] in *. destruct (sem h ref s st1) as [[v st3]| |] eqn:E3; cbn [bind] in E2; try discriminate. injection E2 as <- <-.
    rewrite run_two, (exec_expr ids Gi s Ws Ss 0 i3); [|reflexivity|exact Q3|cbn [ix]; rewrite enc_one; reflexivity|reflexivity|cbn [stk length]; unfold size; pose proof (size_pos b Wb); unfold size in *; lia]. cbn [hst]. rewrite E3. cbn [bind stk calls].
    rewrite run_one, step_command; [|unfold is_byte, CMD_STEP; lia|reflexivity]. cbn [ix calls stk hst argc].
    change (command_step lab _ _ CMD_STEP) with (Ok (mkC (here ((((pre ++ encode i1) ++ encode [ICmd false CMD_TO]) ++ encode i3) ++ enc (ICmd false CMD_STEP))) [v; vb] k 0 st3)). rewrite !encode_app, !enc_one, <- !app_assoc. reflexivity.
  - injection Q2 as <-. cbn [osem] in E2. injection E2 as <- <-. cbn [length steps rev app]. rewrite encode_app, encode_cons. unfold encode at 3. cbn [map concat]. rewrite app_nil_r, app_assoc. reflexivity.
Qed.
Lemma past_over s e v : past s e v = true <-> over s e v.
Proof. unfold past, over. destruct (s <? 0) eqn:S0; [replace (s >=? 0) with false by lia|replace (s >=? 0) with true by lia]; cbn [andb orb]; rewrite ?orb_false_r; lia. Qed.

(** ** the pieces of a loop.  [code] is pre, the FOR statement, the body and the rest *)
Variables (lv a b : expr) (s : option expr) (first : bool).
Hypothesis Wf : wfs (SFor lv a b s).
Hypothesis Sp : sspelled (SFor lv a b s).
Hypothesis Ln : (length (stoks (SFor lv a b s)) <= 100)%nat.
Variables (i1 i2 ic rest : list instr) (pre : list Z).
Hypothesis Q1 : instrs ids (rpn 0 lv) = Ok i1.
Hypothesis Q2 : instrs ids (rpn 0 a) = Ok i2.
Hypothesis Qc : instrs ids (bounds_code b s) = Ok ic.
Hypothesis Gr : Forall good rest.
Let fs := i1 ++ ICmd first CMD_FOR :: i2 ++ IOp OP_ASSIGN :: ic ++ [ILoop].
Let code := pre ++ encode (fs ++ rest).
Let pre1 := pre ++ encode i1 ++ enc (ICmd first CMD_FOR) ++ encode i2 ++ enc (IOp OP_ASSIGN).
Definition to_start : Z := here pre1.
Definition body_start : Z := here (pre ++ encode fs).
Definition to_size : Z := here (encode ic).
Hypothesis Small : to_start < 16777216.
Hypothesis Short : to_size < 256.
Definition for_address : Z := to_start + to_size * 16777216.

Lemma code_at_to : code = pre1 ++ encode ic ++ (enc ILoop ++ encode rest).
Proof. unfold code, pre1, fs. rewrite !encode_app, !encode_cons, !encode_app, !encode_cons, !encode_app, enc_one, <- !app_assoc. reflexivity. Qed.
Lemma body_at : body_start = here ((pre1 ++ encode ic) ++ enc ILoop).
Proof. unfold body_start, pre1, fs. rewrite !encode_app, !encode_cons, !encode_app, !encode_cons, !encode_app, enc_one, <- !app_assoc. reflexivity. Qed.
Lemma sizes_ok : (size lv <= 100)%nat /\ (S (size a) <= 100)%nat /\ (length (toks b) + length (otoks s) <= 100)%nat.
Proof. cbn [stoks length] in Ln. rewrite !app_length in Ln. cbn [length] in Ln. rewrite !app_length in Ln. cbn [length] in Ln. rewrite app_length in Ln. unfold size. destruct s; cbn [otoks length] in *; lia. Qed.
Lemma wf_parts : wfe lv /\ wfe a /\ fine b /\ fineo s /\ spelled lv /\ spelled a /\ spelled b /\ ospelled s.
Proof. destruct Wf as (_ & [A _] & [B _] & C & D). destruct Sp as (E & F & G & H). unfold fineo. auto 10. Qed.

Let p2 := (pre ++ encode i1) ++ enc (ICmd first CMD_FOR).
Lemma p2_pre1 : p2 ++ encode i2 ++ enc (IOp OP_ASSIGN) = pre1.
Proof. unfold p2, pre1. rewrite <- !app_assoc. reflexivity. Qed.
Lemma code_p2 : code = p2 ++ encode i2 ++ (enc (IOp OP_ASSIGN) ++ encode ic ++ enc ILoop ++ encode rest).
Proof. rewrite code_at_to, <- p2_pre1, <- !app_assoc. reflexivity. Qed.
(** the variable and the command *)
Lemma for_head k st : steps lab code (length i1 + length [ICmd first CMD_FOR]) (mkC (here pre) [] k 0 st) =
  let* (v, st1) := sem h ref lv st in
  if (length k =? 255)%nat then Err ERR_OUT_OF_MEMORY else match v with ER y r => Ok (mkC (here p2) [ER y r] (CFor for_address r :: k) 0 st1) | _ => UB end.
Proof.
  destruct wf_parts as (Wl & Wa & Wb & Ws & Sl & Sa & Sb & Ss). destruct sizes_ok as (L1 & L2 & L3).
  destruct (bounds_good b s ic Wb Ws Sb Ss Qc) as (Gc & Hc & Cc).
  assert (G2 : Forall good i2) by (destruct (rpn_lexed a Wa Sa 0) as [X Y]; apply (instrs_good ids _ _ Gi X Y Q2)).
  rewrite steps_add.
  assert (C1 : code = pre ++ encode i1 ++ (enc (ICmd first CMD_FOR) ++ encode i2 ++ enc (IOp OP_ASSIGN) ++ encode ic ++ enc ILoop ++ encode rest)) by (rewrite code_at_to; unfold pre1; rewrite <- !app_assoc; reflexivity).
  rewrite C1 at 1. rewrite (exec_expr ids Gi lv Wl Sl 0 i1) by (auto; cbn [stk length]; lia). cbn [hst]. destruct (sem h ref lv st) as [[v st1]| |]; cbn [bind stk calls]; try reflexivity.
  assert (C2 : code = (pre ++ encode i1) ++ encode [ICmd first CMD_FOR] ++ (encode i2 ++ enc (IOp OP_ASSIGN) ++ encode ic ++ enc ILoop ++ encode rest)) by (rewrite C1, enc_one, <- !app_assoc; reflexivity).
  rewrite C2 at 1. rewrite run_one, step_command; [|unfold is_byte, CMD_FOR; lia|reflexivity]. cbn [ix calls stk hst argc].
  match goal with |- context [command_step lab ?cc ?c CMD_FOR] => change (command_step lab cc c CMD_FOR) with (cmd_for h cc c) end. unfold cmd_for. cbn [stk bottom rev app bind ix calls hst].
  fold p2.
  replace ((pre ++ encode i1) ++ enc (ICmd first CMD_FOR) ++ encode i2 ++ enc (IOp OP_ASSIGN) ++ encode ic ++ enc ILoop ++ encode rest) with (p2 ++ encode (i2 ++ IOp OP_ASSIGN :: ic ++ ILoop :: rest)) by (unfold p2; rewrite !encode_app, !encode_cons, !encode_app, !encode_cons, <- !app_assoc; reflexivity).
  assert (Gt : Forall good (ic ++ ILoop :: rest)) by (apply Forall_app; split; [exact Gc|constructor; [exact I|exact Gr]]).
  assert (Ga : good (IOp OP_ASSIGN)) by (cbn; unfold is_byte, OP_ASSIGN; lia).
  rewrite find_assign_at; [|exact G2|exact Gt|eapply rpn_expri; eauto|pose proof (encode_length_ge i2 G2); rewrite app_length, encode_app, app_length; lia].
  destruct (length k =? 255)%nat; [reflexivity|]. cbn [fst].
  replace (here (p2 ++ encode i2) + 2) with (here (p2 ++ encode i2 ++ enc (IOp OP_ASSIGN))) by (rewrite !app_length; cbn [enc length]; lia).
  pose proof p2_pre1 as P1.
  replace (p2 ++ encode (i2 ++ IOp OP_ASSIGN :: ic ++ ILoop :: rest)) with (pre1 ++ encode (ic ++ ILoop :: rest)) by (rewrite <- P1, !encode_app, !encode_cons, !encode_app, <- !app_assoc; reflexivity).
  rewrite P1. rewrite (scan_to BC_BEGIN_LOOP ic ILoop rest pre1 Gc I Gr); [|clear - Gc Cc|reflexivity].
  2:{ apply forallb_forall. intros i Hi. rewrite Forall_forall in Gc, Cc. apply negb_true_iff. destruct (opcode i =? BC_BEGIN_LOOP) eqn:O; [|reflexivity]. apply opcode_loop in O; [|auto]. subst i. destruct (Cc _ Hi) as [[W _]|[W|W]]; [destruct W|discriminate W|discriminate W]. }
  cbn [bind]. rewrite lor_shift; [|unfold to_start in Small; lia|unfold to_size in Short; rewrite app_length; lia].
  replace (here (pre1 ++ encode ic) - here pre1) with to_size by (unfold to_size; rewrite app_length; lia).
  change (here pre1 + to_size * 16777216) with for_address. destruct v; reflexivity.
Qed.
(** the first value *)
Lemma for_first k r st1 adr : steps lab code (length i2 + length [IOp OP_ASSIGN]) (mkC (here p2) [ER false r] (CFor adr r :: k) 0 st1) =
  let* (va, st2) := sem h ref a st1 in let* x := value_num h st2 va in Ok (mkC to_start [] (CFor adr r :: k) 0 (setn h st2 r x)).
Proof.
  destruct wf_parts as (Wl & Wa & Wb & Ws & Sl & Sa & Sb & Ss). destruct sizes_ok as (L1 & L2 & L3).
  assert (Ga : good (IOp OP_ASSIGN)) by (cbn; unfold is_byte, OP_ASSIGN; lia).
  rewrite steps_add, code_p2 at 1. rewrite (exec_expr ids Gi a Wa Sa 0 i2) by (auto; cbn [stk length]; lia). cbn [hst]. destruct (sem h ref a st1) as [[va st2]| |]; cbn [bind stk calls]; try reflexivity.
  assert (C4 : code = (p2 ++ encode i2) ++ encode [IOp OP_ASSIGN] ++ (encode ic ++ enc ILoop ++ encode rest)) by (rewrite code_p2, enc_one, <- !app_assoc; reflexivity).
  rewrite C4 at 1. rewrite run_one, step_simple; [|exact Ga|exact I|exact I|reflexivity]. cbn [simple stk hst calls]. change ((OP_ASSIGN =? OP_COMMA) || (OP_ASSIGN =? OP_SEMICOLON)) with false. cbn [pop bind].
  change (unary OP_ASSIGN) with false. change (OP_ASSIGN =? OP_ASSIGN) with true. cbv iota. cbn [assign]. destruct (value_num h st2 va); cbn [bind]; try reflexivity. unfold set_stk. cbn [ix calls]. rewrite <- app_assoc, p2_pre1. reflexivity.
Qed.
Lemma for_enter k st r st1 va st2 st3 : (length k < 255)%nat -> sem h ref lv st = Ok (ER false r, st1) -> sem h ref a st1 = Ok (va, st2) -> assign h (ER false r) va st2 = Ok st3 ->
  exists n, steps lab code n (mkC (here pre) [] k 0 st) = Ok (mkC to_start [] (CFor for_address r :: k) 0 st3).
Proof.
  intros Lk E1 E2 E3. eexists. rewrite steps_add, for_head, E1. cbn [bind]. replace (length k =? 255)%nat with false by lia. cbn [bind]. rewrite for_first, E2. cbn [bind]. cbn [assign] in E3.
  destruct (value_num h st2 va); cbn [bind] in *; try discriminate. injection E3 as <-. reflexivity.
Qed.

Lemma limits_split st e x st' : limits h ref b s st = Ok (e, x, st') -> exists vb st1 vs, sem h ref b st = Ok (vb, st1) /\ osem h ref s st1 = Ok (vs, st') /\ value_num h st' vb = Ok e /\
  ((vs = [] /\ x = 4096) \/ exists v, vs = [v] /\ value_num h st' v = Ok x).
Proof.
  unfold limits. destruct (sem h ref b st) as [[vb st1]| |]; cbn [bind]; try discriminate. destruct s as [se|]; cbn [osem bind].
  - destruct (sem h ref se st1) as [[v st2]| |] eqn:E; cbn [bind]; try discriminate. destruct (value_num h st2 vb) as [y| |] eqn:V1; cbn [bind]; try discriminate. destruct (value_num h st2 v) as [z| |] eqn:V2; cbn [bind]; try discriminate.
    intros [= <- <- <-]. exists vb, st1, [v]. rewrite E. split; [reflexivity|]. split; [reflexivity|]. split; [exact V1|]. right. exists v. auto.
  - destruct (value_num h st1 vb) as [y| |] eqn:V1; cbn [bind]; try discriminate. intros E; injection E as E1 E2 E3; subst e x st'. exists vb, st1, []. auto 10.
Qed.
(** entering the loop, or coming back from NEXT *)
Lemma bounds_check k st r adr e x st' : limits h ref b s st = Ok (e, x, st') ->
  exists n, steps lab code n (mkC to_start [] (CFor adr r :: k) 0 st) =
    if past x e (getn h st' r) then let* (i, st2) := skip_loop h (S (length code)) code r 1 body_start st' in Ok (mkC i [] (CFor adr r :: k) 0 st2)
    else Ok (mkC body_start [] (CFor adr r :: k) 0 st').
Proof.
  intros Lm. destruct wf_parts as (Wl & Wa & Wb & Ws & Sl & Sa & Sb & Ss). destruct sizes_ok as (L1 & L2 & L3). destruct (limits_split _ _ _ _ Lm) as (vb & st1 & vs & E1 & E2 & V1 & V2).
  exists (length ic + length [ILoop])%nat. rewrite steps_add. rewrite code_at_to at 1. unfold to_start. rewrite (bounds_run b s ic Wb Ws Sb Ss Qc L3 _ _ _ _ _ _ _ _ E1 E2). cbn [bind].
  assert (C : code = (pre1 ++ encode ic) ++ encode [ILoop] ++ encode rest) by (rewrite code_at_to, enc_one, <- !app_assoc; reflexivity).
  rewrite C at 1. rewrite run_one, step_loop by reflexivity. rewrite <- (enc_one ILoop), <- C, enc_one, <- body_at. unfold begin_loop. cbn [calls stk hst argc ix].
  destruct V2 as [[-> ->]|(v & -> & V2)]; cbn [rev app]; rewrite V1; [|rewrite V2]; cbn [bind]; destruct (past _ _ _); reflexivity.
Qed.

Lemma bounds_err k st er : limits h ref b s st = Err er -> exists n, steps lab code n (mkC to_start [] k 0 st) = Err er.
Proof.
  intros Lm. destruct wf_parts as (Wl & Wa & [Wb _] & Ws & Sl & Sa & Sb & Ss). destruct sizes_ok as (L1 & L2 & L3). pose proof Qc as Q. unfold bounds_code in Q.
  rewrite instrs_app in Q. destruct (instrs ids (rpn 0 b)) as [j1| |] eqn:Qb; cbn [bind] in Q; try discriminate.
  rewrite (instrs_app ids [cmd_code false CMD_TO]) in Q. change (instrs ids [cmd_code false CMD_TO]) with (Ok [ICmd false CMD_TO]) in Q. cbn [bind] in Q. destruct (instrs ids (match s with Some s => _ | None => _ end)) as [j2| |] eqn:Qs; cbn [bind] in Q; try discriminate. injection Q as Q.
  assert (C : code = pre1 ++ encode j1 ++ (encode [ICmd false CMD_TO] ++ encode j2 ++ enc ILoop ++ encode rest)) by (rewrite code_at_to, <- Q, encode_app; cbn [app]; rewrite encode_cons, enc_one, <- !app_assoc; reflexivity).
  assert (R1 : steps lab code (length j1) (mkC to_start [] k 0 st) = let* (v, st1) := sem h ref b st in Ok (mkC (here (pre1 ++ encode j1)) [v] k 0 st1)).
  { rewrite C at 1. rewrite (exec_expr ids Gi b Wb Sb 0 j1) by (auto; cbn [stk length]; unfold size; lia). reflexivity. }
  unfold limits in Lm. destruct (sem h ref b st) as [[vb st1]| |]; cbn [bind] in *; try discriminate; [|injection Lm as <-; exists (length j1); exact R1].
  assert (Vn : forall st v er, value_num h st v <> Err er) by (intros ? [| |[|]|] ?; discriminate).
  destruct s as [se|]; cbn [osem] in Lm; [|cbn [bind] in Lm; destruct (value_num h st1 vb) eqn:V; cbn [bind] in Lm; try discriminate; exfalso; exact (Vn _ _ _ V)].
  destruct (sem h ref se st1) as [[vs st2]| |] eqn:Es; cbn [bind] in Lm; try discriminate.
  { destruct (value_num h st2 vb) eqn:V; cbn [bind] in Lm; try discriminate; [|exfalso; exact (Vn _ _ _ V)]. destruct (value_num h st2 vs) eqn:V2; cbn [bind] in Lm; try discriminate. exfalso. exact (Vn _ _ _ V2). }
  injection Lm as <-. destruct Ws as [Ws _]. rewrite instrs_app in Qs. destruct (instrs ids (rpn 0 se)) as [j3| |] eqn:Q3; cbn [bind] in Qs; try discriminate.
  rewrite instrs_one, cmd_code_instr in Qs. cbn [bind] in Qs. injection Qs as <-. cbn [otoks] in L3.
  exists (length j1 + (length [ICmd false CMD_TO] + length j3))%nat. rewrite steps_add, R1. cbn [bind]. rewrite steps_add.
  assert (C2 : code = (pre1 ++ encode j1) ++ encode [ICmd false CMD_TO] ++ (encode j3 ++ encode [ICmd false CMD_STEP] ++ enc ILoop ++ encode rest)) by (rewrite C, encode_app, <- !app_assoc; reflexivity).
  rewrite C2 at 1. rewrite run_one, step_command; [|unfold is_byte, CMD_TO; lia|reflexivity]. cbn [ix calls stk hst argc].
  change (command_step lab _ _ CMD_TO) with (Ok (mkC (here ((pre1 ++ encode j1) ++ enc (ICmd false CMD_TO))) [vb] k 0 st1)). cbn [bind].
  assert (C3 : code = ((pre1 ++ encode j1) ++ enc (ICmd false CMD_TO)) ++ encode j3 ++ (encode [ICmd false CMD_STEP] ++ enc ILoop ++ encode rest)) by (rewrite C2, enc_one, <- !app_assoc; reflexivity).
  rewrite C3 at 1. rewrite (exec_expr ids Gi se Ws Ss 0 j3); [|reflexivity|exact Q3|reflexivity|reflexivity|cbn [stk length]; unfold size; pose proof (size_pos b Wb); unfold size in *; lia]. cbn [hst]. rewrite Es. reflexivity.
Qed.

(** NEXT, with or without the variable *)
Definition next_ok (args : list arg_) (r : Loc h) (st st' : St h) : Prop :=
  exists vs, asems h ref args st = Ok (vs, st') /\ (args = [] \/ vs = [ER false r]).
Hypothesis Same : forall l, same h l l = true.
Lemma next_runs args nfirst inx prex post k st r st1 e x st2 :
  code = prex ++ encode inx ++ post -> Forall afine args -> Forall aspelled args -> instrs ids (scode nfirst (SCmd CMD_NEXT args)) = Ok inx -> (length (concat (map atoks args)) < 100)%nat -> (length args <= 1)%nat ->
  next_ok args r st st1 -> limits h ref b s st1 = Ok (e, x, st2) ->
  steps lab code (length inx) (mkC (here prex) [] (CFor for_address r :: k) 0 st) =
    let v := getn h st2 r + x in
    if (v >? INT_MAX) || (v <? INT_MIN) then Err ERR_OVERFLOW else
    if past x e v then Ok (mkC (here (prex ++ encode inx)) [] k 0 (setn h st2 r v)) else Ok (mkC to_start [] (CFor for_address r :: k) 0 (setn h st2 r v)).
Proof.
  intros C Fa Sa Q La L1 (vs & E1 & N) Lm. destruct wf_parts as (_ & _ & Wb & Ws & _ & _ & Sb & Ss). destruct sizes_ok as (_ & _ & L3).
  destruct (limits_split _ _ _ _ Lm) as (vb & st3 & ws & B1 & B2 & V1 & V2).
  cbn [scode] in Q. rewrite instrs_app in Q. destruct (instrs ids (concat _)) as [ia| |] eqn:Qa; cbn [bind] in Q; try discriminate. rewrite instrs_one, cmd_code_instr in Q. cbn [bind] in Q. injection Q as <-.
  rewrite C at 1. rewrite run_two.
  rewrite (run_args ids Gi lab args Fa Sa ia Qa); [|reflexivity|reflexivity|cbn [stk length]].
  2:{ destruct args as [|x0 [|y args]]; cbn [map sep concat length] in *; rewrite ?app_nil_r in *; lia. }
  cbn [hst stk calls]. rewrite E1. cbn [bind]. rewrite app_nil_r.
  rewrite run_one, step_command; [|unfold is_byte, CMD_NEXT; lia|reflexivity]. cbn [ix calls stk hst argc].
  replace ((prex ++ encode ia) ++ enc (ICmd nfirst CMD_NEXT) ++ post) with code by (rewrite C, encode_app, enc_one, <- !app_assoc; reflexivity).
  match goal with |- context [command_step lab ?cc ?c CMD_NEXT] => change (command_step lab cc c CMD_NEXT) with (cmd_next h cc c) end. unfold cmd_next. cbn [stk calls ix hst argc].
  assert (F : find_call (is_for_of h (match rev vs with x :: _ => Some x | [] => None end)) [] (CFor for_address r :: k) = Some ([], CFor for_address r, k)).
  { cbn [find_call]. assert (is_for_of h (match rev vs with x :: _ => Some x | [] => None end) (CFor for_address r) = true) as ->; [|reflexivity].
    destruct N as [-> | ->]; [cbn [asems] in E1; injection E1 as <- <-; reflexivity|cbn; apply Same]. }
  rewrite F. assert (A1 : for_address mod 2 ^ 24 = to_start) by (unfold for_address; change (2 ^ 24) with 16777216; unfold to_start in *; lia).
  assert (A2 : for_address / 2 ^ 24 = to_size) by (unfold for_address, to_size in *; change (2 ^ 24) with 16777216; unfold to_start in *; lia). rewrite A1, A2.
  replace (slice code to_start to_size) with (encode ic) by (rewrite code_at_to; unfold to_start, to_size; symmetry; apply slice_app).
  destruct (bounds_good b s ic Wb Ws Sb Ss Qc) as (Gc & Hc & Cc).
  pose proof (bounds_run b s ic Wb Ws Sb Ss Qc L3 [] [] (CFor for_address r :: k) st1 vb st3 ws st2 B1 B2) as R. cbn [app length] in R. rewrite app_nil_r in R. change (Z.of_nat 0) with 0 in R.
  assert (Rc : run_cond h (S (Z.to_nat to_size)) (encode ic) (mkC 0 [] (CFor for_address r :: k) 0 st1) = Ok (mkC (here (encode ic)) (rev ws ++ [vb]) (CFor for_address r :: k) 0 st2)).
  { apply (cond_runs ic Gc Hc Cc []); [reflexivity|unfold to_size; pose proof (encode_length_ge ic Gc); lia|exact R|reflexivity]. }
  rewrite Rc.
  cbn [bind hst stk]. destruct V2 as [[-> ->]|(v & -> & V2)]; cbn [rev app length arg nth_error bind]; unfold arg; cbn [rev app nth_error bind]; rewrite V1; cbn [bind Nat.eqb]; [|rewrite V2; cbn [bind]]; cbv zeta; (destruct (_ || _); [reflexivity|]); (destruct (past _ _ _); [|reflexivity]); rewrite encode_app, enc_one, <- app_assoc; reflexivity.
Qed.

Lemma next_run args nfirst inx prex post k st r st1 e x st2 :
  code = prex ++ encode inx ++ post -> Forall afine args -> Forall aspelled args -> instrs ids (scode nfirst (SCmd CMD_NEXT args)) = Ok inx -> (length (concat (map atoks args)) < 100)%nat -> (length args <= 1)%nat ->
  next_ok args r st st1 -> limits h ref b s st1 = Ok (e, x, st2) ->
  exists n, steps lab code n (mkC (here prex) [] (CFor for_address r :: k) 0 st) =
    let v := getn h st2 r + x in
    if (v >? INT_MAX) || (v <? INT_MIN) then Err ERR_OVERFLOW else
    if past x e v then Ok (mkC (here (prex ++ encode inx)) [] k 0 (setn h st2 r v)) else Ok (mkC to_start [] (CFor for_address r :: k) 0 (setn h st2 r v)).
Proof. intros. eexists. eapply next_runs; eassumption. Qed.

(** ** the whole loop *)
Variables (args : list arg_) (nfirst : bool) (inx : list instr) (prex post : list Z).
Hypothesis Cn : code = prex ++ encode inx ++ post.
Hypothesis Fa : Forall afine args.
Hypothesis Sa : Forall aspelled args.
Hypothesis Qn : instrs ids (scode nfirst (SCmd CMD_NEXT args)) = Ok inx.
Hypothesis La : (length (concat (map atoks args)) < 100)%nat.
Hypothesis L1 : (length args <= 1)%nat.
Hypothesis GetSet : forall st l v, getn h (setn h st l v) l = v.
Variables (r : Loc h) (body : St h -> St h) (k : list (call (Loc h))) (st0 : St h) (e x : Z).
Let v0 := getn h st0 r.
Notation T := (turn h r body v0 x st0).
Notation at_body st := (mkC body_start [] (CFor for_address r :: k) 0 st).
Hypothesis Range0 : INT_MIN <= v0 <= INT_MAX.
Hypothesis RangeE : INT_MIN <= e <= INT_MAX.
(** the first [n] turns of the loop go well *)
Definition turn_ok (i : nat) : Prop :=
  limits h ref b s (T i) = Ok (e, x, T i) /\
  (exists m, steps lab code m (at_body (T i)) = Ok (mkC (here prex) [] (CFor for_address r :: k) 0 (body (T i)))) /\
  getn h (body (T i)) r = getn h (T i) r /\ next_ok args r (body (T i)) (body (T i)) /\ limits h ref b s (body (T i)) = Ok (e, x, body (T i)).
Definition in_range (v : Z) : Prop := INT_MIN <= v <= INT_MAX.

Lemma var_at i : (forall j, (j < i)%nat -> turn_ok j) -> getn h (T i) r = v0 + Z.of_nat i * x.
Proof. destruct i as [|i]; intros Ok; [cbn [turn]; unfold v0; lia|]. cbn [turn]. apply GetSet. Qed.
Lemma reach_body i : (forall j, (j <= i)%nat -> turn_ok j /\ ~ over x e (v0 + Z.of_nat j * x) /\ in_range (v0 + Z.of_nat j * x)) ->
  exists n, steps lab code n (mkC to_start [] (CFor for_address r :: k) 0 st0) = Ok (at_body (T i)).
Proof.
  induction i as [|i IH]; intros Hk.
  - destruct (Hk 0%nat ltac:(lia)) as ((Lm & _) & No & _). destruct (bounds_check k st0 r for_address e x st0 Lm) as [n R]. exists n. rewrite R. change (v0 + Z.of_nat 0 * x) with (v0 + 0) in No. rewrite Z.add_0_r in No.
    destruct (past x e (getn h st0 r)) eqn:P; [apply past_over in P; contradiction|]. reflexivity.
  - destruct IH as [n1 R1]; [intros j Hj; apply Hk; lia|]. destruct (Hk i ltac:(lia)) as ((Lm & [m Bd] & Var & Nx & Lm2) & No & Ra).
    destruct (next_run args nfirst inx prex post k (body (T i)) r (body (T i)) e x (body (T i)) Cn Fa Sa Qn La L1 Nx Lm2) as [n2 R2]. cbv zeta in R2.
    rewrite Var, var_at in R2 by (intros j Hj; apply Hk; lia). replace (v0 + Z.of_nat i * x + x) with (v0 + Z.of_nat (S i) * x) in R2 by lia.
    destruct (Hk (S i) ltac:(lia)) as ((Lm3 & _) & No3 & Ra3). unfold in_range in Ra3. replace (_ || _) with false in R2 by lia.
    destruct (past x e (v0 + Z.of_nat (S i) * x)) eqn:P; [apply past_over in P; contradiction|].
    change (setn h (body (T i)) r (v0 + Z.of_nat (S i) * x)) with (T (S i)) in R2.
    destruct (bounds_check k (T (S i)) r for_address e x (T (S i)) Lm3) as [n3 R3]. rewrite (var_at (S i)) in R3 by (intros j Hj; apply Hk; lia). rewrite P in R3.
    exists (n1 + (m + (n2 + n3)))%nat. rewrite steps_add, R1. cbn [bind]. rewrite steps_add, Bd. cbn [bind]. rewrite steps_add, R2. cbn [bind]. exact R3.
Qed.
Lemma reach_end i : (forall j, (j <= i)%nat -> turn_ok j /\ ~ over x e (v0 + Z.of_nat j * x) /\ in_range (v0 + Z.of_nat j * x)) -> over x e (v0 + Z.of_nat (S i) * x) ->
  exists n, steps lab code n (mkC to_start [] (CFor for_address r :: k) 0 st0) =
    if (INT_MIN <=? v0 + Z.of_nat (S i) * x) && (v0 + Z.of_nat (S i) * x <=? INT_MAX) then Ok (mkC (here (prex ++ encode inx)) [] k 0 (T (S i))) else Err ERR_OVERFLOW.
Proof.
  intros Hk Ov. destruct (reach_body i Hk) as [n1 R1]. destruct (Hk i ltac:(lia)) as ((Lm & [m Bd] & Var & Nx & Lm2) & No & Ra).
  destruct (next_run args nfirst inx prex post k (body (T i)) r (body (T i)) e x (body (T i)) Cn Fa Sa Qn La L1 Nx Lm2) as [n2 R2]. cbv zeta in R2.
  rewrite Var, var_at in R2 by (intros j Hj; apply Hk; lia). replace (v0 + Z.of_nat i * x + x) with (v0 + Z.of_nat (S i) * x) in R2 by lia.
  apply past_over in Ov. rewrite Ov in R2. exists (n1 + (m + n2))%nat. rewrite steps_add, R1. cbn [bind]. rewrite steps_add, Bd. cbn [bind]. rewrite R2. cbn [turn].
  set (v := v0 + Z.of_nat (S i) * x). destruct ((INT_MIN <=? v) && (v <=? INT_MAX)) eqn:B; [replace (_ || _) with false by lia|replace (_ || _) with true by lia]; reflexivity.
Qed.
Lemma trips_spec : x <> 0 -> ~ over x e v0 -> exists i, trips v0 e x = Z.of_nat (S i) /\ (forall j, (j <= i)%nat -> ~ over x e (v0 + Z.of_nat j * x) /\ in_range (v0 + Z.of_nat j * x)) /\ over x e (v0 + Z.of_nat (S i) * x).
Proof.
  intros Nx No. unfold trips, over, in_range in *. destruct (x <? 0) eqn:X0.
  - replace (v0 <? e) with false by lia. exists (Z.to_nat ((v0 - e) / - x)). assert (0 <= (v0 - e) / - x) by (apply Z.div_pos; lia). pose proof (Z.mul_div_le (v0 - e) (- x) ltac:(lia)) as M1. pose proof (Z.mul_succ_div_gt (v0 - e) (- x) ltac:(lia)) as M2.
    set (q := (v0 - e) / - x) in *. clearbody q. split; [lia|]. split; [|nia]. intros j Hj. assert (Z.of_nat j <= q) by lia. split; [nia|]. assert (v0 + Z.of_nat j * x <= v0) by nia. assert (e <= v0 + Z.of_nat j * x) by nia. lia.
  - replace (e <? v0) with false by lia. exists (Z.to_nat ((e - v0) / x)). assert (0 <= (e - v0) / x) by (apply Z.div_pos; lia). pose proof (Z.mul_div_le (e - v0) x ltac:(lia)) as M1. pose proof (Z.mul_succ_div_gt (e - v0) x ltac:(lia)) as M2.
    set (q := (e - v0) / x) in *. clearbody q. split; [lia|]. split; [|nia]. intros j Hj. assert (Z.of_nat j <= q) by lia. split; [nia|]. assert (v0 <= v0 + Z.of_nat j * x) by nia. assert (v0 + Z.of_nat j * x <= e) by nia. lia.
Qed.
Lemma for_loop : x <> 0 -> ~ over x e v0 -> (forall j, Z.of_nat j < trips v0 e x -> turn_ok j) ->
  let n := Z.to_nat (trips v0 e x) in
  (forall j, (j < n)%nat -> exists m, steps lab code m (mkC to_start [] (CFor for_address r :: k) 0 st0) = Ok (at_body (T j)) /\ getn h (T j) r = v0 + Z.of_nat j * x) /\
  exists m, steps lab code m (mkC to_start [] (CFor for_address r :: k) 0 st0) =
    if (INT_MIN <=? v0 + trips v0 e x * x) && (v0 + trips v0 e x * x <=? INT_MAX) then Ok (mkC (here (prex ++ encode inx)) [] k 0 (T n)) else Err ERR_OVERFLOW.
Proof.
  intros Nx No Hk n. destruct (trips_spec Nx No) as (i & Ti & Bi & Ov). rewrite Ti in *. assert (n = S i) as -> by (unfold n; lia). split.
  - intros j Hj. destruct (reach_body j) as [m R]; [intros j' Hj'; split; [apply Hk; lia|apply Bi; lia]|]. exists m. split; [exact R|]. apply var_at. intros j' Hj'. apply Hk. lia.
  - apply (reach_end i); [intros j Hj; split; [apply Hk; lia|apply Bi; lia]|exact Ov].
Qed.
(** STEP 0: the loop never ends *)
Lemma for_forever : x = 0 -> v0 <= e -> (forall j, turn_ok j) ->
  forall j, exists m, steps lab code m (mkC to_start [] (CFor for_address r :: k) 0 st0) = Ok (at_body (T j)).
Proof. intros X Le Hk j. apply reach_body. intros i Hi. split; [apply Hk|]. unfold over, in_range. rewrite X. change (0 <? 0) with false. split; lia. Qed.
End For.
