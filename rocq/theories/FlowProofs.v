From Verif Require Import Base BaseLemmas Tokens ExprSpec ExprProofs EvalProofs NumText Bytecode BytecodeSpec BytecodeProofs Runner RunnerSpec RunnerProofs ExecProofs StmtSpec StmtProofs EvalLine FlowSpec.
Ltac Zify.zify_post_hook ::= Z.div_mod_to_equations.

(** * searching forward for a command *)
Definition is_want (want : Z -> bool) (i : instr) : bool := match i with ICmd false k => want k | _ => false end.
Lemma opcode_command i : good i -> (opcode i =? BC_COMMAND) = true -> exists k, i = ICmd false k.
Proof.
  intros G. unfold opcode. destruct i as [big v|lb s|f c|o|f|c|c|s|s|s|big i0|n| |s|s|e]; cbn [enc hd app]; try (intro Q; discriminate Q).
  - destruct big; intro Q; discriminate Q.
  - destruct lb; intro Q; discriminate Q.
  - destruct f; [intro Q; discriminate Q|eauto].
  - destruct (named_len BC_VARIABLE_NAME s G) as (c & r & E & _). rewrite E. intro Q. discriminate Q.
  - destruct (named_len BC_ARRAY_NAME s G) as (c & r & E & _). rewrite E. intro Q. discriminate Q.
  - destruct (named_len BC_DIM s G) as (c & r & E & _). rewrite E. intro Q. discriminate Q.
  - destruct big; intro Q; discriminate Q.
Qed.
Lemma find_cmd_at want : forall is pre k post fuel, Forall good is -> Forall good post -> is_byte k -> forallb (fun i => negb (is_want want i)) is = true -> want k = true ->
  (length is < fuel)%nat ->
  find_cmd fuel (pre ++ encode (is ++ ICmd false k :: post)) want (Z.of_nat (length pre)) = Some (Z.of_nat (length (pre ++ encode is))).
Proof.
  (* by strong induction on the distance: skip to the first BC_COMMAND *)
  intros is. remember (length is) as n eqn:En. revert is En. induction n as [n IHn] using lt_wf_ind. intros is En pre k post fuel Gi Gp Gk Nw Wk Lf.
  destruct fuel as [|fuel]; [lia|]. cbn [find_cmd]. unfold bc_scan.
  assert (Gall : Forall good (is ++ ICmd false k :: post)) by (apply Forall_app; split; [exact Gi|constructor; [exact Gk|exact Gp]]).
  rewrite bc_scan_seek by exact Gall.
  (* split is at its first command *)
  assert (Sp : (forallb (fun i => negb (opcode i =? BC_COMMAND)) is = true) \/ exists a c b, is = a ++ ICmd false c :: b /\ forallb (fun i => negb (opcode i =? BC_COMMAND)) a = true).
  { clear - Gi. induction Gi as [|i is G Gi IH]; [left; reflexivity|]. destruct (opcode i =? BC_COMMAND) eqn:O.
    - destruct (opcode_command i G O) as [c ->]. right. exists [], c, is. auto.
    - destruct IH as [IH|(a & c & b & -> & N)]; [left; cbn [forallb]; rewrite O; exact IH|right; exists (i :: a), c, b; split; [reflexivity|cbn [forallb]; rewrite O; exact N]]. }
  assert (Sk : forall a p at_ c b, forallb (fun i => negb (opcode i =? BC_COMMAND)) a = true -> snd (seek p at_ (a ++ ICmd false c :: b) BC_COMMAND) = Some (at_ + Z.of_nat (length (encode a)))).
  { clear. induction a as [|i a IH]; intros p at_ c b N; cbn [app seek].
    - change (opcode (ICmd false c) =? BC_COMMAND) with true. cbn [snd]. f_equal. unfold encode. cbn. lia.
    - cbn [forallb] in N. apply andb_true_iff in N. destruct N as [N1 N2]. apply negb_true_iff in N1. rewrite N1, IH by exact N2. rewrite encode_cons, app_length. f_equal. lia. }
  assert (By : forall a c b, byte (pre ++ encode (a ++ ICmd false c :: b)) (Z.of_nat (length pre) + Z.of_nat (length (encode a)) + 1) = c).
  { intros a c b. rewrite encode_app, encode_cons. unfold byte. replace (Z.to_nat (Z.of_nat (length pre) + Z.of_nat (length (encode a)) + 1)) with (length (pre ++ encode a) + 1)%nat by (rewrite app_length; lia).
    rewrite app_assoc, app_nth2_plus. reflexivity. }
  destruct Sp as [N|(a & c & b & -> & N)].
  - rewrite Sk by exact N. rewrite By, Wk, app_length. f_equal. lia.
  - rewrite <- app_assoc. rewrite <- app_comm_cons. rewrite Sk by exact N. rewrite By. rewrite forallb_app in Nw. cbn [forallb is_want] in Nw. apply andb_true_iff in Nw. destruct Nw as [Nw1 Nw2]. apply andb_true_iff in Nw2. destruct Nw2 as [Nw2 Nw3].
    apply negb_true_iff in Nw2. rewrite Nw2. apply Forall_app in Gi. destruct Gi as [Ga Gb]. pose proof (Forall_inv Gb) as Gc. pose proof (Forall_inv_tail Gb) as Gb'.
    assert (Lb : (length b < n)%nat) by (rewrite En, app_length; cbn [length]; lia).
    assert (Lf' : (length b < fuel)%nat) by lia.
    specialize (IHn (length b) Lb b eq_refl ((pre ++ encode a) ++ enc (ICmd false c)) k post fuel Gb' Gp Gk Nw3 Wk Lf').
    replace (pre ++ encode (a ++ ICmd false c :: b ++ ICmd false k :: post)) with (((pre ++ encode a) ++ enc (ICmd false c)) ++ encode (b ++ ICmd false k :: post)) by (rewrite !encode_app, !encode_cons, !encode_app, !encode_cons, <- !app_assoc; reflexivity).
    replace (Z.of_nat (length pre) + Z.of_nat (length (encode a)) + 2) with (Z.of_nat (length ((pre ++ encode a) ++ enc (ICmd false c)))) by (rewrite !app_length; cbn [enc length]; lia).
    rewrite IHn. f_equal. f_equal. f_equal. rewrite encode_app, encode_cons, <- !app_assoc. reflexivity.
Qed.
Lemma encode_length_ge is : Forall good is -> (length is <= length (encode is))%nat.
Proof. induction 1 as [|i is G _ IH]; [cbn; lia|]. rewrite encode_cons, app_length. pose proof (enc_len2 i G). cbn [length]. lia. Qed.

(** * running statements *)
Section Run.
Context {h : host}.
Variable ids : option ids_fun.
Hypothesis Gi : forall f, ids = Some f -> good_ids f.
Variable lab : labels_fun h.
Notation ref := (ref_of ids).
Notation here pre := (Z.of_nat (length pre)).
Notation ent := (entry (Loc h)).

Lemma run_label w pre post (c : cfg h) : Forall is_byte w -> (length w < 128)%nat -> ix c = here pre -> (length (stk c) < 100)%nat ->
  step lab (pre ++ enc (IStr true w) ++ post) c = Ok (mkC (here (pre ++ enc (IStr true w))) (ES true w :: stk c) (calls c) 0 (hst c)).
Proof.
  intros B L X Sk. rewrite step_simple; [|split; [exact B|lia]|exact L|exact I|exact X]. cbn [simple stk hst calls]. rewrite pushed_ok by exact Sk. reflexivity.
Qed.
Lemma run_arg a is : afine a -> aspelled a -> instrs ids (acode a) = Ok is -> forall pre post (c : cfg h), ix c = here pre -> argc c = 0 -> (length (stk c) + asize a <= 100)%nat ->
  steps lab (pre ++ encode is ++ post) (length is) c = let* (v, st) := asem h ref a (hst c) in Ok (mkC (here (pre ++ encode is)) (v :: stk c) (calls c) 0 st).
Proof.
  destruct a as [e|w]; cbn [afine aspelled acode asem]; intros F Sp Q pre post c X A L.
  - destruct F as [Wf _]. apply (exec_expr ids Gi e Wf Sp 0); auto.
  - cbn in Q. injection Q as <-. destruct Sp as [B L1]. rewrite run_one, enc_one. cbn [bind]. apply run_label; auto. cbn in L. lia.
Qed.
Lemma run_args args : Forall afine args -> Forall aspelled args -> forall is, instrs ids (concat (map acode args)) = Ok is ->
  forall pre post (c : cfg h), ix c = here pre -> argc c = 0 -> (length (stk c) + length (sep comma (map atoks args)) <= 100)%nat ->
  steps lab (pre ++ encode is ++ post) (length is) c = let* (vs, st) := asems h ref args (hst c) in Ok (mkC (here (pre ++ encode is)) (rev vs ++ stk c) (calls c) 0 st).
Proof.
  induction args as [|a args IH]; intros F Sp is Q pre post c X A L.
  - cbn in Q. injection Q as <-. unfold encode. cbn. rewrite app_nil_r. destruct c as [i s k a st]. cbn [ix argc] in *. subst. reflexivity.
  - pose proof (Forall_inv F) as Fa. pose proof (Forall_inv_tail F) as F'. pose proof (Forall_inv Sp) as Sa. pose proof (Forall_inv_tail Sp) as S'. cbn [map concat] in Q. rewrite instrs_app in Q.
    destruct (instrs ids (acode a)) as [i1| |] eqn:Q1; cbn [bind] in Q; try discriminate. destruct (instrs ids (concat _)) as [i2| |] eqn:Q2; cbn [bind] in Q; try discriminate. injection Q as <-.
    assert (La : (1 <= asize a)%nat). { destruct a as [e|w]; unfold asize; cbn [atoks]; [apply (size_pos e); apply Fa|cbn; lia]. }
    assert (L2 : (length (sep comma (map atoks (a :: args))) = asize a + match args with [] => 0 | _ => S (length (sep comma (map atoks args))) end)%nat).
    { unfold asize. destruct args as [|b args]; cbn [map sep length]; [lia|]. rewrite app_length. reflexivity. }
    rewrite L2 in L. rewrite run_two, (run_arg a i1 Fa Sa Q1) by (auto; destruct args; lia). cbn [asems]. destruct (asem h ref a (hst c)) as [[v st]| |]; cbn [bind]; try reflexivity.
    rewrite (IH F' S' i2 eq_refl); cbn [ix argc stk hst calls]; auto.
    + destruct (asems h ref args st) as [[vs st2]| |]; cbn [bind]; try reflexivity. cbn [rev]. rewrite encode_app, <- !app_assoc. reflexivity.
    + cbn [length]. destruct args; cbn [map sep length] in *; lia.
Qed.
Lemma run_opt o : match o with Some e => fine e | None => True end -> ospelled o -> forall is, instrs ids (ocode o) = Ok is ->
  forall pre post (c : cfg h), ix c = here pre -> argc c = 0 -> (length (stk c) + length (otoks o) <= 100)%nat ->
  steps lab (pre ++ encode is ++ post) (length is) c = let* (vs, st) := osem h ref o (hst c) in Ok (mkC (here (pre ++ encode is)) (rev vs ++ stk c) (calls c) 0 st).
Proof.
  destruct o as [e|]; cbn [ospelled ocode osem otoks]; intros F Sp is Q pre post c X A L.
  - destruct F as [Wf _]. rewrite (exec_expr ids Gi e Wf Sp 0) by auto. destruct (sem h ref e (hst c)) as [[v st]| |]; reflexivity.
  - cbn in Q. injection Q as <-. unfold encode. cbn. rewrite app_nil_r. destruct c as [i s k a st]. cbn [ix argc] in *. subst. reflexivity.
Qed.
Lemma run_items items : Forall (fun it => (snd it = OP_COMMA \/ snd it = OP_SEMICOLON) /\ match fst it with Some e => fine e | None => True end) items -> Forall (fun it => ospelled (fst it)) items ->
  forall is, instrs ids (concat (map (fun it => ocode (fst it) ++ [op_tok (snd it) 1]) items)) = Ok is ->
  forall pre post (c : cfg h), ix c = here pre -> argc c = 0 -> (length (stk c) + length (concat (map (fun it => otoks (fst it) ++ [op_tok (snd it) 0%Z]) items)) <= 100)%nat ->
  steps lab (pre ++ encode is ++ post) (length is) c = (let* (vs, st) := isems h ref items (hst c) in Ok (mkC (here (pre ++ encode is)) (rev vs ++ stk c) (calls c) 0 st)) /\
  (forall vs st, isems h ref items (hst c) = Ok (vs, st) -> (length vs <= length (concat (map (fun it => otoks (fst it) ++ [op_tok (snd it) 0%Z]) items)))%nat).
Proof.
  induction items as [|[o s] items IH]; intros F Sp is Q pre post c X A L.
  - cbn in Q. injection Q as <-. unfold encode. cbn. rewrite app_nil_r. destruct c as [i s k a st]. cbn [ix argc] in *. subst. split; [reflexivity|]. intros vs st' [= <- <-]. cbn. lia.
  - pose proof (Forall_inv F) as [Fs Fo]. pose proof (Forall_inv_tail F) as F'. pose proof (Forall_inv Sp) as So. pose proof (Forall_inv_tail Sp) as S'. cbn [map concat fst snd] in *. rewrite !instrs_app in Q.
    destruct (instrs ids (ocode o)) as [i1| |] eqn:Q1; cbn [bind] in Q; try discriminate. 
    assert (Qs : instrs ids [op_tok s 1] = Ok [IOp s]) by (destruct Fs as [-> | ->]; reflexivity). rewrite Qs in Q. cbn [bind] in Q.
    destruct (instrs ids (concat _)) as [i2| |] eqn:Q2; cbn [bind] in Q; try discriminate. injection Q as <-. rewrite !app_length in L. cbn [length] in L.
    rewrite <- app_assoc. rewrite run_two, (run_opt o Fo So i1 Q1) by (auto; lia). cbn [isems].
    assert (Lo : forall vs st, osem h ref o (hst c) = Ok (vs, st) -> (length vs <= length (otoks o))%nat).
    { destruct o as [e|]; cbn [osem otoks]; intros vs st; [|intros [= <- <-]; cbn; lia]. destruct (sem h ref e (hst c)) as [[v s1]| |]; cbn [bind]; try discriminate. intros [= <- <-]. destruct Fo as [Wf _]. pose proof (size_pos e Wf). unfold size in *. cbn [length]. lia. }
    destruct (osem h ref o (hst c)) as [[vs st]| |]; cbn [bind]; [|split; [reflexivity|intros ? ? Q; discriminate Q]..]. specialize (Lo vs st eq_refl).
    rewrite run_two, run_one, step_simple; [|destruct Fs as [-> | ->]; cbn; unfold is_byte, OP_COMMA, OP_SEMICOLON; lia|exact I|exact I|reflexivity]. cbn [simple stk hst calls].
    replace ((s =? OP_COMMA) || (s =? OP_SEMICOLON)) with true by lia. rewrite pushed_ok by (rewrite app_length, rev_length; lia). cbn [bind]. unfold set_stk. cbn [ix calls].
    destruct (IH F' S' i2 eq_refl ((pre ++ encode i1) ++ encode [IOp s]) post (mkC (here ((pre ++ encode i1) ++ enc (IOp s))) (EO s :: rev vs ++ stk c) (calls c) 0 st)) as [IH1 IH2].
    { cbn [ix]. rewrite enc_one. reflexivity. } { reflexivity. } { cbn [stk length]. rewrite app_length, rev_length. lia. }
    cbn [hst] in *. rewrite IH1. split.
    + destruct (isems h ref items st) as [[ws st2]| |]; cbn [bind]; try reflexivity. cbn [stk calls]. do 2 f_equal; [rewrite !encode_app, <- !app_assoc; reflexivity|]. rewrite rev_app_distr. cbn [rev]. rewrite <- !app_assoc. reflexivity.
    + intros us st3. destruct (isems h ref items st) as [[ws st2]| |] eqn:Qi; cbn [bind]; try discriminate. intros [= <- <-]. specialize (IH2 ws st2 eq_refl). rewrite !app_length. cbn [length]. lia.
Qed.
Lemma instrs_one t : instrs ids [t] = let* i := instr_of ids t in Ok [i].
Proof. reflexivity. Qed.
Lemma cmd_code_instr b c : instr_of ids (cmd_code b c) = Ok (ICmd b c).
Proof. destruct b; reflexivity. Qed.
Lemma asems_length args : forall st vs st', asems h ref args st = Ok (vs, st') -> length vs = length args.
Proof.
  induction args as [|x l IH]; intros st vs st'; cbn [asems]; [intros [= <- <-]; reflexivity|].
  destruct (asem h ref x st) as [[v s1]| |]; cbn [bind]; try discriminate. destruct (asems h ref l s1) as [[ws s2]| |] eqn:Q; cbn [bind]; try discriminate. intros [= <- <-]. cbn [length]. f_equal. eapply IH; eauto.
Qed.

Lemma find_gosub k : forall above : list (call (Loc h)), match find_call (is_gosub h) above k with
  | Some (_, CGosub a, r) => unwind h k = Some (a, r) | Some (_, CFor _ _, _) => False | None => unwind h k = None end.
Proof. induction k as [|[a v|a] k IH]; intros above; cbn [find_call is_gosub unwind]; [reflexivity|apply IH|reflexivity]. Qed.
Lemma pow12 : 2 ^ 12 = 4096. Proof. reflexivity. Qed.
Lemma fp_floor x : FP_TO_INT x = x / 4096.
Proof. reflexivity. Qed.
Lemma command_perform code (c : cfg h) k vs : ~ flow_cmd k -> (jumps k -> vs <> []) -> stk c = rev vs ->
  command_step lab code c k = lands h lab code (ix c) (calls c) (perform h lab k vs (hst c)).
Proof.
  unfold flow_cmd. cbn [In]. intros N J Sk. unfold command_step, perform.
  replace (k =? CMD_FOR) with false by lia. replace ((k =? CMD_TO) || (k =? CMD_STEP) || (k =? CMD_ON)) with false by lia. replace (k =? CMD_NEXT) with false by lia. replace (k =? CMD_IF) with false by lia.
  replace (k =? CMD_ELSE) with false by lia. replace (k =? CMD_ENDIF) with false by lia.
  assert (Gt : forall g, k = (if g : bool then CMD_GOSUB else CMD_GOTO) -> cmd_goto h lab g c = let* t := target h (hst c) vs in match t with Some v => if g then gosub_to h lab v (hst c) (ix c) (calls c) else let* i := lab v (hst c) in Ok (mkC i [] (calls c) 0 (hst c)) | None => Ok (mkC (ix c) [] (calls c) 0 (hst c)) end).
  { intros g Eg. unfold cmd_goto, arg, target. rewrite Sk, rev_involutive, rev_length. destruct vs as [|v ls]; [exfalso; apply J; [unfold jumps; destruct g; auto|reflexivity]|]. cbn [nth_error bind length].
    assert (Jm : forall w, match lab w (hst c) with UB => UB | r => if g && (length (calls c) =? 255)%nat then Err ERR_OUT_OF_MEMORY else let* i := r in Ok (mkC i [] (if g then CGosub (ix c) :: calls c else calls c) 0 (hst c)) end = if g then gosub_to h lab w (hst c) (ix c) (calls c) else let* i := lab w (hst c) in Ok (mkC i [] (calls c) 0 (hst c))).
    { intros w. unfold gosub_to. destruct g; destruct (lab w (hst c)); reflexivity. }
    assert (Nu : forall x, (if (FP_TO_INT x <? 0) || (FP_TO_INT x + 1 >=? Z.of_nat (S (length ls))) then Ok (mkC (ix c) [] (calls c) 0 (hst c)) else
        let* l := match nth_error (v :: ls) (Z.to_nat (FP_TO_INT x + 1)) with Some e => Ok e | None => UB end in
        match l with EO _ => Err ERR_SYNTAX | ES _ _ => match lab l (hst c) with UB => UB | r => if g && (length (calls c) =? 255)%nat then Err ERR_OUT_OF_MEMORY else let* i := r in Ok (mkC i [] (if g then CGosub (ix c) :: calls c else calls c) 0 (hst c)) end | _ => UB end) =
      let* t := (if (0 <=? x / 4096) && (x / 4096 <? Z.of_nat (length ls)) then match nth_error ls (Z.to_nat (x / 4096)) with Some (ES b w) => Ok (Some (ES b w)) | Some (EO _) => Err ERR_SYNTAX | _ => UB end else Ok None) in
      match t with Some v => if g then gosub_to h lab v (hst c) (ix c) (calls c) else let* i := lab v (hst c) in Ok (mkC i [] (calls c) 0 (hst c)) | None => Ok (mkC (ix c) [] (calls c) 0 (hst c)) end).
    { intros x. rewrite fp_floor. generalize (x / 4096). intros n. destruct ((0 <=? n) && (n <? Z.of_nat (length ls))) eqn:R.
      - replace ((n <? 0) || (n + 1 >=? Z.of_nat (S (length ls)))) with false by lia. replace (Z.to_nat (n + 1)) with (S (Z.to_nat n)) by lia. cbn [nth_error]. destruct (nth_error ls (Z.to_nat n)) as [[z|b w|b l|o]|]; cbn [bind]; try reflexivity. apply Jm.
      - replace ((n <? 0) || (n + 1 >=? Z.of_nat (S (length ls)))) with true by lia. reflexivity. }
    destruct v as [z|b w|[|] l|o]; cbn [value_num bind]; [apply Nu|apply Jm|apply Jm|apply Nu|reflexivity]. }
  destruct (k =? CMD_GOTO) eqn:E1. { rewrite (Gt false) by lia. destruct (target h (hst c) vs) as [[v|]| |]; cbn [bind lands]; try reflexivity. destruct (lab v (hst c)); reflexivity. }
  destruct (k =? CMD_GOSUB) eqn:E2. { rewrite (Gt true) by lia. destruct (target h (hst c) vs) as [[v|]| |]; reflexivity. }
  destruct (k =? CMD_RETURN) eqn:E3. { cbn [lands bind]. unfold cmd_return, return_to. destruct (calls c) as [|x r] eqn:Ec; [reflexivity|]. pose proof (find_gosub (x :: r) []) as F. destruct (find_call _ _ _) as [[[? [? ?|?]] ?]|]; [contradiction|rewrite F; reflexivity|rewrite F; reflexivity]. }
  destruct (k =? CMD_END); [reflexivity|]. destruct (k =? CMD_STOP); [reflexivity|]. rewrite Sk, rev_involutive. destruct (hcmd h k vs (hst c)); reflexivity.
Qed.
Lemma stmt_code_eq pre is1 is2 post : pre ++ encode (is1 ++ is2) ++ post = (pre ++ encode is1) ++ encode is2 ++ post.
Proof. rewrite encode_app, <- !app_assoc. reflexivity. Qed.
Lemma print_flow : ~ flow_cmd CMD_PRINT. Proof. unfold flow_cmd. cbn. intuition discriminate. Qed.
Lemma jumps_flow c : jumps c -> ~ flow_cmd c. Proof. unfold jumps, flow_cmd. cbn. intros [-> | ->]; intuition discriminate. Qed.

Lemma run_dims items : Forall (fun e => is_elem e /\ fine e) items -> Forall spelled items -> forall is, instrs ids (concat (map dcode items)) = Ok is ->
  forall pre post (c : cfg h), ix c = here pre -> argc c = 0 -> stk c = [] -> (length (sep comma (map toks items)) <= 100)%nat ->
  steps lab (pre ++ encode is ++ post) (length is) c = let* st := dims h ref items (hst c) in Ok (mkC (here (pre ++ encode is)) [] (calls c) 0 st).
Proof.
  induction items as [|e items IH]; intros F Sp is Q pre post c X A Sk L.
  - cbn in Q. injection Q as <-. unfold encode. cbn. rewrite app_nil_r. destruct c as [i s k a st]. cbn [ix argc stk] in *. subst. reflexivity.
  - destruct (Forall_inv F) as [Ie [We _]]. pose proof (Forall_inv_tail F) as F'. pose proof (Forall_inv Sp) as Se. pose proof (Forall_inv_tail Sp) as S'. cbn [map concat] in Q. rewrite instrs_app in Q.
    destruct (instrs ids (dcode e)) as [i1| |] eqn:Q1; cbn [bind] in Q; try discriminate. destruct (instrs ids (concat _)) as [i2| |] eqn:Q2; cbn [bind] in Q; try discriminate. injection Q as <-.
    assert (L2 : (length (sep comma (map toks (e :: items))) = size e + match items with [] => 0 | _ => S (length (sep comma (map toks items))) end)%nat).
    { unfold size. destruct items as [|b items]; cbn [map sep length]; [lia|]. rewrite app_length. reflexivity. }
    rewrite L2 in L. rewrite run_two, (exec_dim ids Gi e i1 Ie We Se Q1) by (auto; rewrite Sk; cbn [length]; destruct items; lia). cbn [dims].
    destruct (sems h ref (dim_sizes e) (hst c)) as [[vs st]| |]; cbn [bind]; try reflexivity. destruct (hdim h (dim_name e) vs st) as [st2| |]; cbn [bind]; try reflexivity.
    rewrite (IH F' S' i2 eq_refl); cbn [ix argc stk hst calls]; auto.
    + destruct (dims h ref items st2) as [st3| |]; cbn [bind]; try reflexivity. rewrite encode_app, <- !app_assoc. reflexivity.
    + destruct items; cbn [map sep length] in *; lia.
Qed.
Lemma run_stmt s first is : wfs s -> sspelled s -> basic s -> not_go s -> instrs ids (scode first s) = Ok is ->
  forall pre post (c : cfg h), ix c = here pre -> argc c = 0 -> stk c = [] -> (length (stoks s) <= 100)%nat ->
  steps lab (pre ++ encode is ++ post) (length is) c = lands h lab (pre ++ encode is ++ post) (here (pre ++ encode is)) (calls c) (exec_stmt h ref lab s (hst c)).
Proof.
  destruct s as [lv e|cm args|e cm args|items last|lv a b st|w|items]; cbn [wfs sspelled basic not_go scode]; intros Wf Sp Ba Ng Q pre post c X A Sk L; try contradiction; cbn [exec_stmt].
  - destruct Wf as (Lv & [F1 _] & [F2 _]). destruct Sp as [S1 S2]. rewrite !instrs_app in Q.
    destruct (instrs ids (rpn 0 lv)) as [i1| |] eqn:Q1; cbn [bind] in Q; try discriminate. destruct (instrs ids (rpn 0 e)) as [i2| |] eqn:Q2; cbn [bind] in Q; try discriminate. cbn in Q. injection Q as <-.
    cbn [stoks] in L. rewrite app_length in L. cbn [length] in L.
    rewrite run_two, (exec_expr ids Gi lv F1 S1 0 i1) by (auto; rewrite Sk; unfold size; cbn [length]; lia).
    destruct (sem h ref lv (hst c)) as [[r st]| |]; cbn [bind]; try reflexivity.
    rewrite run_two, (exec_expr ids Gi e F2 S2 0 i2); [|reflexivity|exact Q2|reflexivity|reflexivity|cbn [stk]; rewrite Sk; unfold size; cbn [length]; lia]. cbn [hst stk calls].
    destruct (sem h ref e st) as [[v st2]| |]; cbn [bind]; try reflexivity.
    rewrite run_one, step_simple; [|cbn; unfold is_byte, OP_ASSIGN; lia|exact I|exact I|reflexivity]. cbn [simple stk hst calls]. change ((OP_ASSIGN =? OP_COMMA) || (OP_ASSIGN =? OP_SEMICOLON)) with false. cbn [pop bind].
    change (unary OP_ASSIGN) with false. change (OP_ASSIGN =? OP_ASSIGN) with true. cbv iota. destruct (assign h r v st2) as [st3| |]; cbn [bind lands]; try reflexivity. rewrite Sk. unfold set_stk. cbn [ix calls].
    rewrite !encode_app, enc_one, !app_assoc. reflexivity.
  - destruct Wf as (O & F). destruct Sp as [Bc Sp]. destruct Ba as [Nf Nj]. rewrite instrs_app in Q. destruct (instrs ids (concat _)) as [i1| |] eqn:Q1; cbn [bind] in Q; try discriminate.
    rewrite instrs_one, cmd_code_instr in Q. cbn [bind] in Q. injection Q as <-. cbn [stoks length] in L.
    rewrite run_two, (run_args args F Sp i1 Q1) by (auto; rewrite Sk; cbn [length]; lia). pose proof (asems_length args (hst c)) as La. destruct (asems h ref args (hst c)) as [[vs st]| |]; cbn [bind]; try reflexivity. specialize (La _ _ eq_refl).
    rewrite run_one, step_command by (auto; reflexivity). rewrite Sk, app_nil_r. cbn [ix calls stk hst argc].
    rewrite (command_perform _ _ cm vs Nf); [|intros J E; subst vs; apply (Nj J); destruct args; [reflexivity|discriminate La]|reflexivity].
    cbn [ix calls hst]. rewrite stmt_code_eq, enc_one. rewrite encode_app, enc_one, <- !app_assoc. reflexivity.
  - destruct Wf as ([Fe _] & O & F). destruct Sp as (Se & Bc & Sp). rewrite instrs_app in Q. destruct (instrs ids (rpn 0 e)) as [i1| |] eqn:Q1; cbn [bind] in Q; try discriminate.
    rewrite instrs_app, instrs_one, cmd_code_instr in Q. cbn [bind] in Q. rewrite instrs_app in Q. destruct (instrs ids (concat _)) as [i2| |] eqn:Q2; cbn [bind] in Q; try discriminate.
    rewrite instrs_one in Q. rewrite cmd_code_instr in Q. cbn [bind] in Q. injection Q as <-. cbn [stoks length] in L. rewrite app_length in L. cbn [length] in L.
    rewrite run_two, (exec_expr ids Gi e Fe Se 0 i1) by (auto; rewrite Sk; unfold size; cbn [length]; lia). destruct (sem h ref e (hst c)) as [[v st]| |]; cbn [bind]; try reflexivity.
    change (ICmd first CMD_ON :: i2 ++ [ICmd false cm]) with ([ICmd first CMD_ON] ++ i2 ++ [ICmd false cm]). rewrite run_two, run_one, step_command; [|unfold is_byte, CMD_ON, CMD_PRINT; lia|reflexivity]. cbn [ix calls stk hst argc].
    replace (command_step lab _ _ CMD_ON) with (Ok (mkC (here ((pre ++ encode i1) ++ enc (ICmd first CMD_ON))) (v :: stk c) (calls c) 0 st)) by reflexivity. cbn [bind].
    rewrite run_two, (run_args args F Sp i2 Q2); cbn [ix argc stk hst calls]; [|rewrite enc_one; reflexivity|reflexivity|rewrite Sk; cbn [length]; lia].
    pose proof (asems_length args st) as La. destruct (asems h ref args st) as [[vs st2]| |]; cbn [bind]; try reflexivity. specialize (La _ _ eq_refl).
    rewrite run_one, step_command by (auto; reflexivity). rewrite Sk. cbn [ix calls stk hst argc].
    rewrite (command_perform _ _ cm (v :: vs) (jumps_flow _ Ba)); [|intros _ E; discriminate E|reflexivity].
    cbn [ix calls hst]. rewrite !encode_app, !enc_one, <- !app_assoc. reflexivity.
  - destruct Wf as (F1 & F2). destruct Sp as [S1 S2]. rewrite !instrs_app in Q. destruct (instrs ids (concat _)) as [i1| |] eqn:Q1; cbn [bind] in Q; try discriminate.
    destruct (instrs ids (ocode last)) as [i2| |] eqn:Q2; cbn [bind] in Q; try discriminate. rewrite instrs_one, cmd_code_instr in Q. cbn [bind] in Q. injection Q as <-. cbn [stoks length] in L. rewrite app_length in L.
    rewrite run_two. destruct (run_items items F1 S1 i1 Q1 pre (encode (i2 ++ [ICmd first CMD_PRINT]) ++ post) c X A) as [R1 R2]; [rewrite Sk; cbn [length]; lia|]. rewrite R1.
    destruct (isems h ref items (hst c)) as [[vs st]| |]; cbn [bind]; try reflexivity. specialize (R2 _ _ eq_refl).
    rewrite run_two, (run_opt last F2 S2 i2 Q2); cbn [ix argc stk hst calls]; [|reflexivity|reflexivity|rewrite Sk, app_nil_r, rev_length; lia].
    destruct (osem h ref last st) as [[ws st2]| |]; cbn [bind]; try reflexivity.
    rewrite run_one, step_command; [|unfold is_byte, CMD_ON, CMD_PRINT; lia|reflexivity]. cbn [ix calls stk hst argc].
    rewrite (command_perform _ _ CMD_PRINT (vs ++ ws) print_flow); [|intros [J|J]; discriminate J|cbn [stk]; rewrite Sk, app_nil_r, rev_app_distr; reflexivity].
    cbn [ix calls hst]. change (perform h lab CMD_PRINT (vs ++ ws) st2) with (let* st := hcmd h CMD_PRINT (vs ++ ws) st2 in Ok (Fall st)). rewrite !encode_app, !enc_one, <- !app_assoc. reflexivity.
  - destruct Wf as [_ F]. cbn [stoks length] in L. rewrite (run_dims items F Sp is Q) by (auto; lia). destruct (dims h ref items (hst c)); reflexivity.
Qed.
(** * the instructions of expressions and statements *)
Definition opnd (i : instr) : Prop := match i with ICmd _ _ | IStr true _ => False | _ => True end.
Definition otok (t : token) : Prop := match ty t with number | base_number | string | sysvar | operation | function | arg_count | name | array_name | dim_arr => True | _ => False end.
Lemma otok_instr t i : otok t -> instr_of ids t = Ok i -> opnd i.
Proof.
  assert (Nm : forall b w i, name_instr ids b w = Ok i -> opnd i).
  { intros b w j Q. destruct (name_instr_ref ids Gi b w j Q) as [(u & -> & _)|(b' & k & -> & _)]; exact I. }
  unfold otok, instr_of. destruct (ty t) eqn:T; intros O; try contradiction; try (intros [= <-]; exact I); try apply Nm.
  - destruct (u8_to_num (text t)) as [n| |]; cbn [bind]; try discriminate. destruct (_ && _); [discriminate|]. intros [= <-]. destruct (num_instr_val n) as [b ->]. exact I.
  - destruct (u8_to_number _ _ _) as [n| |]; cbn [bind]; try discriminate. intros [= <-]. destruct (num_instr_val n) as [b ->]. exact I.
Qed.
Lemma otoks_instrs l : Forall otok l -> forall is, instrs ids l = Ok is -> Forall opnd is /\ length is = length l.
Proof.
  induction 1 as [|t l O _ IH]; intros is; cbn [instrs]; [intros [= <-]; split; [constructor|reflexivity]|].
  destruct (instr_of ids t) as [i| |] eqn:Q; cbn [bind]; try discriminate. destruct (instrs ids l) as [r| |]; cbn [bind]; try discriminate. intros [= <-]. destruct (IH _ eq_refl) as [I1 I2].
  split; [constructor; [eapply otok_instr; eauto|exact I1]|cbn [length]; f_equal; exact I2].
Qed.
Lemma rpn_otok e : wfe e -> forall n, Forall otok (rpn n e) /\ rpn n e <> [].
Proof.
  induction e as [k c w|e IH|o e IH|o l r IHl IHr|fn c w b args IH] using expr_ind2; cbn [wfe]; intros Wf n; cbn [rpn].
  - split; [|intro Q; discriminate Q]. constructor; [|constructor]. unfold otok. cbn [ty]. destruct k; try discriminate; exact I.
  - apply IH. exact Wf.
  - destruct Wf as (_ & Wf & _). split; [|intro Q; destruct (rpn n e); discriminate Q]. apply Forall_app. split; [apply IH; exact Wf|constructor; [exact I|constructor]].
  - assert (W2 : wfe l /\ wfe r) by tauto. destruct W2 as [W1 W2]. split; [|intro Q; destruct (rpn n l); [destruct (rpn n r)|]; discriminate Q]. repeat (apply Forall_app; split); [apply IHl; exact W1|apply IHr; exact W2|constructor; [exact I|constructor]].
  - split; [|intro Q; destruct (concat _); discriminate Q]. apply Forall_app. split; [|constructor; [exact I|constructor; [destruct fn; exact I|constructor]]].
    apply Forall_concat, Forall_map. rewrite Forall_forall. intros x Hx. rewrite Forall_forall in IH. apply IH; [exact Hx|].
    destruct Wf as (Wa & _). apply wfe_args in Wa. rewrite Forall_forall in Wa. apply Wa. exact Hx.
Qed.
Lemma rpn_head n e is : wfe e -> instrs ids (rpn n e) = Ok is -> exists i r, is = i :: r /\ opnd i.
Proof.
  intros Wf Q. destruct (rpn_otok e Wf n) as [O N]. destruct (otoks_instrs _ O _ Q) as [F L]. destruct is as [|i r]; [destruct (rpn n e); [congruence|discriminate L]|]. exists i, r. split; [reflexivity|apply (Forall_inv F)].
Qed.
Lemma dcode_otok e : is_elem e -> wfe e -> Forall otok (dcode e) /\ dcode e <> [].
Proof.
  destruct e as [| | | |[] c w b args]; try contradiction. intros _ (Wa & _). apply wfe_args in Wa. cbn [dcode]. split; [|intro Q; destruct (concat _); discriminate Q]. apply Forall_app. split; [|constructor; [exact I|constructor; [exact I|constructor]]].
  apply Forall_concat, Forall_map. rewrite Forall_forall in *. intros x Hx. apply rpn_otok. apply Wa. exact Hx.
Qed.
Lemma dims_otok items : Forall (fun e => is_elem e /\ fine e) items -> Forall otok (concat (map dcode items)).
Proof. intros F. apply Forall_concat, Forall_map. eapply Forall_impl; [|exact F]. intros e [Ie [We _]]. apply dcode_otok; assumption. Qed.
(** the first instruction of a statement *)
Lemma scode_head s first is : wfs s -> basic s -> not_go s -> instrs ids (scode first s) = Ok is ->
  exists i r, is = i :: r /\
  (opnd i \/ (exists k, i = ICmd first k) \/ (exists w c args r', s = SCmd c (AL w :: args) /\ i = IStr true w /\ (args = [] -> r = ICmd first c :: r'))).
Proof.
  destruct s as [lv e|cm args|e cm args|items last|lv a b st|w|items]; cbn [wfs basic not_go scode]; intros Wf Ba Ng Q; try contradiction.
  - rewrite instrs_app in Q. destruct (instrs ids (rpn 0 lv)) as [i1| |] eqn:Q1; cbn [bind] in Q; try discriminate. destruct Wf as (_ & [Wf _] & _). destruct (rpn_head 0 lv i1 Wf Q1) as (i & r & -> & O).
    destruct (instrs ids (_ ++ _)) as [i2| |]; cbn [bind] in Q; try discriminate. injection Q as <-. eexists i, _. split; [reflexivity|left; exact O].
  - rewrite instrs_app in Q. destruct args as [|[e|w] args].
    + cbn [map concat instrs bind] in Q. rewrite cmd_code_instr in Q. injection Q as <-. eexists _, _. split; [reflexivity|]. right. left. eauto.
    + cbn [map concat acode] in Q. rewrite instrs_app in Q. destruct (instrs ids (rpn 0 e)) as [i1| |] eqn:Q1; cbn [bind] in Q; try discriminate. destruct Wf as (_ & Wf). destruct (Forall_inv Wf) as [We _]. destruct (rpn_head 0 e i1 We Q1) as (i & r & -> & O).
      destruct (instrs ids (concat _)) as [i2| |]; cbn [bind] in Q; try discriminate. rewrite instrs_one, cmd_code_instr in Q. cbn [bind] in Q. injection Q as <-. eexists i, _. split; [reflexivity|left; exact O].
    + cbn [map concat acode app instrs] in Q. change (instr_of ids (mk label_string (Z.of_nat (length w)) 0 w)) with (@Ok instr (IStr true w)) in Q. cbn [bind] in Q. destruct (instrs ids (concat _)) as [i2| |] eqn:Q2; cbn [bind] in Q; try discriminate. rewrite cmd_code_instr in Q. cbn [bind] in Q. injection Q as <-.
      eexists _, _. split; [reflexivity|]. right. right. exists w, cm, args, []. split; [reflexivity|]. split; [reflexivity|]. intros ->. cbn in Q2. injection Q2 as <-. reflexivity.
  - rewrite instrs_app in Q. destruct (instrs ids (rpn 0 e)) as [i1| |] eqn:Q1; cbn [bind] in Q; try discriminate. destruct Wf as ([Wf _] & _). destruct (rpn_head 0 e i1 Wf Q1) as (i & r & -> & O).
    destruct (instrs ids (_ ++ _)) as [i2| |]; cbn [bind] in Q; try discriminate. injection Q as <-. eexists i, _. split; [reflexivity|left; exact O].
  - destruct Wf as [F1 F2]. destruct items as [|[[e|] s] items].
    + cbn [map concat app] in Q. destruct last as [e|].
      * rewrite instrs_app in Q. destruct (instrs ids (ocode (Some e))) as [i1| |] eqn:Q1; cbn [bind] in Q; try discriminate. destruct F2 as [We _]. destruct (rpn_head 0 e i1 We Q1) as (i & r & -> & O).
        rewrite instrs_one, cmd_code_instr in Q. cbn [bind] in Q. injection Q as <-. eexists i, _. split; [reflexivity|left; exact O].
      * cbn [ocode app] in Q. rewrite instrs_one, cmd_code_instr in Q. cbn [bind] in Q. injection Q as <-. eexists _, _. split; [reflexivity|]. right. left. eauto.
    + destruct (Forall_inv F1) as [_ [We _]]. cbn [map concat fst snd ocode] in Q. rewrite <- !app_assoc in Q. rewrite instrs_app in Q. destruct (instrs ids (rpn 0 e)) as [i1| |] eqn:Q1; cbn [bind] in Q; try discriminate. destruct (rpn_head 0 e i1 We Q1) as (i & r & -> & O).
      destruct (instrs ids (_ ++ _)) as [i2| |]; cbn [bind] in Q; try discriminate. injection Q as <-. eexists i, _. split; [reflexivity|left; exact O].
    + cbn [map concat fst snd ocode app] in Q. cbn [instrs] in Q. destruct (Forall_inv F1) as [Fs _]. cbn [snd] in Fs.
      assert (Qs : instr_of ids (op_tok s 1) = Ok (IOp s)) by (destruct Fs as [-> | ->]; reflexivity). rewrite Qs in Q. cbn [bind] in Q. destruct (instrs ids (_ ++ _)) as [i2| |]; cbn [bind] in Q; try discriminate. injection Q as <-. eexists _, _. split; [reflexivity|left; exact I].
  - destruct Wf as [Ne F]. destruct (otoks_instrs _ (dims_otok items F) _ Q) as [Fo L]. destruct is as [|i r]; [|exists i, r; split; [reflexivity|left; apply (Forall_inv Fo)]].
    destruct items as [|e items]; [congruence|]. destruct (Forall_inv F) as [Ie [We _]]. destruct (dcode_otok e Ie We) as [_ N]. cbn [map concat] in L. destruct (dcode e); [congruence|discriminate L].
Qed.

(** no ELSE or ENDIF inside a statement *)
Definition stops (k : Z) : bool := (k =? CMD_ELSE) || (k =? CMD_ENDIF).
Definition quiet (i : instr) : Prop := is_want stops i = false.
Lemma opnd_quiet i : opnd i -> quiet i. Proof. destruct i as [| |[|]| | | | | | | | | | | | |]; cbn; intros O; try reflexivity; contradiction. Qed.
Lemma rpn_quiet n e is : wfe e -> instrs ids (rpn n e) = Ok is -> Forall quiet is.
Proof. intros Wf Q. destruct (otoks_instrs _ (proj1 (rpn_otok e Wf n)) _ Q) as [F _]. eapply Forall_impl; [|exact F]. exact opnd_quiet. Qed.
Lemma ocode_quiet o is : match o with Some e => fine e | None => True end -> instrs ids (ocode o) = Ok is -> Forall quiet is.
Proof. destruct o as [e|]; intros F Q; [apply (rpn_quiet 0 e is (proj1 F) Q)|cbn in Q; injection Q as <-; constructor]. Qed.
Lemma args_quiet args : Forall afine args -> forall is, instrs ids (concat (map acode args)) = Ok is -> Forall quiet is.
Proof.
  induction 1 as [|a args Fa F IH]; intros is Q; [cbn in Q; injection Q as <-; constructor|]. cbn [map concat] in Q. rewrite instrs_app in Q. destruct (instrs ids (acode a)) as [i1| |] eqn:Q1; cbn [bind] in Q; try discriminate.
  destruct (instrs ids (concat _)) as [i2| |]; cbn [bind] in Q; try discriminate. injection Q as <-. apply Forall_app. split; [|apply IH; reflexivity].
  destruct a as [e|w]; [apply (rpn_quiet 0 e _ (proj1 Fa) Q1)|cbn in Q1; injection Q1 as <-; constructor; [reflexivity|constructor]].
Qed.
Lemma cmd_quiet b k : ~ flow_cmd k -> quiet (ICmd b k).
Proof. unfold flow_cmd, quiet. cbn [In is_want]. intros N. destruct b; [reflexivity|]. unfold stops. lia. Qed.
Lemma scode_quiet s first is : wfs s -> basic s -> instrs ids (scode first s) = Ok is -> Forall quiet is.
Proof.
  destruct s as [lv e|cm args|e cm args|items last|lv a b st|w|items]; cbn [wfs basic scode]; intros Wf Ba Q; try contradiction.
  - destruct Wf as (_ & [F1 _] & [F2 _]). rewrite !instrs_app in Q. destruct (instrs ids (rpn 0 lv)) as [i1| |] eqn:Q1; cbn [bind] in Q; try discriminate. destruct (instrs ids (rpn 0 e)) as [i2| |] eqn:Q2; cbn [bind] in Q; try discriminate. cbn in Q. injection Q as <-.
    apply Forall_app. split; [exact (rpn_quiet 0 lv _ F1 Q1)|]. apply Forall_app. split; [exact (rpn_quiet 0 e _ F2 Q2)|]. constructor; [reflexivity|constructor].
  - destruct Wf as (_ & F). rewrite instrs_app in Q. destruct (instrs ids (concat _)) as [i1| |] eqn:Q1; cbn [bind] in Q; try discriminate. rewrite instrs_one, cmd_code_instr in Q. cbn [bind] in Q. injection Q as <-.
    apply Forall_app. split; [exact (args_quiet args F _ Q1)|]. constructor; [apply cmd_quiet; apply Ba|constructor].
  - destruct Wf as ([Fe _] & _ & F). rewrite instrs_app in Q. destruct (instrs ids (rpn 0 e)) as [i1| |] eqn:Q1; cbn [bind] in Q; try discriminate.
    rewrite instrs_app, instrs_one, cmd_code_instr in Q. cbn [bind] in Q. rewrite instrs_app in Q. destruct (instrs ids (concat _)) as [i2| |] eqn:Q2; cbn [bind] in Q; try discriminate.
    rewrite instrs_one in Q. rewrite cmd_code_instr in Q. cbn [bind] in Q. injection Q as <-.
    apply Forall_app. split; [exact (rpn_quiet 0 e _ Fe Q1)|]. constructor; [destruct first; reflexivity|]. apply Forall_app. split; [exact (args_quiet args F _ Q2)|]. constructor; [apply cmd_quiet, jumps_flow; exact Ba|constructor].
  - destruct Wf as (F1 & F2). rewrite !instrs_app in Q. destruct (instrs ids (concat _)) as [i1| |] eqn:Q1; cbn [bind] in Q; try discriminate.
    destruct (instrs ids (ocode last)) as [i2| |] eqn:Q2; cbn [bind] in Q; try discriminate. rewrite instrs_one, cmd_code_instr in Q. cbn [bind] in Q. injection Q as <-.
    apply Forall_app. split; [|apply Forall_app; split; [exact (ocode_quiet last _ F2 Q2)|constructor; [destruct first; reflexivity|constructor]]].
    clear - F1 Q1 Gi. revert i1 Q1. induction F1 as [|[o s] items [Fs Fo] F1 IH]; intros i1 Q1; [cbn in Q1; injection Q1 as <-; constructor|]. cbn [map concat fst snd] in *. rewrite !instrs_app in Q1.
    destruct (instrs ids (ocode o)) as [j1| |] eqn:R1; cbn [bind] in Q1; try discriminate. assert (Qs : instrs ids [op_tok s 1] = Ok [IOp s]) by (destruct Fs as [-> | ->]; reflexivity). rewrite Qs in Q1. cbn [bind] in Q1.
    destruct (instrs ids (concat _)) as [j2| |] eqn:R2; cbn [bind] in Q1; try discriminate. injection Q1 as <-. apply Forall_app. split; [|apply IH; reflexivity]. apply Forall_app. split; [exact (ocode_quiet o _ Fo R1)|constructor; [reflexivity|constructor]].
  - cbn in Q. injection Q as <-. constructor; [reflexivity|constructor].
  - destruct Wf as [_ F]. destruct (otoks_instrs _ (dims_otok items F) _ Q) as [Fo _]. eapply Forall_impl; [|exact Fo]. exact opnd_quiet.
Qed.
(** the lines considered: every statement in the fragment, spelled, at most 100 tokens *)
Definition okl (l : lin) : Prop := all_stmts (fun s => sspelled s /\ basic s /\ (length (stoks s) <= 100)%nat) (fun e => spelled e /\ (length (toks e) <= 100)%nat) l.
Lemma lcode_wants : forall l after tidy first is, wfl after tidy l -> okl l -> instrs ids (lcode first l) = Ok is ->
  Forall (fun i => is_want (fun k => k =? CMD_ENDIF) i = false) is /\ (has_else l = false -> Forall quiet is).
Proof.
  assert (Qe : forall i, quiet i -> is_want (fun k => k =? CMD_ENDIF) i = false).
  { intros i. unfold quiet, is_want, stops. destruct i as [| |[|]| | | | | | | | | | | | |]; auto. intros Q. apply orb_false_iff in Q. apply Q. }
  fix IH 1. destruct l as [s|s l|e t el]; intros after tidy first is; cbn [wfl okl all_stmts lcode has_else].
  - intros (Wf & _ & _) (_ & Ba & _) Q. pose proof (scode_quiet s first is Wf Ba Q) as F. split; [eapply Forall_impl; [|exact F]; exact Qe|intros _; exact F].
  - intros (Wf & _ & _ & Wl) [(_ & Ba & _) Ol] Q. rewrite instrs_app in Q. destruct (instrs ids (scode first s)) as [i1| |] eqn:Q1; cbn [bind] in Q; try discriminate. destruct (instrs ids (lcode true l)) as [i2| |] eqn:Q2; cbn [bind] in Q; try discriminate. injection Q as <-.
    pose proof (scode_quiet s first i1 Wf Ba Q1) as F. destruct (IH l _ _ _ _ Wl Ol Q2) as [I1 I2]. split; [|intros N]; (apply Forall_app; split); [eapply Forall_impl; [|exact F]; exact Qe|exact I1|exact F|exact (I2 N)].
  - intros ([We _] & Wt & Wel) (_ & Ot & Oel) Q. rewrite instrs_app in Q. destruct (instrs ids (rpn 0 e)) as [i1| |] eqn:Q1; cbn [bind] in Q; try discriminate. pose proof (rpn_quiet 0 e i1 We Q1) as F1.
    rewrite instrs_app, instrs_one, cmd_code_instr in Q. cbn [bind] in Q. rewrite instrs_app in Q. destruct (instrs ids (lcode false t)) as [i2| |] eqn:Q2; cbn [bind] in Q; try discriminate. destruct (IH t _ _ _ _ Wt Ot Q2) as [I1 I2].
    assert (Fi : quiet (ICmd first CMD_IF)) by (destruct first; reflexivity).
    destruct el as [el|].
    + cbn [instrs] in Q. change (instr_of ids (cmd_tok CMD_ELSE)) with (@Ok instr (ICmd false CMD_ELSE)) in Q. cbn [bind] in Q. destruct (instrs ids (lcode false el)) as [i3| |] eqn:Q3; cbn [bind] in Q; try discriminate. injection Q as <-. destruct Wel as [Wel _]. destruct (IH el _ _ _ _ Wel Oel Q3) as [J1 J2].
      split; [|intro N; discriminate N]. apply Forall_app. split; [eapply Forall_impl; [|exact F1]; exact Qe|]. constructor; [apply Qe; exact Fi|]. apply Forall_app. split; [exact I1|]. constructor; [reflexivity|exact J1].
    + cbn [instrs bind] in Q. injection Q as <-. rewrite app_nil_r. split; [|intros N]; (apply Forall_app; split); [eapply Forall_impl; [|exact F1]; exact Qe|constructor; [apply Qe; exact Fi|exact I1]|exact F1|constructor; [exact Fi|exact (I2 N)]].
Qed.
(** * entering a branch (the label check of IF and ELSE) *)
Definition enter (code : list Z) (c : cfg h) (index : Z) (jump_ok : bool) : outcome (cfg h) :=
  let n := byte code (index + 1) in
  let after := index + 2 + n + Z.land n 1 in
  if jump_ok && (byte code index =? BC_LABEL_STRING) &&
     negb ((byte code after =? BC_COMMAND) && ((byte code (after + 1) =? CMD_GOSUB) || (byte code (after + 1) =? CMD_GOTO)))
  then let* i := lab (ES true (slice code (index + 2) n)) (hst c) in Ok (mkC i [] (calls c) 0 (hst c))
  else Ok (mkC index [] (calls c) 0 (hst c)).
Lemma cmd_if_eq code (c : cfg h) : cmd_if h lab code c =
  let* e := arg h (stk c) 0 in let* b := truth h (hst c) e in
  if b then enter code c (ix c) true
  else match find_cmd (S (length code)) code stops (ix c) with
       | None => Err ERR_MISSING_ELSE_AND_ENDIF
       | Some j => enter code c (j + 2) (byte code (j + 1) =? CMD_ELSE)
       end.
Proof.
  unfold cmd_if, truth. destruct (arg h (stk c) 0) as [e| |]; cbn [bind]; try reflexivity. destruct (value_num h (hst c) e) as [v| |]; cbn [bind]; try reflexivity.
Qed.
Lemma byte_at pre i l k : (k < length (enc i))%nat -> byte (pre ++ encode (i :: l)) (here pre + Z.of_nat k) = nth k (enc i) 0.
Proof. intros L. unfold byte. replace (Z.to_nat (here pre + Z.of_nat k)) with (length pre + k)%nat by lia. rewrite app_nth2_plus, encode_cons, app_nth1 by exact L. reflexivity. Qed.
Lemma byte_op pre i l : good i -> byte (pre ++ encode (i :: l)) (here pre) = opcode i.
Proof.
  intros G. pose proof (enc_len2 i G) as L. replace (here pre) with (here pre + Z.of_nat 0) by lia. rewrite byte_at by lia. unfold opcode. destruct (enc i) as [|x r]; [cbn in L; lia|]. reflexivity.
Qed.
Lemma opcode_label i : good i -> (opcode i =? BC_LABEL_STRING) = true -> exists w, i = IStr true w.
Proof.
  intros G. unfold opcode. destruct i as [big v|lb s|f c|o|f|c|c|s|s|s|big i0|n| |s|s|e]; cbn [enc hd app]; try (intro Q; discriminate Q).
  - destruct big; intro Q; discriminate Q.
  - destruct lb; [eauto|intro Q; discriminate Q].
  - destruct f; intro Q; discriminate Q.
  - destruct (named_len BC_VARIABLE_NAME s G) as (c & r & E & _). rewrite E. intro Q. discriminate Q.
  - destruct (named_len BC_ARRAY_NAME s G) as (c & r & E & _). rewrite E. intro Q. discriminate Q.
  - destruct (named_len BC_DIM s G) as (c & r & E & _). rewrite E. intro Q. discriminate Q.
  - destruct big; intro Q; discriminate Q.
Qed.
Lemma enter_off code c i : enter code c i false = Ok (mkC i [] (calls c) 0 (hst c)). Proof. reflexivity. Qed.
Lemma enter_plain pre i l c : good i -> (forall w, i <> IStr true w) -> enter (pre ++ encode (i :: l)) c (here pre) true = Ok (mkC (here pre) [] (calls c) 0 (hst c)).
Proof.
  intros G N. unfold enter. rewrite byte_op by exact G. destruct (opcode i =? BC_LABEL_STRING) eqn:O; [|reflexivity]. destruct (opcode_label i G O) as [w ->]. exfalso. apply (N w). reflexivity.
Qed.
Lemma label_bytes pre w i l : good (IStr true w) -> short (IStr true w) -> good i ->
  let code := pre ++ encode (IStr true w :: i :: l) in
  let n := byte code (here pre + 1) in let after := here pre + 2 + n + Z.land n 1 in
  byte code (here pre) = BC_LABEL_STRING /\ slice code (here pre + 2) n = w /\ after = here (pre ++ enc (IStr true w)) /\ byte code after = opcode i /\ (forall b k, i = ICmd b k -> byte code (after + 1) = k).
Proof.
  intros G Sh Gi' code. 
  assert (N : byte code (here pre + 1) = Z.of_nat (length w)).
  { unfold code. change (here pre + 1) with (here pre + Z.of_nat 1). rewrite byte_at by (pose proof (enc_len2 _ G); lia). reflexivity. }
  cbv zeta. rewrite N.
  assert (A : here pre + 2 + len w + Z.land (len w) 1 = here (pre ++ enc (IStr true w))).
  { rewrite app_length. cbn [enc app length]. rewrite app_length. pose proof (pad_len w). unfold len in *. lia. }
  fold (len w). rewrite A. unfold code. 
  split; [apply byte_op; exact G|]. rewrite encode_cons, encode_cons.
  split; [cbn [enc app]; rewrite <- app_assoc; apply slice_app2; reflexivity|]. split; [reflexivity|].
  rewrite app_assoc, <- encode_cons. split; [apply byte_op; exact Gi'|]. intros b k ->. change (here (pre ++ enc (IStr true w)) + 1) with (here (pre ++ enc (IStr true w)) + Z.of_nat 1). rewrite byte_at by (cbn; lia). reflexivity.
Qed.
Lemma enter_goto pre w k l c : good (IStr true w) -> short (IStr true w) -> is_byte k -> jumps k ->
  enter (pre ++ encode (IStr true w :: ICmd false k :: l)) c (here pre) true = Ok (mkC (here pre) [] (calls c) 0 (hst c)).
Proof.
  intros G Sh Bk J. unfold enter. destruct (label_bytes pre w (ICmd false k) l G Sh Bk) as (B1 & B2 & B3 & B4 & B5). rewrite B1, B4, (B5 false k eq_refl). replace ((k =? CMD_GOSUB) || (k =? CMD_GOTO)) with true by (unfold jumps in J; lia). reflexivity.
Qed.
Lemma enter_jump pre w i l c : good (IStr true w) -> short (IStr true w) -> good i -> (forall k, i = ICmd false k -> ~ jumps k) ->
  enter (pre ++ encode (IStr true w :: i :: l)) c (here pre) true = let* p := lab (ES true w) (hst c) in Ok (mkC p [] (calls c) 0 (hst c)).
Proof.
  intros G Sh Gi' J. unfold enter. destruct (label_bytes pre w i l G Sh Gi') as (B1 & B2 & B3 & B4 & B5). rewrite B1, B2, B4. change (BC_LABEL_STRING =? BC_LABEL_STRING) with true.
  destruct (opcode i =? BC_COMMAND) eqn:O; [|reflexivity]. destruct (opcode_command i Gi' O) as [k ->]. rewrite (B5 false k eq_refl). specialize (J k eq_refl). unfold jumps in J. replace ((k =? CMD_GOSUB) || (k =? CMD_GOTO)) with false by lia. reflexivity.
Qed.

(** * all instructions are well-formed *)
Definition lp (l : list token) : Prop := Forall lexed l /\ Forall plain l.
Lemma lp_app a b : lp a -> lp b -> lp (a ++ b).
Proof. intros [A1 A2] [B1 B2]. split; apply Forall_app; auto. Qed.
Lemma lp_one t : lexed t -> plain t -> lp [t]. Proof. intros A B. split; (constructor; [assumption|constructor]). Qed.
Lemma lp_nil : lp []. Proof. split; constructor. Qed.
Lemma lp_rpn e n : wfe e -> spelled e -> lp (rpn n e). Proof. intros Wf Sp. destruct (rpn_lexed e Wf Sp n). split; assumption. Qed.
Lemma lp_cmd b c : is_byte c -> c <> CMD_DATA -> lp [cmd_code b c].
Proof. intros B N. destruct b; (apply lp_one; [split; [split; [exact B|intros E; exfalso; exact (N E)]|exact I]|exact N]). Qed.
Lemma lp_label w : Forall is_byte w -> (length w < 128)%nat -> lp [mk label_string (Z.of_nat (length w)) 0 w].
Proof. intros B L. apply lp_one; [|exact I]. split; [split; [cbn; unfold is_byte; lia|split; [exact B|reflexivity]]|exact L]. Qed.
Lemma lp_args args : Forall afine args -> Forall aspelled args -> lp (concat (map acode args)).
Proof.
  induction 1 as [|a args Fa F IH]; intros Sp; [apply lp_nil|]. cbn [map concat]. apply lp_app; [|apply IH; apply (Forall_inv_tail Sp)]. pose proof (Forall_inv Sp) as Sa. destruct a as [e|w]; [apply lp_rpn; [apply Fa|apply Sa]|apply lp_label; apply Sa].
Qed.
Lemma lp_opt o : match o with Some e => fine e | None => True end -> ospelled o -> lp (ocode o).
Proof. destruct o as [e|]; intros F Sp; [apply lp_rpn; [apply F|apply Sp]|apply lp_nil]. Qed.
Lemma lp_items items : Forall (fun it => (snd it = OP_COMMA \/ snd it = OP_SEMICOLON) /\ match fst it with Some e => fine e | None => True end) items -> Forall (fun it => ospelled (fst it)) items ->
  lp (concat (map (fun it => ocode (fst it) ++ [op_tok (snd it) 1]) items)).
Proof.
  induction 1 as [|[o s] items [Fs Fo] F IH]; intros Sp; [apply lp_nil|]. cbn [map concat fst snd] in *. apply lp_app; [|apply IH; apply (Forall_inv_tail Sp)]. apply lp_app; [apply lp_opt; [exact Fo|apply (Forall_inv Sp)]|].
  apply lp_one; [|exact I]. apply lexed_op. destruct Fs as [-> | ->]; unfold OP_COMMA, OP_SEMICOLON; lia.
Qed.
Lemma ordinary_data c : ordinary c -> c <> CMD_DATA. Proof. unfold ordinary. cbn [In]. intuition. Qed.
Lemma lp_dim e : is_elem e -> wfe e -> spelled e -> lp (dcode e).
Proof.
  destruct e as [| | | |[] c w b args]; try contradiction. intros _ (Wa & La & _) (Bc & Nm & Sa). apply wfe_args in Wa. apply spelled_args in Sa. cbn [dcode]. destruct (Nm eq_refl) as [Gw Lw].
  apply lp_app; [|split; (constructor; [|constructor; [|constructor]])]; try exact I.
  - induction Wa as [|a args Wa _ IH]; [apply lp_nil|]. cbn [map concat]. apply lp_app; [apply lp_rpn; [exact Wa|apply (Forall_inv Sa)]|]. apply IH; [cbn [length] in La; lia|apply (Forall_inv_tail Sa)].
  - split; [split; [cbn; unfold is_byte; lia|exact I]|cbn; lia].
  - split; [|exact I]. split; [exact Bc|]. split; [exact Gw|unfold len; exact Lw].
Qed.
Lemma lp_stmt s b : wfs s -> sspelled s -> lp (scode b s).
Proof.
  destruct s as [lv e|cm args|e cm args|items last|lv x y z|w|items]; cbn [wfs sspelled scode]; intros Wf Sp.
  - apply lp_app; [apply lp_rpn; [apply Wf|apply Sp]|]. apply lp_app; [apply lp_rpn; [apply Wf|apply Sp]|]. apply lp_one; [apply lexed_op; unfold OP_ASSIGN; lia|exact I].
  - apply lp_app; [apply lp_args; [apply Wf|apply Sp]|apply lp_cmd; [apply Sp|apply ordinary_data; apply Wf]].
  - destruct Wf as (F & O & A). destruct Sp as (Se & B & Sa). apply lp_app; [apply lp_rpn; [apply F|exact Se]|]. apply lp_app; [apply lp_cmd; [unfold is_byte, CMD_ON; lia|intro Q; discriminate Q]|].
    apply lp_app; [apply lp_args; assumption|apply lp_cmd; [exact B|apply ordinary_data; exact O]].
  - destruct Wf. destruct Sp. apply lp_app; [apply lp_items; assumption|]. apply lp_app; [apply lp_opt; assumption|apply lp_cmd; [unfold is_byte, CMD_PRINT; lia|intro Q; discriminate Q]].
  - destruct Wf as (_ & F1 & F2 & F3 & F4). destruct Sp as (S1 & S2 & S3 & S4).
    apply lp_app; [apply lp_rpn; [apply F1|exact S1]|]. apply lp_app; [apply lp_cmd; [unfold is_byte, CMD_FOR; lia|intro Q; discriminate Q]|]. apply lp_app; [apply lp_rpn; [apply F2|exact S2]|].
    apply lp_app; [apply lp_one; [apply lexed_op; unfold OP_ASSIGN; lia|exact I]|]. apply lp_app; [apply lp_rpn; [apply F3|exact S3]|]. apply lp_app; [apply lp_cmd; [unfold is_byte, CMD_TO; lia|intro Q; discriminate Q]|].
    apply lp_app; [|apply lp_one; [split; [split; [cbn; unfold is_byte; lia|exact I]|exact I]|exact I]]. destruct z as [z|]; [|apply lp_nil]. apply lp_app; [apply lp_rpn; [apply F4|exact S4]|apply lp_cmd; [unfold is_byte, CMD_STEP; lia|intro Q; discriminate Q]].
  - apply lp_label; apply Sp.
  - destruct Wf as [_ F]. induction F as [|e items [Ie [We _]] F IH]; [apply lp_nil|]. cbn [map concat]. apply lp_app; [apply lp_dim; [exact Ie|exact We|apply (Forall_inv Sp)]|apply IH; apply (Forall_inv_tail Sp)].
Qed.
Lemma lp_lin : forall l b after tidy, wfl after tidy l -> all_stmts sspelled spelled l -> lp (lcode b l).
Proof.
  fix IH 1. destruct l as [s|s l|e t el]; intros b after tidy; cbn [wfl all_stmts lcode].
  - intros (Wf & _) Sp. apply lp_stmt; assumption.
  - intros (Wf & _ & _ & Wl) [Sp Sl]. apply lp_app; [apply lp_stmt; assumption|eapply IH; eassumption].
  - intros (We & Wt & Wel) (Se & St_ & Sel). apply lp_app; [apply lp_rpn; [apply We|exact Se]|]. apply lp_app; [apply lp_cmd; [unfold is_byte, CMD_IF; lia|intro Q; discriminate Q]|].
    apply lp_app; [eapply IH; eassumption|]. destruct el as [el|]; [|apply lp_nil]. change (cmd_tok CMD_ELSE :: lcode false el) with ([cmd_code false CMD_ELSE] ++ lcode false el). apply lp_app; [apply lp_cmd; [unfold is_byte, CMD_ELSE; lia|intro Q; discriminate Q]|eapply IH; [apply Wel|exact Sel]].
Qed.
Lemma okl_spelled : forall l, okl l -> all_stmts sspelled spelled l.
Proof.
  unfold okl. fix IH 1. destruct l as [s|s l|e t el]; cbn [all_stmts].
  - intros (A & _). exact A.
  - intros [(A & _) B]. split; [exact A|apply IH; exact B].
  - intros ((A & _) & B & C). split; [exact A|]. split; [apply IH; exact B|]. destruct el as [el|]; [apply IH; exact C|exact I].
Qed.
Lemma lcode_good l b after tidy is : wfl after tidy l -> okl l -> instrs ids (lcode b l) = Ok is -> Forall good is /\ Forall short is.
Proof. intros Wf O Q. destruct (lp_lin l b after tidy Wf (okl_spelled l O)). eapply instrs_good; eauto. Qed.

(** * running a line *)
Inductive ctx : lin -> list instr -> Z -> Prop :=
| ctx_straight l post : has_if l = false -> ctx l post 0
| ctx_end l post : ctx l (ICmd false CMD_ENDIF :: post) 2
| ctx_else l iel post : has_if l = false -> Forall good iel -> Forall (fun i => is_want (fun k => k =? CMD_ENDIF) i = false) iel ->
    ctx l (ICmd false CMD_ELSE :: iel ++ ICmd false CMD_ENDIF :: post) (4 + Z.of_nat (length (encode iel))).
Definition in_if (post : list instr) : Prop := match post with ICmd false k :: _ => k = CMD_ELSE \/ k = CMD_ENDIF | _ => False end.

Lemma forallb_wants want is : Forall (fun i => is_want want i = false) is -> forallb (fun i => negb (is_want want i)) is = true.
Proof. induction 1 as [|i is Q _ IH]; [reflexivity|]. cbn [forallb]. rewrite Q, IH. reflexivity. Qed.
Lemma fuel_ok (is : list instr) pre post : Forall good is -> (length is < S (length (pre ++ encode (is ++ post))))%nat.
Proof. intros G. pose proof (encode_length_ge is G). rewrite app_length, encode_app, app_length. lia. Qed.
Lemma finish l post extra q : ctx l post extra -> Forall good post -> forall k st, exists n,
  steps lab (q ++ encode post) n (mkC (here q) [] k 0 st) = Ok (mkC (here q + extra) [] k 0 st).
Proof.
  intros X Gp k st. destruct X as [l post Nf|l post|l iel post Nf Ge Ne].
  - exists 0%nat. cbn [steps]. rewrite Z.add_0_r. reflexivity.
  - exists 1%nat. rewrite encode_cons. change 1%nat with (length [ICmd false CMD_ENDIF]). rewrite <- (enc_one (ICmd false CMD_ENDIF)), run_one, step_command; [|unfold is_byte, CMD_ENDIF; lia|reflexivity].
    cbn [stk calls argc hst]. change (command_step lab ?a ?c CMD_ENDIF) with (@Ok (cfg h) (mkC (ix c) [] (calls c) 0 (hst c))). cbn [ix calls hst]. rewrite app_length. cbn [enc length]. do 2 f_equal. lia.
  - exists 1%nat. rewrite encode_cons. change 1%nat with (length [ICmd false CMD_ELSE]). rewrite <- (enc_one (ICmd false CMD_ELSE)), run_one, step_command; [|unfold is_byte, CMD_ELSE; lia|reflexivity].
    cbn [stk calls argc hst]. change (command_step lab ?a ?c CMD_ELSE) with (cmd_else h a c). unfold cmd_else. cbn [ix].
    rewrite app_assoc. rewrite (find_cmd_at (fun k => k =? CMD_ENDIF)); [|exact Ge|apply Forall_inv_tail in Gp; apply Forall_app in Gp; destruct Gp as [_ Gp]; apply (Forall_inv_tail Gp)|unfold is_byte, CMD_ENDIF; lia|apply forallb_wants; exact Ne|reflexivity|apply fuel_ok; exact Ge].
    cbn [calls hst]. rewrite !app_length. cbn [enc length]. do 2 f_equal. lia.
Qed.
Lemma classic_go s : (exists w, s = SGo w) \/ not_go s. Proof. destruct s; cbn; eauto. Qed.
Lemma lcode_head l after tidy is : wfl after tidy l -> okl l -> (after = false) -> instrs ids (lcode true l) = Ok is -> exists i r, is = i :: r /\ forall k, i <> ICmd false k.
Proof.
  destruct l as [s|s l|e t el]; cbn [wfl okl all_stmts lcode]; intros Wf O -> Q.
  - destruct Wf as (Ws & Ng & _). destruct O as (_ & Ba & _). destruct (scode_head s true is Ws Ba (Ng eq_refl) Q) as (i & r & -> & C). exists i, r. split; [reflexivity|]. intros k ->. destruct C as [C|[(k' & C)|(? & ? & ? & ? & _ & C & _)]]; [exact C|discriminate C|discriminate C].
  - destruct Wf as (Ws & Ng & _). destruct O as [(_ & Ba & _) _]. rewrite instrs_app in Q. destruct (instrs ids (scode true s)) as [i1| |] eqn:Q1; cbn [bind] in Q; try discriminate. destruct (instrs ids (lcode true l)) as [i2| |]; cbn [bind] in Q; try discriminate. injection Q as <-.
    destruct (scode_head s true i1 Ws Ba (Ng eq_refl) Q1) as (i & r & -> & C). eexists i, _. split; [reflexivity|]. intros k ->. destruct C as [C|[(k' & C)|(? & ? & ? & ? & _ & C & _)]]; [exact C|discriminate C|discriminate C].
  - destruct Wf as ([We _] & _). rewrite instrs_app in Q. destruct (instrs ids (rpn 0 e)) as [i1| |] eqn:Q1; cbn [bind] in Q; try discriminate. destruct (rpn_head 0 e i1 We Q1) as (i & r & -> & Oi).
    destruct (instrs ids (_ ++ _)) as [i2| |]; cbn [bind] in Q; try discriminate. injection Q as <-. eexists i, _. split; [reflexivity|]. intros k ->. exact Oi.
Qed.
Lemma perform_rest k vs st v rest st' : perform h lab k vs st = Ok (Call v rest st') -> rest = None.
Proof.
  unfold perform. destruct (k =? CMD_GOTO). { destruct (target h st vs) as [[x|]| |]; cbn [bind]; try discriminate. destruct (lab x st); discriminate. }
  destruct (k =? CMD_GOSUB). { destruct (target h st vs) as [[x|]| |]; cbn [bind]; try discriminate. intros [= _ <- _]. reflexivity. }
  destruct (k =? CMD_RETURN); [discriminate|]. destruct (k =? CMD_END); [discriminate|]. destruct (k =? CMD_STOP); [discriminate|]. destruct (hcmd h k vs st); discriminate.
Qed.
Lemma stmt_rest s st v rest st' : exec_stmt h ref lab s st = Ok (Call v rest st') -> rest = None.
Proof.
  destruct s as [lv e|cm args|e cm args|items last|lv a b z|w|items]; cbn [exec_stmt].
  - destruct (sem h ref lv st) as [[? ?]| |]; cbn [bind]; try discriminate. destruct (sem h ref e _) as [[? ?]| |]; cbn [bind]; try discriminate. destruct (assign _ _ _ _); discriminate.
  - destruct (asems h ref args st) as [[? ?]| |]; cbn [bind]; try discriminate. apply perform_rest.
  - destruct (sem h ref e st) as [[? ?]| |]; cbn [bind]; try discriminate. destruct (asems h ref args _) as [[? ?]| |]; cbn [bind]; try discriminate. apply perform_rest.
  - destruct (isems h ref items st) as [[? ?]| |]; cbn [bind]; try discriminate. destruct (osem h ref last _) as [[? ?]| |]; cbn [bind]; try discriminate. destruct (hcmd _ _ _ _); discriminate.
  - discriminate.
  - destruct (lab (ES true w) st); discriminate.
  - destruct (dims h ref items st); discriminate.
Qed.
Definition starts_go (l : lin) : Prop := match l with LOne (SGo _) | LSeq (SGo _) _ => True | _ => False end.
Definition runs (l : lin) : Prop := forall first after tidy is post extra pre (c : cfg h), wfl after tidy l -> okl l -> if_ok l -> ~ starts_go l ->
  instrs ids (lcode first l) = Ok is -> ctx l post extra -> Forall good post -> ix c = here pre -> argc c = 0 -> stk c = [] ->
  exists n, landed h ref lab (pre ++ encode (is ++ post)) (here (pre ++ encode is) + extra) (calls c) (exec_lin h ref lab l (hst c)) (steps lab (pre ++ encode (is ++ post)) n c).
Lemma landed_eq code fin k f r : r = lands h lab code fin k f -> (forall v rest st, f <> Ok (Call v rest st)) -> landed h ref lab code fin k f r.
Proof. intros -> N. constructor. exact N. Qed.
Lemma line_code_eq pre is1 is2 post : pre ++ encode ((is1 ++ is2) ++ post) = (pre ++ encode is1) ++ encode (is2 ++ post).
Proof. rewrite <- app_assoc, encode_app, <- app_assoc. reflexivity. Qed.
(** entering a branch *)
Lemma run_branch l : runs l -> forall after tidy is post extra pre (c : cfg h), wfl after tidy l -> okl l -> if_ok l -> label_ok l ->
  instrs ids (lcode false l) = Ok is -> ctx l post extra -> in_if post -> Forall good post ->
  exists n, landed h ref lab (pre ++ encode (is ++ post)) (here (pre ++ encode is) + extra) (calls c) (exec_lin h ref lab l (hst c))
    (let* c' := enter (pre ++ encode (is ++ post)) c (here pre) true in steps lab (pre ++ encode (is ++ post)) n c').
Proof.
  intros R after tidy is post extra pre c Wf O If Lo Q X Ip Gp. destruct (lcode_good l false after tidy is Wf O Q) as [Gis Sis].
  (* a label alone: the jump *)
  assert (Go : forall w i r, is ++ post = IStr true w :: i :: r -> good (IStr true w) -> short (IStr true w) -> good i -> (forall k, i = ICmd false k -> ~ jumps k) -> exec_lin h ref lab l (hst c) = (let* p := lab (ES true w) (hst c) in Ok (Jump p (hst c))) ->
    exists n, landed h ref lab (pre ++ encode (is ++ post)) (here (pre ++ encode is) + extra) (calls c) (exec_lin h ref lab l (hst c)) (let* c' := enter (pre ++ encode (is ++ post)) c (here pre) true in steps lab (pre ++ encode (is ++ post)) n c')).
  { intros w i r E G Sh Gi' J Ex. exists 0%nat. rewrite Ex, E, enter_jump by assumption. apply landed_eq; [|intros v rest st; destruct (lab (ES true w) (hst c)); discriminate]. destruct (lab (ES true w) (hst c)); reflexivity. }
  assert (St_ : enter (pre ++ encode (is ++ post)) c (here pre) true = Ok (mkC (here pre) [] (calls c) 0 (hst c)) -> ~ starts_go l -> exists n, landed h ref lab (pre ++ encode (is ++ post)) (here (pre ++ encode is) + extra) (calls c) (exec_lin h ref lab l (hst c)) (let* c' := enter (pre ++ encode (is ++ post)) c (here pre) true in steps lab (pre ++ encode (is ++ post)) n c')).
  { intros -> Ng. cbn [bind]. destruct (R false after tidy is post extra pre (mkC (here pre) [] (calls c) 0 (hst c)) Wf O If Ng Q X Gp eq_refl eq_refl eq_refl) as [n N]. exists n. exact N. }
  (* the head of a statement that does not start with a label *)
  assert (Hd : forall s is1 r, wfs s -> sspelled s -> basic s -> not_go s -> instrs ids (scode false s) = Ok is1 -> is ++ post = is1 ++ r -> Forall good is1 -> Forall short is1 -> match s with SCmd k (AL _ :: rest) => rest = [] /\ jumps k | _ => True end ->
    enter (pre ++ encode (is ++ post)) c (here pre) true = Ok (mkC (here pre) [] (calls c) 0 (hst c))).
  { intros s is1 r Ws Ss Bs Ns Q1 -> G1 S1 L1. destruct (scode_head s false is1 Ws Bs Ns Q1) as (i & r1 & -> & [Oi|[(k & ->)|(w & k & args & r' & -> & -> & Er)]]).
    - cbn [app]. apply enter_plain; [apply (Forall_inv G1)|]. intros w ->. exact Oi.
    - cbn [app]. apply enter_plain; [apply (Forall_inv G1)|]. intros w E. discriminate E.
    - destruct L1 as [-> J]. rewrite (Er eq_refl) in *. cbn [app]. apply enter_goto; [apply (Forall_inv G1)|apply (Forall_inv S1)|apply Ss|exact J]. }
  destruct l as [s|s l|e t el]; cbn [lcode wfl okl all_stmts label_ok] in *.
  - destruct Wf as (Ws & _ & _). destruct O as (Ss & Bs & _). destruct (classic_go s) as [[w ->]|Ng].
    + cbn [scode] in Q. cbn in Q. injection Q as <-. destruct post as [|[| |[|] k| | | | | | | | | | | | |] post]; try contradiction. eapply Go with (w := w); [reflexivity|apply (Forall_inv Gis)|apply (Forall_inv Sis)|apply (Forall_inv Gp)| |reflexivity].
      intros k' [= ->] J. cbn [in_if] in Ip. destruct Ip as [-> | ->]; destruct J as [J|J]; discriminate J.
    + apply St_; [|destruct s; auto]. apply (Hd s is post); try assumption. reflexivity.
  - destruct Wf as (Ws & _ & _ & Wl). destruct O as [(Ss & Bs & _) Ol]. rewrite instrs_app in Q. destruct (instrs ids (scode false s)) as [i1| |] eqn:Q1; cbn [bind] in Q; try discriminate. destruct (instrs ids (lcode true l)) as [i2| |] eqn:Q2; cbn [bind] in Q; try discriminate. injection Q as <-.
    apply Forall_app in Gis. destruct Gis as [G1 G2]. apply Forall_app in Sis. destruct Sis as [S1 S2]. destruct (classic_go s) as [[w ->]|Ng].
    + cbn in Q1. injection Q1 as <-. destruct (lcode_head l false true i2 Wl Ol eq_refl Q2) as (i & r & -> & Ni). eapply Go with (w := w); [reflexivity|apply (Forall_inv G1)|apply (Forall_inv S1)|apply (Forall_inv G2)|intros k ->; exfalso; exact (Ni k eq_refl)|].
      cbn [exec_lin exec_stmt]. destruct (lab (ES true w) (hst c)); reflexivity.
    + apply St_; [|destruct s; auto]. apply (Hd s i1 (i2 ++ post)); try assumption. rewrite <- app_assoc. reflexivity.
  - apply St_; [|intros []]. destruct Wf as ([We _] & _). rewrite instrs_app in Q. destruct (instrs ids (rpn 0 e)) as [i1| |] eqn:Q1; cbn [bind] in Q; try discriminate. destruct (rpn_head 0 e i1 We Q1) as (i & r & -> & Oi).
    destruct (instrs ids (_ ++ _)) as [i2| |]; cbn [bind] in Q; try discriminate. injection Q as <-. cbn [app]. apply enter_plain; [apply (Forall_inv Gis)|]. intros w ->. exact Oi.
Qed.

Lemma run_lin : forall l, runs l.
Proof.
  fix IH 1. destruct l as [s|s l|e t el]; intros first after tidy is post extra pre c Wf O If Ng Q X Gp Hx Ha Hs; cbn [wfl okl all_stmts lcode] in *.
  - destruct Wf as (Ws & _ & _). destruct O as (Ss & Bs & Ls). assert (N1 : not_go s) by (destruct s; try exact I; exact (Ng I)).
    pose proof (run_stmt s first is Ws Ss Bs N1 Q pre (encode post) c Hx Ha Hs Ls) as R. rewrite <- encode_app in R. cbn [exec_lin].
    pose proof (finish (LOne s) post extra (pre ++ encode is) X Gp) as Fi. rewrite <- app_assoc, <- encode_app in Fi.
    destruct (exec_stmt h ref lab s (hst c)) as [[st|i st|v rest st|st|st]|er|] eqn:Ex; try (exists (length is); rewrite R; apply landed_eq; [reflexivity|intros; discriminate]).
    + destruct (Fi (calls c) st) as [n N]. exists (length is + n)%nat. rewrite steps_add, R. cbn [lands bind]. rewrite N. apply landed_eq; [reflexivity|intros; discriminate].
    + assert (rest = None) as -> by (eapply stmt_rest; eassumption). exists (length is). rewrite R. cbn [lands bind]. apply landed_call. intros k' st'. destruct (Fi k' st') as [n N]. exists n. rewrite N. apply landed_eq; [reflexivity|intros; discriminate].
  - destruct Wf as (Ws & _ & _ & Wl). destruct O as [(Ss & Bs & Ls) Ol]. assert (N1 : not_go s) by (destruct s; try exact I; exact (Ng I)).
    rewrite instrs_app in Q. destruct (instrs ids (scode first s)) as [i1| |] eqn:Q1; cbn [bind] in Q; try discriminate. destruct (instrs ids (lcode true l)) as [i2| |] eqn:Q2; cbn [bind] in Q; try discriminate. injection Q as <-.
    pose proof (run_stmt s first i1 Ws Ss Bs N1 Q1 pre (encode (i2 ++ post)) c Hx Ha Hs Ls) as R. rewrite <- encode_app, app_assoc in R.
    assert (Xl : ctx l post extra) by (inversion X; subst; constructor; assumption).
    assert (Nl : ~ starts_go l) by (clear - Wl; destruct l as [[]|[]|]; cbn in *; intuition).
    assert (Lx : forall k st, exists n, landed h ref lab (pre ++ encode ((i1 ++ i2) ++ post)) (here (pre ++ encode (i1 ++ i2)) + extra) k (exec_lin h ref lab l st) (steps lab (pre ++ encode ((i1 ++ i2) ++ post)) n (mkC (here (pre ++ encode i1)) [] k 0 st))).
    { intros k st. destruct (IH l true false true i2 post extra (pre ++ encode i1) (mkC (here (pre ++ encode i1)) [] k 0 st) Wl Ol If Nl Q2 Xl Gp eq_refl eq_refl eq_refl) as [n N]. exists n. cbn [calls hst] in N.
      rewrite line_code_eq. rewrite (encode_app i1 i2), app_assoc. exact N. }
    cbn [exec_lin]. destruct (exec_stmt h ref lab s (hst c)) as [[st|i st|v rest st|st|st]|er|] eqn:Ex; cbn [bind]; try (exists (length i1); rewrite R; apply landed_eq; [reflexivity|intros; discriminate]).
    + destruct (Lx (calls c) st) as [n N]. exists (length i1 + n)%nat. rewrite steps_add, R. cbn [lands bind]. exact N.
    + exists (length i1). rewrite R. cbn [lands bind]. apply landed_call. exact Lx.
  - destruct Wf as ([We _] & Wt & Wel). destruct O as ((Se & Le) & Ot & Oel). cbn [if_ok] in If. destruct If as (Lt & It & Iel).
    rewrite instrs_app in Q. destruct (instrs ids (rpn 0 e)) as [i1| |] eqn:Q1; cbn [bind] in Q; try discriminate. rewrite instrs_app, instrs_one, cmd_code_instr in Q. cbn [bind] in Q. rewrite instrs_app in Q.
    destruct (instrs ids (lcode false t)) as [i2| |] eqn:Q2; cbn [bind] in Q; try discriminate.
    destruct (instrs ids (match el with Some el => _ | None => _ end)) as [i3| |] eqn:Q3; cbn [bind] in Q; try discriminate. injection Q as <-.
    destruct (lcode_good t false _ _ i2 Wt Ot Q2) as [G2 S2]. destruct (lcode_wants t _ _ _ i2 Wt Ot Q2) as [W1 W2].
    assert (Xp : exists post', post = ICmd false CMD_ENDIF :: post' /\ extra = 2) by (inversion X as [? ? Nf|? post' E1 E2 E3|? ? ? Nf]; [discriminate Nf|exists post'; split; reflexivity|discriminate Nf]).
    destruct Xp as (post' & -> & ->). clear X.
    (* up to the IF *)
    change (i1 ++ ICmd first CMD_IF :: i2 ++ i3) with (i1 ++ [ICmd first CMD_IF] ++ i2 ++ i3).
    set (is := i1 ++ [ICmd first CMD_IF] ++ i2 ++ i3) in *. set (code := pre ++ encode (is ++ ICmd false CMD_ENDIF :: post')) in *.
    set (pre2 := (pre ++ encode i1) ++ enc (ICmd first CMD_IF)).
    assert (Ec : code = pre2 ++ encode (i2 ++ i3 ++ ICmd false CMD_ENDIF :: post')).
    { unfold code, pre2, is. rewrite <- !app_assoc, !encode_app, enc_one. reflexivity. }
    assert (R : steps lab code (length i1 + 1) c = let* (v, st) := sem h ref e (hst c) in cmd_if h lab code (mkC (here pre2) [v] (calls c) 0 st)).
    { rewrite steps_add. unfold code, is. rewrite <- app_assoc, encode_app. rewrite (exec_expr ids Gi e We Se 0 i1); [|reflexivity|exact Q1|exact Hx|exact Ha|rewrite Hs; unfold size; cbn [length]; lia].
      destruct (sem h ref e (hst c)) as [[v st]| |]; cbn [bind]; try reflexivity. rewrite <- !app_assoc. cbn [app]. rewrite encode_cons, app_assoc.
      replace (steps lab ((pre ++ encode i1) ++ enc (ICmd first CMD_IF) ++ encode (i2 ++ i3 ++ ICmd false CMD_ENDIF :: post')) 1) with (steps lab ((pre ++ encode i1) ++ encode [ICmd first CMD_IF] ++ encode (i2 ++ i3 ++ ICmd false CMD_ENDIF :: post')) (length [ICmd first CMD_IF])) by (rewrite enc_one; reflexivity).
      rewrite run_one, step_command; [|unfold is_byte, CMD_IF; lia|reflexivity]. rewrite Hs. reflexivity. }
    cbn [exec_lin]. destruct (sem h ref e (hst c)) as [[v st]| |]; cbn [bind] in *; try (exists (length i1 + 1)%nat; rewrite R; apply landed_eq; [reflexivity|intros; discriminate]).
    rewrite cmd_if_eq in R. unfold arg in R. cbn [stk rev app nth_error bind hst ix] in R.
    destruct (truth h st v) as [b| |]; cbn [bind] in *; try (exists (length i1 + 1)%nat; rewrite R; apply landed_eq; [reflexivity|intros; discriminate]).
    assert (Efin : forall x, here (pre ++ encode is) + x = here (pre2 ++ encode (i2 ++ i3)) + x).
    { intros x. unfold is, pre2. rewrite !encode_app, enc_one, !app_length. lia. }
    rewrite Efin.
    destruct el as [el|].
    + (* with ELSE *)
      destruct Iel as (Lel & Nt & Iel). destruct Wel as [Wel _]. cbn [instrs] in Q3. change (instr_of ids (cmd_tok CMD_ELSE)) with (@Ok instr (ICmd false CMD_ELSE)) in Q3. cbn [bind] in Q3.
      destruct (instrs ids (lcode false el)) as [i4| |] eqn:Q4; cbn [bind] in Q3; try discriminate. injection Q3 as <-.
      destruct (lcode_good el false _ _ i4 Wel Oel Q4) as [G4 S4]. destruct (lcode_wants el _ _ _ i4 Wel Oel Q4) as [W3 W4].
      assert (Gp' : Forall good post') by (apply (Forall_inv_tail Gp)).
      destruct b.
      * destruct (run_branch t (IH t) _ _ i2 (ICmd false CMD_ELSE :: i4 ++ ICmd false CMD_ENDIF :: post') (4 + Z.of_nat (length (encode i4))) pre2 (mkC (here pre2) [v] (calls c) 0 st) Wt Ot It Lt Q2) as [n N].
        { apply ctx_else; assumption. } { left. reflexivity. } { constructor; [unfold good, is_byte, CMD_ELSE; lia|]. apply Forall_app. split; assumption. }
        exists (length i1 + 1 + n)%nat. rewrite steps_add, R. cbn [calls hst] in N. rewrite Ec. 
        replace (here (pre2 ++ encode (i2 ++ ICmd false CMD_ELSE :: i4)) + 2) with (here (pre2 ++ encode i2) + (4 + Z.of_nat (length (encode i4)))) by (rewrite !app_length, encode_app, encode_cons, !app_length; cbn [enc length]; lia).
        replace (i2 ++ (ICmd false CMD_ELSE :: i4) ++ ICmd false CMD_ENDIF :: post') with (i2 ++ ICmd false CMD_ELSE :: i4 ++ ICmd false CMD_ENDIF :: post') by reflexivity. exact N.
      * assert (Fc : find_cmd (S (length code)) code stops (here pre2) = Some (here (pre2 ++ encode i2))).
        { rewrite Ec. cbn [app]. apply find_cmd_at; [exact G2|apply Forall_app; split; [exact G4|exact Gp]|unfold is_byte, CMD_ELSE; lia|apply forallb_wants; apply W2; clear - Nt; induction t as [| |]; cbn in *; auto; discriminate|reflexivity|apply fuel_ok; exact G2]. }
        rewrite Fc in R. assert (Bc : byte code (here (pre2 ++ encode i2) + 1) = CMD_ELSE).
        { rewrite Ec, encode_app, app_assoc. cbn [app]. change (here (pre2 ++ encode i2) + 1) with (here (pre2 ++ encode i2) + Z.of_nat 1). rewrite byte_at by (cbn; lia). reflexivity. }
        rewrite Bc in R. change (CMD_ELSE =? CMD_ELSE) with true in R.
        destruct (run_branch el (IH el) _ _ i4 (ICmd false CMD_ENDIF :: post') 2 ((pre2 ++ encode i2) ++ enc (ICmd false CMD_ELSE)) (mkC (here pre2) [v] (calls c) 0 st) Wel Oel Iel Lel Q4) as [n N].
        { apply ctx_end. } { right. reflexivity. } { exact Gp. }
        exists (length i1 + 1 + n)%nat. rewrite steps_add, R. cbn [calls hst] in N.
        assert (Ec2 : code = ((pre2 ++ encode i2) ++ enc (ICmd false CMD_ELSE)) ++ encode (i4 ++ ICmd false CMD_ENDIF :: post')) by (rewrite Ec, encode_app; cbn [app]; rewrite encode_cons, <- !app_assoc; reflexivity).
        rewrite Ec2. replace (here (pre2 ++ encode (i2 ++ ICmd false CMD_ELSE :: i4)) + 2) with (here (((pre2 ++ encode i2) ++ enc (ICmd false CMD_ELSE)) ++ encode i4) + 2) by (rewrite !app_length, encode_app, encode_cons, !app_length; lia).
        replace (here (pre2 ++ encode i2) + 2) with (here ((pre2 ++ encode i2) ++ enc (ICmd false CMD_ELSE))) by (rewrite !app_length; cbn [enc length]; lia). exact N.
    + (* without ELSE *)
      cbn in Q3. injection Q3 as <-. rewrite app_nil_r. cbn [app] in Ec.
      destruct b.
      * destruct (run_branch t (IH t) _ _ i2 (ICmd false CMD_ENDIF :: post') 2 pre2 (mkC (here pre2) [v] (calls c) 0 st) Wt Ot It Lt Q2) as [n N].
        { apply ctx_end. } { right. reflexivity. } { exact Gp. }
        exists (length i1 + 1 + n)%nat. rewrite steps_add, R. cbn [calls hst] in N. rewrite Ec. exact N.
      * assert (Fc : find_cmd (S (length code)) code stops (here pre2) = Some (here (pre2 ++ encode i2))).
        { rewrite Ec. apply find_cmd_at; [exact G2|apply (Forall_inv_tail Gp)|unfold is_byte, CMD_ENDIF; lia|apply forallb_wants; apply W2; exact Iel|reflexivity|apply fuel_ok; exact G2]. }
        rewrite Fc in R. assert (Bc : byte code (here (pre2 ++ encode i2) + 1) = CMD_ENDIF).
        { rewrite Ec, encode_app, app_assoc. change (here (pre2 ++ encode i2) + 1) with (here (pre2 ++ encode i2) + Z.of_nat 1). rewrite byte_at by (cbn; lia). reflexivity. }
        rewrite Bc in R. change (CMD_ENDIF =? CMD_ELSE) with false in R. rewrite enter_off in R. exists (length i1 + 1)%nat. rewrite R. apply landed_eq; [reflexivity|intros; discriminate].
Qed.
End Run.

Lemma find_call_length {A} (f : A -> bool) : forall l above, match find_call f above l with Some (a, k, b) => (length a + S (length b) = length above + length l)%nat | None => True end.
Proof.
  induction l as [|k r IH]; intros above; cbn [find_call]; [exact I|]. destruct (f k); [rewrite rev_length; reflexivity|]. specialize (IH (k :: above)). destruct (find_call f (k :: above) r) as [[[a x] b]|]; [cbn [length] in *; lia|exact I].
Qed.
