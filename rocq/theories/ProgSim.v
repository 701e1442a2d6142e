(** The machine follows the program: simulation (used by ProgProps). *)
From Verif Require Import Base BaseLemmas Tokens ExprSpec ExprProofs EvalProofs NumText Hash HashProofs Labels LabelsProofs Bytecode BytecodeSpec BytecodeProofs Runner RunnerSpec RunnerProofs ExecProofs StmtSpec StmtProofs EvalLine FlowSpec FlowProofs FlowLine ForSpec ForProofs ForSkip ProgSpec Link ProgProofs ProgSkip.
Ltac Zify.zify_post_hook ::= Z.div_mod_to_equations.

Lemma Forall2_len {A B} (R : A -> B -> Prop) l k : Forall2 R l k -> length l = length k.
Proof. induction 1; cbn; congruence. Qed.
Section Sim.
Context {h : host}.
Variable ids : option ids_fun.
Hypothesis Gi : forall f, ids = Some f -> good_ids f.
Variable strv : St h -> Loc h -> list Z.
Variable lab : labels_fun h.
Notation ref := (ref_of ids).
Variables (us : list statement) (iss : list (list instr)).
Hypothesis Uok : Forall uok us.
Hypothesis Uc : ucodes ids us = Ok iss.
Let code := encode (concat iss).
Notation slab := (slab h strv us).
(** where statement [n] is in the code *)
Definition start (n : nat) : Z := here (encode (concat (firstn n iss))).
Hypothesis Lab : forall v st, match slab v st with Ok i => lab v st = Ok (start (Z.to_nat i)) | Err e => lab v st = Err e | UB => True end.
Hypothesis Small : (Z.of_nat (length code) < 16777216).
Hypothesis Shorts : Forall (short_bounds ids) us.
Hypothesis Same : forall a b, same h a b = true <-> a = b.

Lemma ucodes_nth : forall us0 iss0 n u, ucodes ids us0 = Ok iss0 -> nth_error us0 n = Some u -> exists is, nth_error iss0 n = Some is /\ ucode ids u = Ok is.
Proof.
  intros vs. induction vs as [|u vs IH]; intros iss0 n v; cbn [ucodes]; [destruct n; discriminate|]. destruct (ucode ids u) as [i| |] eqn:Q; cbn [bind]; try discriminate. destruct (ucodes ids vs) as [x| |]; cbn [bind]; try discriminate.
  intros [= <-]. destruct n as [|n]; cbn [nth_error]; [intros [= <-]; eauto|]. intros N. apply (IH x n v eq_refl N).
Qed.
Lemma concat_good0 : forall us0 iss0, Forall uok us0 -> ucodes ids us0 = Ok iss0 -> Forall good (concat iss0).
Proof.
  intros vs iss0 U0. revert iss0. induction U0 as [|u vs U _ IHu]; intros iss0; cbn [ucodes]; [intros [= <-]; constructor|].
  destruct (ucode ids u) as [i| |] eqn:Qu; cbn [bind]; try discriminate. destruct (ucodes ids vs) as [x| |]; cbn [bind]; try discriminate. intros [= <-]. cbn [concat]. apply Forall_app. split; [eapply ucode_good; eauto|apply IHu; reflexivity].
Qed.
Lemma concat_good : Forall good (concat iss). Proof. eapply concat_good0; eassumption. Qed.
Lemma split_nth {A} (l : list A) n x : nth_error l n = Some x -> l = firstn n l ++ x :: skipn (S n) l.
Proof. revert n. induction l as [|y l IH]; intros [|n]; cbn; try discriminate; [intros [= ->]; reflexivity|]. intros N. f_equal. apply IH. exact N. Qed.
Lemma firstn_S {A} (l : list A) n x : nth_error l n = Some x -> firstn (S n) l = firstn n l ++ [x].
Proof. revert n. induction l as [|y l IH]; intros [|n]; try discriminate; [intros [= ->]; reflexivity|]. cbn [nth_error]. intros N. cbn [firstn app]. f_equal. apply IH. exact N. Qed.
(** the code around statement [n] *)
Lemma code_at n is : nth_error iss n = Some is -> code = encode (concat (firstn n iss)) ++ encode (is ++ concat (skipn (S n) iss)) /\ start (S n) = here (encode (concat (firstn n iss)) ++ encode is) /\ Forall good (concat (skipn (S n) iss)).
Proof.
  intros N. pose proof concat_good as G. unfold code. rewrite (split_nth iss n is N) in G at 1. rewrite (split_nth iss n is N) at 1. rewrite concat_app in *. cbn [concat] in *. rewrite encode_app. split; [reflexivity|]. split.
  - unfold start. assert (F : firstn (S n) iss = firstn n iss ++ [is]) by (apply firstn_S; exact N).
    rewrite F, concat_app, encode_app. cbn [concat]. rewrite app_nil_r. reflexivity.
  - apply Forall_app in G. destruct G as [_ G]. apply Forall_app in G. apply G.
Qed.
Lemma start_end n : nth_error us n = None -> start n = here code.
Proof. intros N. apply nth_error_None in N. pose proof (ucodes_length _ _ _ Uc). unfold start, code. rewrite firstn_all2 by lia. reflexivity. Qed.

(** positions *)
Lemma ucode_some u is : uok u -> ucode ids u = Ok is -> (0 < length (encode is))%nat.
Proof.
  intros U Q. pose proof (ucode_good ids Gi u is U Q) as G. pose proof (encode_length_ge is G) as L. enough (0 < length is)%nat by lia. clear L.
  destruct u as [w|l|lv a b s|args|c|src]; cbn [ucode] in Q; try (injection Q as <-; cbn; lia).
  - destruct U as (Wf & O & _). unfold line_code in Q. rewrite instrs_app in Q. destruct (instrs ids (lcode true l)) as [i1| |] eqn:Q1; cbn [bind] in Q; try discriminate. destruct (lcode_head ids Gi l _ _ i1 Wf O eq_refl Q1) as (i & r & -> & _).
    destruct (instrs ids (if has_if l then _ else _)); cbn [bind] in Q; try discriminate. injection Q as <-. cbn. lia.
  - destruct (for_split ids true lv a b s is Q) as (i1 & i2 & ic & _ & _ & _ & ->). rewrite app_length. cbn. lia.
  - cbn [scode] in Q. rewrite instrs_app in Q. destruct (instrs ids (concat _)) as [ia| |]; cbn [bind] in Q; try discriminate. rewrite instrs_one, cmd_code_instr in Q. cbn [bind] in Q. injection Q as <-. rewrite app_length. cbn. lia.
Qed.
Lemma start_next n u : nth_error us n = Some u -> start n < start (S n).
Proof.
  intros U. destruct (ucodes_nth us iss n u Uc U) as (is & Ni & Q). destruct (code_at n is Ni) as (_ & E & _). rewrite E, app_length. unfold start. assert (O : uok u) by (rewrite Forall_forall in Uok; apply Uok; eapply nth_error_In; exact U).
  pose proof (ucode_some u is O Q). lia.
Qed.
Lemma start_le n : start n <= start (S n).
Proof. destruct (nth_error us n) as [u|] eqn:U; [apply start_next in U; lia|]. rewrite (start_end n U), (start_end (S n)); [lia|]. apply nth_error_None in U. apply nth_error_None. lia. Qed.
Lemma start_mono n m : (n <= m)%nat -> start n <= start m.
Proof. induction 1 as [|m _ IH]; [lia|]. pose proof (start_le m). lia. Qed.
Lemma start_inj n m u v : nth_error us n = Some u -> nth_error us m = Some v -> start n = start m -> n = m.
Proof.
  intros U V E. destruct (lt_eq_lt_dec n m) as [[L|L]|L]; [|exact L|]; exfalso.
  - pose proof (start_next n u U). pose proof (start_mono (S n) m L). lia.
  - pose proof (start_next m v V). pose proof (start_mono (S m) n L). lia.
Qed.
Lemma find_lab_nth w : forall l k, find_lab w l = Some k -> nth_error l k = Some (ULab w).
Proof.
  induction l as [|u l IH]; intros k; cbn [find_lab]; [discriminate|]. destruct (is_lab w u) eqn:E; [intros [= <-]; destruct u; try discriminate E; cbn [is_lab] in E; destruct (list_eq_dec Z.eq_dec w0 w) as [->|]; [reflexivity|discriminate E]|].
  destruct (find_lab w l) as [j|]; cbn [option_map]; [|discriminate]. intros [= <-]. apply IH. reflexivity.
Qed.
Lemma slab_lab v st i : slab v st = Ok i -> exists w, nth_error us (Z.to_nat i) = Some (ULab w).
Proof.
  unfold ProgSpec.slab. destruct (label_name h strv v st) as [w|]; [|discriminate]. destruct (valid_nameb w); [|discriminate]. destruct (find_lab w us) as [k|] eqn:F; [|discriminate]. intros [= <-]. rewrite Nat2Z.id. exists w. apply find_lab_nth. exact F.
Qed.
(** ** labels *)
Definition frel (f g : flow h) : Prop := match f, g with Jump i st, Jump j st' => j = start (Z.to_nat i) /\ st = st' /\ exists w, nth_error us (Z.to_nat i) = Some (ULab w) | Jump _ _, _ | _, Jump _ _ => False | _, _ => f = g end.
Definition orel (r m : outcome (flow h)) : Prop := match r with Ok f => exists g, m = Ok g /\ frel f g | Err e => m = Err e | UB => True end.
Lemma orel_refl r : (forall i st, r <> Ok (Jump i st)) -> orel r r.
Proof. intros N. destruct r as [f| |]; cbn; auto. exists f. split; [reflexivity|]. destruct f; cbn; try reflexivity. exfalso. exact (N _ _ eq_refl). Qed.
Lemma orel_perform c vs st : orel (perform h slab c vs st) (perform h lab c vs st).
Proof.
  unfold perform. destruct (c =? CMD_GOTO).
  - destruct (target h st vs) as [[v|]| |]; cbn [bind]; try (apply orel_refl; intros; discriminate). specialize (Lab v st). pose proof (slab_lab v st) as Sl. destruct (slab v st) as [i|e|]; cbn [bind orel]; [rewrite Lab; eexists; split; [reflexivity|cbn; auto]|rewrite Lab; reflexivity|exact I].
  - apply orel_refl. intros i s'. destruct (c =? CMD_GOSUB); [destruct (target h st vs) as [[?|]| |]; discriminate|]. destruct (c =? CMD_RETURN); [discriminate|]. destruct (c =? CMD_END); [discriminate|]. destruct (c =? CMD_STOP); [discriminate|]. destruct (hcmd h c vs st); discriminate.
Qed.
Lemma orel_stmt s st : orel (exec_stmt h ref slab s st) (exec_stmt h ref lab s st).
Proof.
  destruct s as [lv e|c args|e c args|items last|lv a b z|w|items]; cbn [exec_stmt].
  - apply orel_refl. intros i s'. destruct (sem h ref lv st) as [[? ?]| |]; cbn [bind]; try discriminate. destruct (sem h ref e _) as [[? ?]| |]; cbn [bind]; try discriminate. destruct (assign _ _ _ _); discriminate.
  - destruct (asems h ref args st) as [[? ?]| |]; cbn [bind orel]; auto. apply orel_perform.
  - destruct (sem h ref e st) as [[? ?]| |]; cbn [bind orel]; auto. destruct (asems h ref args _) as [[? ?]| |]; cbn [bind orel]; auto. apply orel_perform.
  - apply orel_refl. intros i s'. destruct (isems h ref items st) as [[? ?]| |]; cbn [bind]; try discriminate. destruct (osem h ref last _) as [[? ?]| |]; cbn [bind]; try discriminate. destruct (hcmd _ _ _ _); discriminate.
  - exact I.
  - specialize (Lab (ES true w) st). pose proof (slab_lab (ES true w) st) as Sl. destruct (slab _ st) as [i|e|]; cbn [bind orel]; [rewrite Lab; eexists; split; [reflexivity|cbn; auto]|rewrite Lab; reflexivity|exact I].
  - apply orel_refl. intros i s'. destruct (dims h ref items st); discriminate.
Qed.
Lemma orel_lin : forall l st, orel (exec_lin h ref slab l st) (exec_lin h ref lab l st).
Proof.
  fix IH 1. destruct l as [s|s l|e t el]; intros st; cbn [exec_lin].
  - apply orel_stmt.
  - pose proof (orel_stmt s st) as O. destruct (exec_stmt h ref slab s st) as [f|e|]; cbn [bind orel] in *; [|rewrite O; reflexivity|exact I]. destruct O as (g & -> & F). cbn [bind].
    destruct f, g; cbn [frel] in F; try discriminate F; try contradiction; try (injection F as <-; apply IH); try (eexists; split; [reflexivity|exact F]). injection F as <- <- <-. eexists; split; reflexivity.
  - destruct (sem h ref e st) as [[v st1]| |]; cbn [bind orel]; auto. destruct (truth h st1 v) as [b| |]; cbn [bind orel]; auto. destruct b; [apply IH|]. destruct el as [el|]; [apply IH|]. eexists; split; reflexivity.
Qed.
Lemma orel_rest o st : orel (exec_rest h ref slab o st) (exec_rest h ref lab o st).
Proof. destruct o as [l|]; cbn [exec_rest]; [apply orel_lin|]. eexists; split; reflexivity. Qed.

(** ** places and frames *)
Definition cont (n : nat) (o : option lin) (p : Z) : Prop := forall k st, exists m, landed h ref lab code (start (S n)) k (exec_rest h ref lab o st) (steps lab code m (mkC p [] k 0 st)).
Definition loop_at (n : nat) (ts adr : Z) : Prop := exists lv a b s i1 i2 ic, nth_error us n = Some (UFor lv a b s) /\
  instrs ids (rpn 0 lv) = Ok i1 /\ instrs ids (rpn 0 a) = Ok i2 /\ instrs ids (bounds_code b s) = Ok ic /\ nth_error iss n = Some (i1 ++ ICmd true CMD_FOR :: i2 ++ IOp OP_ASSIGN :: ic ++ [ILoop]) /\
  ts = to_start true i1 i2 (encode (concat (firstn n iss))) /\ adr = for_address true i1 i2 ic (encode (concat (firstn n iss))).
Definition posrel (p : pos) (i : Z) : Prop := match p with At n => i = start n | Rest n o => cont n o i | Head n => exists adr, loop_at n i adr end.
Definition framerel (f : frame h) (k : call (Loc h)) : Prop := match f, k with FGosub n o, CGosub p => cont n o p | FFor n r, CFor adr l => l = r /\ exists ts, loop_at n ts adr | FLeft, CFor _ _ => True | _, _ => False end.
Definition sim (p : pos) (fs : list (frame h)) (st : St h) (c : cfg h) : Prop := exists i k, c = mkC i [] k 0 st /\ posrel p i /\ Forall2 framerel fs k.
Definition is_rest (p : pos) : bool := match p with Rest _ _ => true | _ => false end.
(** [b]: at least one instruction *)
Definition follows (b : bool) (m : move h) (c : cfg h) : Prop :=
  match m with
  | Go p fs st => exists n c', steps lab code n c = Ok c' /\ sim p fs st c' /\ (b || is_rest p = true -> (0 < n)%nat)
  | End st => exists n k, steps lab code n c = Ok (mkC (here code) [] k 0 st)
  | Stops e => exists n, steps lab code n c = Err e
  | Unspecified => True
  end.
Lemma loop_at_same n ts adr ts' adr' : loop_at n ts adr -> loop_at n ts' adr' -> ts = ts' /\ adr = adr'.
Proof.
  intros (lv & a & b & s & i1 & i2 & ic & U & Q1 & Q2 & Qc & _ & -> & ->) (lv' & a' & b' & s' & i1' & i2' & ic' & U' & Q1' & Q2' & Qc' & _ & -> & ->).
  rewrite U in U'. injection U' as <- <- <- <-. rewrite Q1 in Q1'. rewrite Q2 in Q2'. rewrite Qc in Qc'. injection Q1' as <-. injection Q2' as <-. injection Qc' as <-. auto.
Qed.
Lemma unwind_rel fs k : Forall2 framerel fs k -> match unwind_ h fs with Some (n, o, fs') => exists p k', unwind h k = Some (p, k') /\ cont n o p /\ Forall2 framerel fs' k' | None => unwind h k = None end.
Proof.
  induction 1 as [|f c fs k R F IH]; cbn [unwind_ unwind]; [reflexivity|]. destruct f as [n o|n r|], c as [adr l|p]; cbn [framerel] in R; try contradiction; [exists p, k; auto|exact IH|exact IH].
Qed.
(** from the machine's outcome of a statement to the next place *)
Lemma unwind_less k p k' : unwind h k = Some (p, k') -> (length k' < length k)%nat.
Proof. induction k as [|[adr l|a] k IH]; cbn [unwind length]; [discriminate| |]. - intros E. specialize (IH E). lia. - intros [= _ <-]. lia. Qed.
Lemma settles b n fs k r m i0 st0 : Forall2 framerel fs k -> orel r m -> (b = true -> i0 = start n /\ exists l, nth_error us n = Some (UDo l)) ->
  (exists j, landed h ref lab code (start (S n)) k m (steps lab code j (mkC i0 [] k 0 st0))) -> follows b (settle h strv us n fs r) (mkC i0 [] k 0 st0).
Proof.
  intros F O B [j L]. destruct r as [f|e|]; cbn [orel settle] in *; [|subst m; inversion L; subst; cbn [lands bind] in *; exists j; congruence|exact I].
  destruct O as (g & -> & R).
  destruct f as [st|i st|v o st|st|st], g as [st'|i' st'|v' o' st'|st'|st']; cbn [frel] in R; try discriminate R; try contradiction.
  - injection R as <-. inversion L as [|? ? N E1 E2 E3]; subst. cbn [lands bind] in *. exists j. eexists. split; [symmetry; eassumption|]. split; [exists (start (S n)), k; split; [reflexivity|]; split; [reflexivity|exact F]|].
    cbn [is_rest]. rewrite orb_false_r. intros Bt. destruct (B Bt) as [-> [l U]]. destruct j as [|j]; [|lia]. exfalso. cbn [steps] in E3. injection E3 as E3 _. pose proof (start_next n _ U). lia.
  - destruct R as (-> & <- & [w U]). inversion L as [|? ? N E1 E2 E3]; subst. cbn [lands bind] in *. exists j. eexists. split; [symmetry; eassumption|]. split; [eexists _, k; split; [reflexivity|]; split; [reflexivity|exact F]|].
    cbn [is_rest]. rewrite orb_false_r. intros Bt. destruct (B Bt) as [-> [l Un]]. destruct j as [|j]; [|lia]. exfalso. cbn [steps] in E3. injection E3 as E3 _. pose proof (start_inj _ _ _ _ U Un E3) as E. rewrite E in U. congruence.
  - injection R as <- <- <-. inversion L as [k0 v0 rest0 st1 p C E1 E2 E3|? ? N E1 E2 E3]; subst; [|exfalso; exact (N _ _ _ eq_refl)]. unfold gosub_to in E3. specialize (Lab v st). rewrite <- (Forall2_len _ _ _ F) in E3.
    destruct (slab v st) as [i|e|] eqn:Sl; [| |exact I]; rewrite Lab in E3; destruct (length fs =? 255)%nat; cbn [bind] in E3; try (exists j; symmetry; exact E3).
    exists j. eexists. split; [symmetry; exact E3|]. split; [eexists _, (CGosub p :: k); split; [reflexivity|]; split; [reflexivity|]; constructor; [exact C|exact F]|].
    intros _. destruct j as [|j]; [|lia]. exfalso. cbn [steps] in E3. injection E3 as _ E3 _. apply (f_equal (@length _)) in E3. cbn in E3. lia.
  - injection R as <-. inversion L as [|? ? N E1 E2 E3]; subst. cbn [lands bind] in *. unfold return_to in *. pose proof (unwind_rel fs k F) as U. destruct (unwind_ h fs) as [[[n' o] fs']|].
    + destruct U as (p & k' & U & C & F'). rewrite U in *. exists j. eexists. split; [symmetry; eassumption|]. split; [exists p, k'; split; [reflexivity|]; split; [exact C|exact F']|].
      intros _. destruct j as [|j]; [|lia]. exfalso. cbn [steps] in E3. injection E3 as _ E3 _. apply unwind_less in U. subst k'. lia.
    + rewrite U in *. destruct F; [exists j; symmetry; assumption|exact I].
  - injection R as <-. inversion L as [|? ? N E1 E2 E3]; subst. cbn [lands bind] in *. exists j, k. symmetry. assumption.
Qed.
Lemma do_line n l is : uok (UDo l) -> nth_error us n = Some (UDo l) -> nth_error iss n = Some is -> ucode ids (UDo l) = Ok is -> forall k st, exists j, landed h ref lab code (start (S n)) k (exec_lin h ref lab l st) (steps lab code j (mkC (start n) [] k 0 st)).
Proof.
  intros (Wf & O & If & Ng) _ Ni Q k st. cbn [ucode] in Q. destruct (code_at n is Ni) as (C & E & Gp). unfold line_code in Q. rewrite instrs_app in Q. destruct (instrs ids (lcode true l)) as [i1| |] eqn:Q1; cbn [bind] in Q; try discriminate.
  rewrite C, E. set (pre := encode (concat (firstn n iss))) in *. set (post := concat (skipn (S n) iss)) in *.
  assert (X : exists i2, is = i1 ++ i2 /\ ctx l (i2 ++ post) (here (encode i2)) /\ Forall good (i2 ++ post)).
  { destruct (has_if l) eqn:Hi; cbn in Q; injection Q as <-; [exists [ICmd false CMD_ENDIF]|exists []]; (split; [reflexivity|]); (split; [|]); [cbn; apply ctx_end|constructor; [cbn; unfold is_byte, CMD_ENDIF; lia|exact Gp]|apply ctx_straight; exact Hi|exact Gp]. }
  destruct X as (i2 & -> & X & G2).
  destruct (run_lin ids Gi lab l true _ _ i1 (i2 ++ post) _ pre (mkC (start n) [] k 0 st) Wf O If Ng Q1 X G2 eq_refl eq_refl eq_refl) as [j L]. exists j. cbn [calls hst] in L.
  rewrite <- app_assoc. replace (here (pre ++ encode (i1 ++ i2))) with (here (pre ++ encode i1) + here (encode i2)) by (rewrite encode_app, !app_length; lia). exact L.
Qed.
Lemma noloop_find fs k e : Forall2 framerel fs k -> forallb (no_loop h) fs = true -> forall above, find_call (is_for_of h e) above k = None.
Proof.
  induction 1 as [|f c fs k R F IH]; intros N above; [reflexivity|]. cbn [forallb] in N. apply andb_true_iff in N. destruct N as [N1 N2]. destruct f, c; cbn [framerel no_loop] in *; try contradiction; try discriminate. cbn [find_call is_for_of]. apply IH. exact N2.
Qed.
Lemma overb_past x e v : overb x e v = past x e v.
Proof. unfold overb, past. destruct (x <? 0) eqn:X; [replace (x >=? 0) with false by lia|replace (x >=? 0) with true by lia]; cbn [andb orb]; rewrite ?orb_false_r; lia. Qed.
Lemma next_start n args is : uok (UNext args) -> nth_error iss n = Some is -> ucode ids (UNext args) = Ok is -> forall k st, exists j, steps lab code j (mkC (start n) [] k 0 st) =
  let* (vs, st) := asems h ref args st in cmd_next h code (mkC (start (S n)) (rev vs) k 0 st).
Proof.
  intros (Fa & Sa & La & L1) Ni Q k st. destruct (code_at n is Ni) as (C & E & Gp). cbn [ucode scode] in Q. rewrite instrs_app in Q. destruct (instrs ids (concat _)) as [ia| |] eqn:Qa; cbn [bind] in Q; try discriminate. rewrite instrs_one, cmd_code_instr in Q. cbn [bind] in Q. injection Q as <-.
  set (pre := encode (concat (firstn n iss))) in *. set (post := concat (skipn (S n) iss)) in *. exists (length ia + length [ICmd true CMD_NEXT])%nat.
  assert (C1 : code = pre ++ encode (ia ++ [ICmd true CMD_NEXT]) ++ encode post) by (rewrite C, encode_app; reflexivity). rewrite C1 at 1. rewrite <- app_length, run_two.
  rewrite (run_args ids Gi lab args Fa Sa ia Qa); [|reflexivity|reflexivity|cbn [stk length]; destruct args as [|x0 [|y args]]; cbn [map sep concat length] in *; rewrite ?app_nil_r in *; lia].
  cbn [hst stk calls]. destruct (asems h ref args st) as [[vs st1]| |]; cbn [bind]; try reflexivity. rewrite app_nil_r.
  rewrite run_one, step_command; [|unfold is_byte, CMD_NEXT; lia|reflexivity]. cbn [ix calls stk hst argc].
  replace ((pre ++ encode ia) ++ enc (ICmd true CMD_NEXT) ++ encode post) with code by (rewrite C1, encode_app, enc_one, <- !app_assoc; reflexivity).
  match goal with |- context [command_step lab ?cc ?c CMD_NEXT] => change (command_step lab cc c CMD_NEXT) with (cmd_next h cc c) end. rewrite E, encode_app, enc_one, <- app_assoc. reflexivity.
Qed.
Lemma asems_one args st vs st1 : asems h ref args st = Ok (vs, st1) -> length vs = length args.
Proof. revert st vs st1. induction args as [|a args IH]; intros st vs st1; cbn [asems]; [intros [= <- _]; reflexivity|]. destruct (asem h ref a st) as [[? ?]| |]; cbn [bind]; try discriminate. destruct (asems h ref args _) as [[? ?]| |] eqn:E; cbn [bind]; try discriminate. intros [= <- _]. cbn. f_equal. eapply IH. exact E. Qed.

(** the parts of FOR statement [n] *)
Lemma for_parts n lv a b s is : nth_error us n = Some (UFor lv a b s) -> nth_error iss n = Some is -> ucode ids (UFor lv a b s) = Ok is ->
  exists i1 i2 ic, is = i1 ++ ICmd true CMD_FOR :: i2 ++ IOp OP_ASSIGN :: ic ++ [ILoop] /\ instrs ids (rpn 0 lv) = Ok i1 /\ instrs ids (rpn 0 a) = Ok i2 /\ instrs ids (bounds_code b s) = Ok ic /\
  loop_at n (to_start true i1 i2 (encode (concat (firstn n iss)))) (for_address true i1 i2 ic (encode (concat (firstn n iss)))) /\
  to_start true i1 i2 (encode (concat (firstn n iss))) < 16777216 /\ to_size ic < 256 /\ body_start true i1 i2 ic (encode (concat (firstn n iss))) = start (S n).
Proof.
  intros U Ni Q. cbn [ucode] in Q. destruct (for_split ids true lv a b s is Q) as (i1 & i2 & ic & Q1 & Q2 & Qc & ->). exists i1, i2, ic. destruct (code_at n _ Ni) as (C & E & _).
  split; [reflexivity|]. split; [exact Q1|]. split; [exact Q2|]. split; [exact Qc|]. split; [unfold loop_at; exists lv, a, b, s, i1, i2, ic; auto 10|]. split; [|split].
  - eapply Z.le_lt_trans; [|exact Small]. unfold to_start. rewrite C, !app_length, encode_app, app_length. rewrite (encode_app i1), encode_cons, app_length, app_length, (encode_app i2), app_length, encode_cons, app_length. lia.
  - rewrite Forall_forall in Shorts. specialize (Shorts _ (nth_error_In _ _ U)). cbn [short_bounds] in Shorts. specialize (Shorts ic Qc). unfold to_size. lia.
  - rewrite E. reflexivity.
Qed.

(** ** a loop without a pass *)
Lemma firstn_plus {A} : forall a b (l : list A), firstn (a + b) l = firstn a l ++ firstn b (skipn a l).
Proof. induction a as [|a IH]; intros b l; [reflexivity|]. destruct l as [|x l]; cbn [Nat.add firstn skipn app]; [destruct b; reflexivity|]. f_equal. apply IH. Qed.
Lemma ucodes_skip : forall n us0 iss0, ucodes ids us0 = Ok iss0 -> ucodes ids (skipn n us0) = Ok (skipn n iss0).
Proof.
  induction n as [|n IH]; intros us0 iss0 Q; [exact Q|]. destruct us0 as [|u us0]; cbn [ucodes] in Q; [injection Q as <-; reflexivity|].
  destruct (ucode ids u); cbn [bind] in Q; try discriminate. destruct (ucodes ids us0) as [x| |] eqn:E; cbn [bind] in Q; try discriminate. injection Q as <-. cbn [skipn]. apply IH. exact E.
Qed.
Lemma skip_sim n r st : match closing 0 (skipn (S n) us) with
  | After k [] => skip_loop h (S (length code)) code r 1 (start (S n)) st = Ok (start (S n + S k), st)
  | After k [AE (Atom name c w)] =>
      match hvar h (ref false w) st with
      | Ok (b, l, st1) => same h r l = true -> skip_loop h (S (length code)) code r 1 (start (S n)) st = Ok (start (S n + S k), st1)
      | Err e => skip_loop h (S (length code)) code r 1 (start (S n)) st = Err e
      | UB => True
      end
  | Nowhere => skip_loop h (S (length code)) code r 1 (start (S n)) st = Err ERR_FOR_WITHOUT_NEXT
  | _ => True
  end.
Proof.
  set (us' := skipn (S n) us). set (iss' := skipn (S n) iss).
  assert (Uc' : ucodes ids us' = Ok iss') by (apply ucodes_skip; exact Uc).
  assert (Uok' : Forall uok us') by (rewrite <- (firstn_skipn (S n) us) in Uok; apply Forall_app in Uok; apply Uok).
  pose proof (concat_good0 us' iss' Uok' Uc') as G'. pose proof (closing_walk ids Gi us' iss' 0 Uok' Uc') as W.
  set (pre := encode (concat (firstn (S n) iss))). assert (C : code = pre ++ encode (concat iss')) by (unfold code, pre, iss'; rewrite <- encode_app, <- concat_app, firstn_skipn; reflexivity).
  change (start (S n)) with (here pre).
  destruct (closing 0 us') as [k args| |]; [| |exact I].
  - destruct W as (is & Nu & Ni & Q & W). assert (Ei : concat iss' = concat (firstn k iss') ++ is ++ concat (skipn (S k) iss')) by (rewrite (split_nth iss' k is Ni) at 1; rewrite concat_app; reflexivity).
    assert (Lk : here (pre ++ encode (concat (firstn k iss') ++ is)) = start (S n + S k)).
    { unfold start. rewrite firstn_plus. fold iss'. rewrite (firstn_S iss' k is Ni), !concat_app. cbn [concat]. rewrite app_nil_r, (encode_app (concat (firstn (S n) iss))). reflexivity. }
    rewrite Ei in G'. apply Forall_app in G'. destruct G' as [G1 G2]. apply Forall_app in G2. destruct G2 as [G2 G3].
    assert (Ln : (length (concat (firstn k iss') ++ is) < S (length code))%nat).
    { rewrite C, Ei, app_assoc, encode_app, !app_length. pose proof (encode_length_ge (concat (firstn k iss') ++ is) ltac:(apply Forall_app; auto)) as L. rewrite app_length in L. lia. }
    rewrite app_length in Ln. set (fuel := S (length code)) in *. clearbody fuel.
    destruct args as [|a [|]]; [| |destruct a as [[[]| | | |]|]; exact I].
    + rewrite (next_none ids is Q) in *. change 1 with (Z.of_nat (S 0)). cbn [length] in Ln. rewrite C, Ei. cbn [app].
      apply (skip_walk_gen r (concat (skipn (S k) iss')) (Ok (start (S n + S k), st)) st G3 (concat (firstn k iss')) [] pre 0 _ false); [constructor|exact G1|reflexivity|exact W|lia| |discriminate].
      intros _. cbn [app]. rewrite Lk. reflexivity.
    + destruct a as [[[] c w| | | |]|]; try exact I. cbn [ucode scode map concat acode rpn app] in Q. cbn [instrs] in Q.
      assert (Iw : instr_of ids {| ty := name; cl := c; prio := 0; text := w |} = name_instr ids false w) by reflexivity. rewrite Iw in Q.
      destruct (name_instr ids false w) as [i| |] eqn:Qi; cbn [bind] in Q; try discriminate. rewrite cmd_code_instr in Q. cbn [bind] in Q. injection Q as <-.
      assert (Vi : var_of i = Some (ref false w)).
      { unfold name_instr, ref_of in *. destruct ids as [f|]; [|injection Qi as <-; reflexivity]. destruct (name_id f false w) as [j| |]; cbn [bind] in Qi; try discriminate.
        destruct (j <? 256); [injection Qi as <-; reflexivity|]. destruct (_ =? 1); [discriminate|]. injection Qi as <-. reflexivity. }
      assert (Wi : walk 0 false (concat (firstn k iss') ++ [i]) = Some (0%nat, true)).
      { rewrite walk_app, W. destruct i as [| |[|]| | | | | | | | | | | | |]; cbn [var_of] in Vi; try discriminate; reflexivity. }
      assert (Sk : forall K st1 b l, ((hvar h (ref false w) st = Ok (b, l, st1) /\ same h r l = true /\ K = Ok (start (S n + S k), st1)) \/ exists e, hvar h (ref false w) st = Err e /\ K = Err e) ->
        skip_loop h fuel code r 1 (here pre) st = K).
      { intros K st1 b l H. change 1 with (Z.of_nat (S 0)). cbn [length] in Ln. rewrite C, Ei.
        replace (concat (firstn k iss') ++ [i; ICmd true CMD_NEXT] ++ concat (skipn (S k) iss')) with ([] ++ (concat (firstn k iss') ++ [i]) ++ ICmd true CMD_NEXT :: concat (skipn (S k) iss')) by (cbn [app]; rewrite <- app_assoc; reflexivity).
        apply (skip_walk_gen r (concat (skipn (S k) iss')) K st G3 (concat (firstn k iss') ++ [i]) [] pre 0 _ true); [constructor|apply Forall_app; split; [exact G1|constructor; [exact (Forall_inv G2)|constructor]]|reflexivity|exact Wi|rewrite app_length; cbn [length]; lia|discriminate|].
        intros _. exists (concat (firstn k iss')), i, (ref false w). split; [reflexivity|]. split; [exact Vi|]. cbn [app]. rewrite <- app_assoc. cbn [app]. rewrite Lk.
        destruct H as [(H1 & H2 & H3)|H]; [left; exists b, l, st1; auto|right; exact H]. }
      destruct (hvar h (ref false w) st) as [[[b l] st1]|e|]; [|apply (Sk _ st false r); right; eauto|exact I]. intros Sr. apply (Sk _ st1 b l). left. auto.
  - destruct W as [d' W]. change 1 with (Z.of_nat (S 0)). assert (Ln : (length (concat iss') < S (length code))%nat) by (rewrite C, app_length; pose proof (encode_length_ge (concat iss') G'); lia).
    set (fuel := S (length code)) in *. clearbody fuel. rewrite C. apply (skip_none r st (concat iss') [] pre 0 d' false fuel); [constructor|exact G'|reflexivity|exact W|exact Ln].
Qed.

Lemma step_sim p fs st c : sim p fs st c -> follows (negb (is_rest p)) (pstep h ref strv us p fs st) c.
Proof.
  intros (i & k & -> & P & F). destruct p as [n|n o|n]; cbn [pstep posrel] in *.
  - subst i. destruct (nth_error us n) as [u|] eqn:U; [|exists 0%nat, k; cbn [steps]; rewrite (start_end n U); reflexivity].
    destruct (ucodes_nth us iss n u Uc U) as (is & Ni & Q). pose proof (nth_error_In _ _ U) as In_. assert (O : uok u) by (rewrite Forall_forall in Uok; apply Uok; exact In_). destruct (code_at n is Ni) as (C & E & Gp). pose proof (ucode_good ids Gi u is O Q) as Gis.
    assert (One : forall i, is = [i] -> short i -> is_simple i -> steps lab code 1 (mkC (start n) [] k 0 st) = simple (mkC (start (S n)) [] k 0 st) i).
    { intros i -> Sh Si. rewrite C. cbn [app]. rewrite encode_cons. change 1%nat with (length [i]). rewrite <- (enc_one i) at 1. rewrite run_one, step_simple; [|exact (Forall_inv Gis)|exact Sh|exact Si|reflexivity]. rewrite E, enc_one. reflexivity. }
    assert (Here : forall st', simple (mkC (start (S n)) [] k 0 st) (IData []) = simple (mkC (start (S n)) [] k 0 st) (IData []) -> sim (At (S n)) fs st' (mkC (start (S n)) [] k 0 st')) by (intros st' _; exists (start (S n)), k; split; [reflexivity|]; split; [reflexivity|exact F]).
    destruct u as [w|l|lv a b s|args|cc|src].
    + cbn [ucode] in Q. injection Q as <-. exists 1%nat. eexists. split; [apply (One _ eq_refl); [cbn; destruct O; lia|exact I]|]. split; [apply Here; reflexivity|lia].
    + eapply settles; [exact F|apply orel_lin|intros _; eauto|]. eapply do_line; eauto.
    + destruct (for_parts n lv a b s is U Ni Q) as (i1 & i2 & ic & -> & Q1 & Q2 & Qc & La & Sm & Sh & Bs). destruct O as (Wf & Sp & Ln). set (pre := encode (concat (firstn n iss))) in *. set (post := concat (skipn (S n) iss)) in *.
      pose proof (for_head ids Gi lab lv a b s true Wf Sp Ln i1 i2 ic post pre Q1 Q2 Qc Gp Sm Sh k st) as Hd. cbv zeta in Hd. rewrite <- C in Hd. change (here pre) with (start n) in Hd.
      destruct (sem h ref lv st) as [[v st1]|e|]; cbn [bind of_outcome] in *; [|eexists; exact Hd|exact I]. destruct v as [x|lb x|[|] r|x]; try exact I. rewrite (Forall2_len _ _ _ F). destruct (length k =? 255)%nat; [eexists; exact Hd|].
      pose proof (for_first ids Gi lab lv a b s true Wf Sp Ln i1 i2 ic post pre Q2 Qc k r st1 (for_address true i1 i2 ic pre)) as Ff. cbv zeta in Ff. rewrite <- C in Ff.
      destruct (sem h ref a st1) as [[va st2]|e|]; cbn [bind of_outcome] in *; [|eexists; rewrite steps_add, Hd; exact Ff|exact I]. destruct (value_num h st2 va) as [x|e|]; cbn [bind of_outcome] in *; [|eexists; rewrite steps_add, Hd; exact Ff|exact I].
      eexists _, _. split; [rewrite steps_add, Hd; exact Ff|]. split; [|cbn [length]; lia]. eexists _, _. split; [reflexivity|]. split; [eexists; exact La|]. constructor; [|exact F]. split; [reflexivity|]. eexists. exact La.
    + destruct (next_start n args is O Ni Q k st) as [j Nx]. destruct (asems h ref args st) as [[vs st1]|e|] eqn:As; cbn [bind of_outcome] in *; [|exists j; exact Nx|exact I].
      destruct (forallb (no_loop h) fs) eqn:Nl. { exists j. rewrite Nx. unfold cmd_next. cbn [calls]. rewrite (noloop_find fs k _ F Nl). reflexivity. }
      destruct fs as [|[m o|m r|] fs]; [discriminate Nl|exact I| |exact I]. inversion F as [|? cl ? k' R F']; subst. destruct cl as [adr r'|]; [|contradiction]. destruct R as [-> [ts La]].
      assert (Nv : match vs with [] => True | [ER false l] => same h r l = true | _ => False end -> args = [] \/ vs = [ER false r]).
      { pose proof (asems_one args st vs st1 As) as Lv. destruct vs as [|[| |[|] l|] [|]]; try contradiction; [intros _; left; destruct args; [reflexivity|discriminate Lv]|]. intros S'. apply Same in S'. subst l. right. reflexivity. }
      assert (Go_ : match vs with [] => True | [ER false l] => same h r l = true | _ => False end -> follows true (match bounds_of us m with Some (b, s) => match limits h ref b s st1 with Ok (e, x, st) => let v := getn h st r + x in if (v >? INT_MAX) || (v <? INT_MIN) then Stops ERR_OVERFLOW else if overb x e v then Go (At (S n)) fs (setn h st r v) else Go (Head m) (FFor m r :: fs) (setn h st r v) | _ => Unspecified end | None => Unspecified end) (mkC (start n) [] (CFor adr r :: k') 0 st)).
      { intros V. specialize (Nv V). destruct La as (lv & a & b & s & i1 & i2 & ic & Um & Q1 & Q2 & Qc & Nm & -> & ->). unfold bounds_of. rewrite Um. destruct (limits h ref b s st1) as [[[e x] st2]| |] eqn:Lm; try exact I.
        destruct (ucodes_nth us iss m _ Uc Um) as (is' & Nm' & Qm). rewrite Nm in Nm'. injection Nm' as <-. destruct (for_parts m lv a b s _ Um Nm Qm) as (j1 & j2 & jc & _ & Q1' & Q2' & Qc' & La & Sm & Sh & Bs). rewrite Q1 in Q1'. rewrite Q2 in Q2'. rewrite Qc in Qc'. injection Q1' as <-. injection Q2' as <-. injection Qc' as <-.
        destruct (code_at m _ Nm) as (Cm & Em & Gm). assert (Om : uok (UFor lv a b s)) by (rewrite Forall_forall in Uok; apply Uok; eapply nth_error_In; exact Um). destruct Om as (Wf & Sp & Ln). destruct O as (Fa & Sa & Lna & L1).
        assert (C1 : code = encode (concat (firstn n iss)) ++ encode is ++ encode (concat (skipn (S n) iss))) by (rewrite C, encode_app; reflexivity).
        pose proof (next_runs ids Gi lab lv a b s true Wf Sp Ln i1 i2 ic (concat (skipn (S m) iss)) (encode (concat (firstn m iss))) Qc Sm (fun l => proj2 (Same l l) eq_refl) args true is (encode (concat (firstn n iss))) (encode (concat (skipn (S n) iss))) k' st r st1 e x st2) as N1. cbv zeta in N1. rewrite <- Cm in N1.
        pose proof (N1 C1 Fa Sa Q Lna L1 (ex_intro _ vs (conj As Nv)) Lm) as R. set (j' := length is) in R. assert (J0 : (0 < j')%nat) by (unfold j'; assert (Op : uok (UNext args)) by (repeat split; assumption); pose proof (ucode_some _ is Op Q); destruct is; cbn in *; lia). fold (start n) in R. rewrite <- E in R. cbv zeta. rewrite overb_past.
        destruct (_ || _); [exists j'; exact R|]. destruct (past _ _ _); eexists j', _; (split; [exact R|]); (split; [|intros _; exact J0]); eexists _, _; (split; [reflexivity|]).
        - split; [reflexivity|exact F'].
        - split; [eexists; exact La|]. constructor; [|exact F']. split; [reflexivity|]. eexists. exact La. }
      destruct vs as [|v [|]]; [apply Go_; exact I| |destruct v as [| |[|]|]; exact I]. destruct v as [| |[|] l|]; try exact I. destruct (same h r l) eqn:Sm; [|exact I]. apply Go_. reflexivity.
    + cbn [ucode] in Q. injection Q as <-. pose proof (One _ eq_refl I I) as R. cbn [simple hst stk calls] in R. destruct (hcheck h cc st) as [st'|e|]; cbn [bind of_outcome] in *; [|exists 1%nat; exact R|exact I]. exists 1%nat. eexists. split; [exact R|]. split; [apply Here; reflexivity|lia].
    + cbn [ucode] in Q. injection Q as <-. exists 1%nat. eexists. split; [apply (One _ eq_refl); [cbn; pose proof (data_len src DNone); unfold data_of; destruct O; lia|exact I]|]. split; [apply Here; reflexivity|lia].
  - eapply settles; [exact F|apply orel_rest|discriminate|]. apply P.
  - destruct fs as [|[m o|m r|] fs]; try exact I. destruct P as [adr0 La]. destruct La as (lv & a & b & s & i1 & i2 & ic & Um & Q1 & Q2 & Qc & Nm & -> & _). unfold bounds_of. rewrite Um.
    inversion F as [|? cl ? k' R F']; subst. destruct cl as [adr r'|]; [|contradiction]. destruct R as [-> Lf].
    destruct (code_at n _ Nm) as (Cm & Em & Gm). assert (Om : uok (UFor lv a b s)) by (rewrite Forall_forall in Uok; apply Uok; eapply nth_error_In; exact Um). destruct Om as (Wf & Sp & Ln).
    destruct (limits h ref b s st) as [[[e x] st2]|e|] eqn:Lm; cbn [of_outcome]; [| |exact I].
    + rewrite overb_past. pose proof (bounds_check ids Gi lab lv a b s true Wf Sp Ln i1 i2 ic (concat (skipn (S n) iss)) (encode (concat (firstn n iss))) Qc k' st r adr e x st2 Lm) as [j R]. rewrite <- Cm in R.
      destruct (past x e (getn h st2 r)) eqn:Pa.
      { assert (Bs : body_start true i1 i2 ic (encode (concat (firstn n iss))) = start (S n)) by (rewrite Em; reflexivity).
        assert (Ts : to_start true i1 i2 (encode (concat (firstn n iss))) < start (S n)).
        { rewrite <- Bs. unfold to_start, body_start. rewrite !app_length, (encode_app i1), encode_cons, (encode_app i2), encode_cons, (encode_app ic), enc_one, !app_length. cbn [enc length]. lia. }
        rewrite Bs in R. pose proof (skip_sim n r st2) as Sk. unfold no_pass.
        destruct (closing 0 (skipn (S n) us)) as [ka args| |]; [| |exact I].
        - assert (Fin : forall st3, skip_loop h (S (length code)) code r 1 (start (S n)) st2 = Ok (start (S n + S ka), st3) ->
            follows true (Go (At (S n + S ka)) (FLeft :: fs) st3) (mkC (to_start true i1 i2 (encode (concat (firstn n iss)))) [] (CFor adr r :: k') 0 st)).
          { intros st3 E3. rewrite E3 in R. cbn [bind] in R. eexists j, _. split; [exact R|]. split; [eexists _, _; split; [reflexivity|]; split; [reflexivity|]; constructor; [exact I|exact F']|].
            intros _. destruct j as [|j]; [|lia]. exfalso. cbn [steps] in R. injection R as R _. pose proof (start_mono (S n) (S (n + S ka)) ltac:(lia)). lia. }
          destruct args as [|[[[] c w| | | |]|] [|]]; try exact I.
          + apply Fin. exact Sk.
          + cbn [sem of_outcome bind] in *. destruct (hvar h (ref false w) st2) as [[[bb l] st3]|er|]; cbn [bind of_outcome] in *; [|rewrite Sk in R; exists j; exact R|exact I].
            destruct bb; [exact I|]. destruct (same h r l) eqn:Sr; [|exact I]. apply Fin. exact (Sk eq_refl).
        - rewrite Sk in R. exists j. exact R. }
      eexists j, _. split; [exact R|]. split; [eexists _, _; split; [reflexivity|]; split; [cbn [posrel]; rewrite Em; reflexivity|exact F]|]. intros _. destruct j as [|j]; [|lia]. exfalso. cbn [steps] in R. injection R as R _. unfold to_start, body_start in R. rewrite !app_length, (encode_app i1), encode_cons, (encode_app i2), encode_cons, (encode_app ic), enc_one, !app_length in R. cbn [enc length] in R. lia.
    + pose proof (bounds_err ids Gi lab lv a b s true Wf Sp Ln i1 i2 ic (concat (skipn (S n) iss)) (encode (concat (firstn n iss))) Qc (CFor adr r :: k') st e Lm) as [j R]. rewrite <- Cm in R. exists j. exact R.
Qed.
Lemma run_sim : forall n p fs st c, sim p fs st c ->
  match prun h ref strv us n p fs st with
  | Go p' fs' st' => exists m c', steps lab code m c = Ok c' /\ sim p' fs' st' c' /\ (n <= 2 * m + (if is_rest p then 1 else 0))%nat
  | End st' => exists m k, steps lab code m c = Ok (mkC (here code) [] k 0 st')
  | Stops e => exists m, steps lab code m c = Err e
  | Unspecified => True
  end.
Proof.
  induction n as [|n IH]; intros p fs st c S; cbn [prun]; [exists 0%nat, c; split; [reflexivity|]; split; [exact S|lia]|]. pose proof (step_sim p fs st c S) as T. destruct (pstep h ref strv us p fs st) as [p' fs' st'|st'|e|]; try exact T.
  destruct T as (m & c' & R & S' & Pm). specialize (IH p' fs' st' c' S'). destruct (prun h ref strv us n p' fs' st') as [p2 fs2 st2|st2|e|]; cbn [follows] in *; [| | |exact I].
  - destruct IH as (m2 & c2 & R2 & S2 & L2). exists (m + m2)%nat, c2. rewrite steps_add, R. split; [exact R2|]. split; [exact S2|]. destruct (is_rest p), (is_rest p'); cbn [negb orb] in Pm; try specialize (Pm eq_refl); lia.
  - destruct IH as (m2 & k & R2). exists (m + m2)%nat, k. rewrite steps_add, R. exact R2.
  - destruct IH as (m2 & R2). exists (m + m2)%nat. rewrite steps_add, R. exact R2.
Qed.
End Sim.
