From Verif Require Import Base BaseLemmas Tokens ExprSpec ExprProofs EvalProofs NumText Bytecode BytecodeSpec BytecodeProofs Runner RunnerSpec RunnerProofs ExecProofs StmtSpec StmtProofs EvalLine FlowSpec FlowProofs.
Ltac Zify.zify_post_hook ::= Z.div_mod_to_equations.

Lemma compile_app errno ids nl test a b d : compile errno ids nl test d (a ++ b) = let* d' := compile errno ids nl test d a in compile errno ids nl test d' b.
Proof.
  revert d. induction a as [|x a IH]; intros d; [reflexivity|]. cbn [app compile]. destruct x as [l|e]; [|apply IH]. destruct (convert ids nl test d l) as [[d' e]| |]; cbn [bind]; try reflexivity. apply IH.
Qed.
(** the system variables met *)
Definition sysvars_of (l : list token) : list Z := map cl (filter (fun t => is_ty t sysvar) l).
Lemma code_loop_vs ids l : forall d vs d' vs', Forall plain l -> code_loop ids d vs l = Ok (d', vs', None) -> vs' = rev (sysvars_of l) ++ vs.
Proof.
  induction l as [|t l IH]; intros d vs d' vs' P; cbn [code_loop]; [intros [= <- <-]; reflexivity|].
  destruct (code_token ids d t) as [[d1 b]| |] eqn:Q; cbn [bind]; try discriminate.
  assert (b = false) as -> .
  { pose proof (Forall_inv P) as Pt. unfold plain in Pt. unfold code_token in Q. destruct (ty t); try contradiction; try (injection Q as _ <-; reflexivity).
    all: try (replace (cl t =? CMD_DATA) with false in Q by lia; injection Q as _ <-; reflexivity).
    all: try (destruct (u8_to_num _); cbn [bind] in Q; try discriminate; destruct (emit_number _ _); cbn [bind] in Q; try discriminate; injection Q as _ <-; reflexivity).
    all: try (destruct (u8_to_number _ _ _); cbn [bind] in Q; try discriminate; destruct (emit_number _ _); cbn [bind] in Q; try discriminate; injection Q as _ <-; reflexivity).
    all: destruct (code_name _ _ _); cbn [bind] in Q; try discriminate; injection Q as _ <-; reflexivity. }
  intros R. apply IH in R; [|apply (Forall_inv_tail P)]. rewrite R. unfold sysvars_of. cbn [filter]. destruct (is_ty t sysvar); cbn [map rev]; [rewrite <- app_assoc|]; reflexivity.
Qed.
Lemma existsb_in c l : existsb (Z.eqb c) l = true <-> In c l.
Proof. rewrite existsb_exists. split; [intros (x & I & E); apply Z.eqb_eq in E; subst; exact I|intros I; exists c; split; [exact I|apply Z.eqb_refl]]. Qed.
Lemma validations_enc l tail : validations (rev (sysvars_of l) ++ []) = encode (map ICheck (filter (fun c => existsb (fun t => is_ty t sysvar && (cl t =? c)) l) checked)) /\ tail = tail :> Z.
Proof.
  split; [|reflexivity]. unfold validations, encode. rewrite map_map. cbn [enc]. f_equal. f_equal. unfold validated, checked. apply filter_ext. intros c. rewrite app_nil_r.
  apply eq_true_iff_eq. rewrite existsb_in, <- in_rev. unfold sysvars_of. rewrite in_map_iff, existsb_exists. split.
  - intros (t & E & I). apply filter_In in I. destruct I as [I1 I2]. exists t. split; [exact I1|]. rewrite I2, E, Z.eqb_refl. reflexivity.
  - intros (t & I & E). apply andb_true_iff in E. destruct E as [E1 E2]. exists t. split; [lia|]. apply filter_In. auto.
Qed.
Lemma line_convert ids test l d d' : (forall f, ids = Some f -> good_ids f) -> proper l -> Nat.even (length d) = true -> test (line_code l) = None ->
  convert ids false test d (line_toks l) = Ok (d', None) ->
  exists is, instrs ids (line_code l) = Ok is /\ d' = d ++ encode (is ++ map ICheck (line_checks l)).
Proof.
  intros Gi (Wf & Sp & L) E T C. unfold convert in C. rewrite andb_false_r in C.
  pose proof (line_compiles l Wf L) as Lc. destruct (tok_prio (line_toks l)) as [p| |]; cbn [bind] in *; try discriminate. rewrite Lc in C. cbn [bind] in C. rewrite T in C.
  assert (Lp : lp (line_code l)).
  { assert (Sp' : all_stmts sspelled spelled l).
    { clear - Sp. revert l Sp. fix IH 1. destruct l as [s|s l|e t el]; cbn [all_stmts]; [intros [A _]; exact A|intros [[A _] B]; split; [exact A|apply IH; exact B]|intros (A & B & D); split; [exact A|split; [apply IH; exact B|destruct el; [apply IH; exact D|exact I]]]]. }
    unfold line_code. apply lp_app; [eapply lp_lin; eassumption|]. destruct (has_if l); [|apply lp_nil]. apply (lp_cmd false CMD_ENDIF); [unfold is_byte, CMD_ENDIF; lia|intro Q; discriminate Q]. }
  destruct Lp as [Lx Pl]. unfold tok_code in C. pose proof (code_loop_app ids (line_code l) Gi Lx Pl d [] [] E) as A. rewrite app_nil_r in A. destruct (instrs ids (line_code l)) as [is|e|] eqn:Q.
  - destruct A as [vs A]. cbn [code_loop] in A. rewrite A in C. cbn [bind] in C. apply code_loop_vs in A; [|exact Pl]. injection C as <-. exists is. split; [reflexivity|].
    rewrite A, (proj1 (validations_enc (line_code l) 0)), encode_app, app_assoc. reflexivity.
  - destruct A as (d1 & vs & A). rewrite A in C. cbn [bind] in C. discriminate C.
  - rewrite A in C. discriminate C.
Qed.
Lemma checks_run {h : host} (lab : labels_fun h) cs : Forall is_byte cs -> forall pre post (c : cfg h), ix c = Z.of_nat (length pre) -> argc c = 0 -> stk c = [] ->
  steps lab (pre ++ encode (map ICheck cs) ++ post) (length cs) c = let* st := run_checks h cs (hst c) in Ok (mkC (Z.of_nat (length (pre ++ encode (map ICheck cs)))) [] (calls c) 0 st).
Proof.
  induction 1 as [|x cs B F IH]; intros pre post c X A Sk.
  - cbn. rewrite app_nil_r. destruct c as [i s k a st]. cbn [ix argc stk] in *. subst. reflexivity.
  - cbn [map length run_checks]. change (S (length cs)) with (1 + length cs)%nat. rewrite encode_cons, <- app_assoc, steps_add. cbn [steps]. rewrite step_simple; [|exact B|exact I|exact I|exact X]. cbn [simple hst stk calls ix].
    destruct (hcheck h x (hst c)) as [st| |]; cbn [bind]; try reflexivity. unfold set_stk. cbn [ix calls]. rewrite app_assoc, IH by (reflexivity || exact Sk). cbn [hst calls]. destruct (run_checks h cs st); cbn [bind]; try reflexivity. rewrite <- !app_assoc. reflexivity.
Qed.
Lemma checked_bytes l : Forall is_byte (line_checks l).
Proof. apply Forall_forall. intros c I. apply filter_In in I. destruct I as [I _]. unfold checked in I. cbn in I. unfold is_byte. lia. Qed.

(** a line of a program, compiled among other lines and run *)
Definition compiled errno ids test (before : list line) (l : lin) (after : list line) (start next : Z) (code : list Z) : Prop :=
  exists p q, compile errno ids false test [] before = Ok p /\ convert ids false test p (line_toks l) = Ok (q, None) /\
    compile errno ids false test [] (before ++ Tokens (line_toks l) :: after) = Ok code /\ start = Z.of_nat (length p) /\ next = Z.of_nat (length q).
Lemma okl_of l : (all_stmts (fun s => sspelled s /\ basic s) spelled l) -> (length (line_toks l) <= 100)%nat -> okl l.
Proof.
  intros Sp L. assert (L' : (length (ltoks l) <= 100)%nat) by (unfold line_toks in L; rewrite app_length in L; lia). clear L. unfold okl. revert l Sp L'. fix IH 1. destruct l as [s|s l|e t el]; cbn [all_stmts ltoks].
  - intros [A B] L. auto.
  - intros [[A B] D] L. rewrite app_length in L. cbn [length] in L. split; [split; [exact A|split; [exact B|lia]]|]. apply IH; [exact D|lia].
  - intros (A & B & D) L. cbn [length] in L. rewrite app_length in L. cbn [length] in L. rewrite app_length in L. split; [split; [exact A|lia]|]. split; [apply IH; [exact B|lia]|]. destruct el as [el|]; [|exact I]. cbn [length] in L. apply IH; [exact D|lia].
Qed.
Theorem program_line {h : host} (lab : labels_fun h) errno ids test before l after start next code :
  (forall f, ids = Some f -> good_ids f) -> (forall e, is_byte (errno e)) -> Forall good_line before -> Forall good_line after ->
  proper l -> if_ok l -> test (line_code l) = None -> compiled errno ids test before l after start next code ->
  exists fin,
    (forall k st, exists n, landed h (ref_of ids) lab code fin k (exec_lin h (ref_of ids) lab l st) (steps lab code n (mkC start [] k 0 st))) /\
    (forall k st, steps lab code (length (line_checks l)) (mkC fin [] k 0 st) = let* st' := run_checks h (line_checks l) st in Ok (mkC next [] k 0 st')).
Proof.
  intros Gi Ge Fb Fa Pr If T (p & q & Cp & Cq & Cc & -> & ->).
  destruct (compile_instr errno ids false test before Gi Ge Fb [] p eq_refl Cp) as (ip & Ep & Gp). cbn [app] in Ep.
  assert (Ev : Nat.even (length p) = true) by (rewrite Ep; apply (even_encode [] ip); auto).
  destruct (line_convert ids test l p q Gi Pr Ev T Cq) as (is & Qi & Eq). destruct Pr as (Wf & Sp & L).
  rewrite compile_app, Cp in Cc. cbn [bind compile] in Cc. rewrite Cq in Cc. cbn [bind] in Cc.
  assert (Gis : Forall good is).
  { assert (O := okl_of l Sp L). unfold line_code in Qi. rewrite instrs_app in Qi. destruct (instrs ids (lcode true l)) as [i1| |] eqn:Q1; cbn [bind] in Qi; try discriminate. destruct (lcode_good ids Gi l true _ _ i1 Wf O Q1) as [G1 _].
    destruct (has_if l); cbn in Qi; injection Qi as <-; [|rewrite app_nil_r; exact G1]. apply Forall_app. split; [exact G1|constructor; [cbn; unfold is_byte, CMD_ENDIF; lia|constructor]]. }
  assert (Gck : Forall good (map ICheck (line_checks l))) by (apply Forall_map; eapply Forall_impl; [|apply checked_bytes]; intros a B; exact B).
  assert (Evq : Nat.even (length q) = true) by (rewrite Eq; apply even_encode; [exact Ev|apply Forall_app; split; assumption]).
  destruct (compile_instr errno ids false test after Gi Ge Fa q code Evq Cc) as (ia & Ea & Ga).
  set (cks := map ICheck (line_checks l)) in *.
  assert (Ec : code = p ++ encode (is ++ cks ++ ia)) by (rewrite Ea, Eq, !encode_app, <- !app_assoc; reflexivity).
  exists (Z.of_nat (length (p ++ encode is))). split.
  - intros k st. unfold line_code in Qi. rewrite instrs_app in Qi. destruct (instrs ids (lcode true l)) as [i1| |] eqn:Q1; cbn [bind] in Qi; try discriminate.
    assert (O := okl_of l Sp L). assert (Ng : ~ starts_go l) by (clear - Wf; destruct l as [[]|[]|]; cbn in *; intuition).
    destruct (has_if l) eqn:Hi; cbn in Qi; injection Qi as <-.
    + destruct (run_lin ids Gi lab l true false true i1 (ICmd false CMD_ENDIF :: cks ++ ia) 2 p (mkC (Z.of_nat (length p)) [] k 0 st) Wf O If Ng Q1) as [n N].
      { apply ctx_end. } { constructor; [cbn; unfold is_byte, CMD_ENDIF; lia|apply Forall_app; split; assumption]. } { reflexivity. } { reflexivity. } { reflexivity. }
      exists n. cbn [calls hst] in N. rewrite Ec. replace ((i1 ++ [ICmd false CMD_ENDIF]) ++ cks ++ ia) with (i1 ++ ICmd false CMD_ENDIF :: cks ++ ia) by (rewrite <- app_assoc; reflexivity).
      replace (Z.of_nat (length (p ++ encode (i1 ++ [ICmd false CMD_ENDIF])))) with (Z.of_nat (length (p ++ encode i1)) + 2) by (rewrite encode_app, enc_one, !app_length; cbn [enc length]; lia). exact N.
    + destruct (run_lin ids Gi lab l true false true i1 (cks ++ ia) 0 p (mkC (Z.of_nat (length p)) [] k 0 st) Wf O If Ng Q1) as [n N].
      { apply ctx_straight. exact Hi. } { apply Forall_app; split; assumption. } { reflexivity. } { reflexivity. } { reflexivity. }
      exists n. cbn [calls hst] in N. rewrite Ec, app_nil_r. rewrite Z.add_0_r in N. exact N.
  - intros k st. rewrite Ec, encode_app, app_assoc, encode_app. unfold cks. rewrite (checks_run lab (line_checks l) (checked_bytes l)) by reflexivity. cbn [hst calls].
    destruct (run_checks h (line_checks l) st); cbn [bind]; try reflexivity. rewrite Eq, encode_app, app_assoc. reflexivity.
Qed.
