(** Where a loop without a single pass ends, in the code (used by ProgSim). *)
From Verif Require Import Base BaseLemmas Tokens ExprSpec ExprProofs EvalProofs NumText Hash HashProofs Labels LabelsProofs Bytecode BytecodeSpec BytecodeProofs Runner RunnerSpec RunnerProofs ExecProofs StmtSpec StmtProofs EvalLine FlowSpec FlowProofs FlowLine ForSpec ForProofs ForSkip ProgSpec Link ProgProofs.
Ltac Zify.zify_post_hook ::= Z.div_mod_to_equations.

Lemma walk_app a : forall d v b, walk d v (a ++ b) = match walk d v a with Some (d, v) => walk d v b | None => None end.
Proof.
  induction a as [|i a IH]; intros d v b; [reflexivity|]. cbn [app walk]. destruct i as [| |[|] k| | | | | | | | | | | | |]; try apply IH.
  destruct (k =? CMD_FOR); [apply IH|]. destruct (k =? CMD_NEXT); [|apply IH]. destruct d, v; try reflexivity. apply IH.
Qed.
(** neither FOR nor NEXT *)
Definition noloop (i : instr) : Prop := match i with ICmd _ k => k <> CMD_FOR /\ k <> CMD_NEXT | _ => True end.
Lemma walk_noloop l : Forall noloop l -> forall d v, exists v', walk d v l = Some (d, v').
Proof.
  induction 1 as [|i l N F IH]; intros d v; cbn [walk]; [eexists; reflexivity|]. destruct i as [| |[|] k| | | | | | | | | | | | |]; try apply IH.
  cbn [noloop] in N. replace (k =? CMD_FOR) with false by lia. replace (k =? CMD_NEXT) with false by lia. apply IH.
Qed.
Lemma walk_last l i : Forall noloop l -> noloop i -> var_of i = None -> forall d v, walk d v (l ++ [i]) = Some (d, false).
Proof.
  intros F N V d v. rewrite walk_app. destruct (walk_noloop l F d v) as [v' ->]. destruct i as [| |[|] k| | | | | | | | | | | | |]; cbn [walk var_of] in *; try discriminate; try reflexivity.
  cbn [noloop] in N. replace (k =? CMD_FOR) with false by lia. replace (k =? CMD_NEXT) with false by lia. reflexivity.
Qed.
Section Skip.
Variable ids : option ids_fun.
Hypothesis Gi : forall f, ids = Some f -> good_ids f.
Notation calm is := (Forall noloop is /\ forall d, walk d false is = Some (d, false)).
Lemma calm_last l i : Forall noloop l -> noloop i -> var_of i = None -> calm (l ++ [i]).
Proof. intros F N V. split; [apply Forall_app; split; [exact F|constructor; [exact N|constructor]]|]. intros d. apply walk_last; assumption. Qed.
Lemma calm_app a b : calm a -> calm b -> calm (a ++ b).
Proof. intros [F1 W1] [F2 W2]. split; [apply Forall_app; auto|]. intros d. rewrite walk_app, W1. apply W2. Qed.
Lemma calm_nil : calm []. Proof. split; [constructor|reflexivity]. Qed.
Lemma opnd_noloop i : FlowProofs.opnd i -> noloop i. Proof. destruct i; cbn; auto; contradiction. Qed.
Lemma rpn_noloop n e is : wfe e -> instrs ids (rpn n e) = Ok is -> Forall noloop is.
Proof. intros Wf Q. destruct (otoks_instrs ids Gi _ (proj1 (rpn_otok e Wf n)) _ Q) as [F _]. eapply Forall_impl; [|exact F]. exact opnd_noloop. Qed.
Lemma ocode_noloop o is : match o with Some e => fine e | None => True end -> instrs ids (ocode o) = Ok is -> Forall noloop is.
Proof. destruct o as [e|]; intros F Q; [apply (rpn_noloop 0 e is (proj1 F) Q)|cbn in Q; injection Q as <-; constructor]. Qed.
Lemma args_noloop args : Forall afine args -> forall is, instrs ids (concat (map acode args)) = Ok is -> Forall noloop is.
Proof.
  induction 1 as [|a args Fa F IH]; intros is Q; [cbn in Q; injection Q as <-; constructor|]. cbn [map concat] in Q. rewrite instrs_app in Q. destruct (instrs ids (acode a)) as [i1| |] eqn:Q1; cbn [bind] in Q; try discriminate.
  destruct (instrs ids (concat _)) as [i2| |]; cbn [bind] in Q; try discriminate. injection Q as <-. apply Forall_app. split; [|apply IH; reflexivity].
  destruct a as [e|w]; [apply (rpn_noloop 0 e _ (proj1 Fa) Q1)|cbn in Q1; injection Q1 as <-; constructor; [exact I|constructor]].
Qed.
Lemma scode_calm s first is : wfs s -> basic s -> instrs ids (scode first s) = Ok is -> calm is.
Proof.
  destruct s as [lv e|cm args|e cm args|items last|lv a b st|w|items]; cbn [wfs basic scode]; intros Wf Ba Q; try contradiction.
  - destruct Wf as (_ & [F1 _] & [F2 _]). rewrite !instrs_app in Q. destruct (instrs ids (rpn 0 lv)) as [i1| |] eqn:Q1; cbn [bind] in Q; try discriminate. destruct (instrs ids (rpn 0 e)) as [i2| |] eqn:Q2; cbn [bind] in Q; try discriminate. cbn in Q. injection Q as <-.
    rewrite app_assoc. apply calm_last; [apply Forall_app; split; [exact (rpn_noloop 0 lv _ F1 Q1)|exact (rpn_noloop 0 e _ F2 Q2)]|exact I|reflexivity].
  - destruct Wf as (_ & F). rewrite instrs_app in Q. destruct (instrs ids (concat _)) as [i1| |] eqn:Q1; cbn [bind] in Q; try discriminate. rewrite instrs_one, cmd_code_instr in Q. cbn [bind] in Q. injection Q as <-.
    apply calm_last; [exact (args_noloop args F _ Q1)| |reflexivity]. destruct Ba as [Ba _]. unfold flow_cmd in Ba. cbn [In] in Ba. cbn. split; intros ->; apply Ba; auto 10.
  - destruct Wf as ([Fe _] & _ & F). rewrite instrs_app in Q. destruct (instrs ids (rpn 0 e)) as [i1| |] eqn:Q1; cbn [bind] in Q; try discriminate.
    rewrite instrs_app, instrs_one, cmd_code_instr in Q. cbn [bind] in Q. rewrite instrs_app in Q. destruct (instrs ids (concat _)) as [i2| |] eqn:Q2; cbn [bind] in Q; try discriminate.
    rewrite instrs_one in Q. rewrite cmd_code_instr in Q. cbn [bind] in Q. injection Q as <-.
    change (ICmd first CMD_ON :: i2 ++ [ICmd false cm]) with ((ICmd first CMD_ON :: i2) ++ [ICmd false cm]). rewrite app_assoc. apply calm_last; [apply Forall_app; split; [exact (rpn_noloop 0 e _ Fe Q1)|]|destruct Ba as [-> | ->]; cbn; split; discriminate|reflexivity].
    constructor; [cbn; split; discriminate|exact (args_noloop args F _ Q2)].
  - destruct Wf as (F1 & F2). rewrite !instrs_app in Q. destruct (instrs ids (concat _)) as [i1| |] eqn:Q1; cbn [bind] in Q; try discriminate.
    destruct (instrs ids (ocode last)) as [i2| |] eqn:Q2; cbn [bind] in Q; try discriminate. rewrite instrs_one, cmd_code_instr in Q. cbn [bind] in Q. injection Q as <-.
    rewrite app_assoc. apply calm_last; [apply Forall_app; split; [|exact (ocode_noloop last _ F2 Q2)]|cbn; split; discriminate|reflexivity].
    clear - F1 Q1 Gi. revert i1 Q1. induction F1 as [|[o s] items [Fs Fo] F1 IH]; intros i1 Q1; [cbn in Q1; injection Q1 as <-; constructor|]. cbn [map concat fst snd] in *. rewrite !instrs_app in Q1.
    destruct (instrs ids (ocode o)) as [j1| |] eqn:R1; cbn [bind] in Q1; try discriminate. assert (Qs : instrs ids [op_tok s 1] = Ok [IOp s]) by (destruct Fs as [-> | ->]; reflexivity). rewrite Qs in Q1. cbn [bind] in Q1.
    destruct (instrs ids (concat _)) as [j2| |] eqn:R2; cbn [bind] in Q1; try discriminate. injection Q1 as <-. apply Forall_app. split; [|apply IH; reflexivity]. apply Forall_app. split; [exact (ocode_noloop o _ Fo R1)|constructor; [exact I|constructor]].
  - cbn in Q. injection Q as <-. apply (calm_last []); [constructor|exact I|reflexivity].
  - destruct Wf as [_ F]. clear Ba. revert is Q. induction F as [|e items Fe F IH]; intros is Q; [cbn in Q; injection Q as <-; apply calm_nil|]. cbn [map concat] in Q. rewrite instrs_app in Q.
    destruct (instrs ids (dcode e)) as [i1| |] eqn:Q1; cbn [bind] in Q; try discriminate. destruct (instrs ids (concat _)) as [i2| |]; cbn [bind] in Q; try discriminate. injection Q as <-. apply calm_app; [|apply IH; reflexivity].
    destruct e as [| | | |fn c w b args]; try (cbn in Q1; injection Q1 as <-; apply calm_nil). cbn [dcode] in Q1.
    destruct (otoks_instrs ids Gi _ (dims_otok [ExprSpec.Call fn c w b args] ltac:(constructor; [exact Fe|constructor])) i1 ltac:(cbn [map concat]; rewrite app_nil_r; exact Q1)) as [Fo _].
    assert (Fn : Forall noloop i1) by (eapply Forall_impl; [|exact Fo]; exact opnd_noloop).
    rewrite instrs_app in Q1. destruct (instrs ids (concat _)) as [j1| |]; cbn [bind] in Q1; try discriminate. cbn in Q1. injection Q1 as <-.
    apply Forall_app in Fn. destruct Fn as [Fn _]. change [IArgc (Z.of_nat (length args)); IDim w] with ([IArgc (Z.of_nat (length args))] ++ [IDim w]). rewrite app_assoc. apply calm_last; [apply Forall_app; split; [exact Fn|constructor; [exact I|constructor]]|exact I|reflexivity].
Qed.
Lemma lcode_calm : forall l after tidy first is, wfl after tidy l -> okl l -> instrs ids (lcode first l) = Ok is -> calm is.
Proof.
  fix IH 1. destruct l as [s|s l|e t el]; intros after tidy first is; cbn [wfl okl all_stmts lcode].
  - intros (Wf & _ & _) (_ & Ba & _) Q. exact (scode_calm s first is Wf Ba Q).
  - intros (Wf & _ & _ & Wl) [(_ & Ba & _) Ol] Q. rewrite instrs_app in Q. destruct (instrs ids (scode first s)) as [i1| |] eqn:Q1; cbn [bind] in Q; try discriminate. destruct (instrs ids (lcode true l)) as [i2| |] eqn:Q2; cbn [bind] in Q; try discriminate. injection Q as <-.
    apply calm_app; [exact (scode_calm s first i1 Wf Ba Q1)|exact (IH l _ _ _ _ Wl Ol Q2)].
  - intros ([We _] & Wt & Wel) (_ & Ot & Oel) Q. rewrite instrs_app in Q. destruct (instrs ids (rpn 0 e)) as [i1| |] eqn:Q1; cbn [bind] in Q; try discriminate. pose proof (rpn_noloop 0 e i1 We Q1) as F1.
    rewrite instrs_app, instrs_one, cmd_code_instr in Q. cbn [bind] in Q. rewrite instrs_app in Q. destruct (instrs ids (lcode false t)) as [i2| |] eqn:Q2; cbn [bind] in Q; try discriminate. pose proof (IH t _ _ _ _ Wt Ot Q2) as C2.
    assert (C1 : calm (i1 ++ [ICmd first CMD_IF])) by (apply calm_last; [exact F1|cbn; split; discriminate|reflexivity]).
    destruct el as [el|].
    + cbn [instrs] in Q. change (instr_of ids (cmd_tok CMD_ELSE)) with (@Ok instr (ICmd false CMD_ELSE)) in Q. cbn [bind] in Q. destruct (instrs ids (lcode false el)) as [i3| |] eqn:Q3; cbn [bind] in Q; try discriminate. injection Q as <-. destruct Wel as [Wel _].
      replace (i1 ++ ICmd first CMD_IF :: i2 ++ ICmd false CMD_ELSE :: i3) with ((i1 ++ [ICmd first CMD_IF]) ++ i2 ++ [ICmd false CMD_ELSE] ++ i3) by (rewrite <- app_assoc; reflexivity).
      apply calm_app; [exact C1|]. apply calm_app; [exact C2|]. apply calm_app; [apply (calm_last []); [constructor|cbn; split; discriminate|reflexivity]|exact (IH el _ _ _ _ Wel Oel Q3)].
    + cbn [instrs bind] in Q. injection Q as <-. rewrite app_nil_r. change (i1 ++ ICmd first CMD_IF :: i2) with (i1 ++ [ICmd first CMD_IF] ++ i2). rewrite app_assoc. apply calm_app; assumption.
Qed.
Lemma ucode_calm u is : uok u -> match u with UFor _ _ _ _ | UNext _ => False | _ => True end -> ucode ids u = Ok is -> forall d, walk d false is = Some (d, false).
Proof.
  destruct u as [w|l|lv a b s|args|c|src]; cbn [uok ucode]; intros O K Q d; try contradiction; try (injection Q as <-; reflexivity).
  destruct O as (Wf & O & _). unfold line_code in Q. rewrite instrs_app in Q. destruct (instrs ids (lcode true l)) as [i1| |] eqn:Q1; cbn [bind] in Q; try discriminate.
  pose proof (lcode_calm l _ _ _ i1 Wf O Q1) as C. destruct (has_if l); cbn in Q; injection Q as <-; [|rewrite app_nil_r; apply C].
  assert (C2 : calm (i1 ++ [ICmd false CMD_ENDIF])) by (apply calm_app; [exact C|apply (calm_last []); [constructor|cbn; split; discriminate|reflexivity]]). apply C2.
Qed.
Lemma ufor_walk lv a b s is : uok (UFor lv a b s) -> ucode ids (UFor lv a b s) = Ok is -> forall d, walk d false is = Some (S d, false).
Proof.
  intros (Wf & _) Q d. cbn [ucode] in Q. destruct (for_split ids true lv a b s is Q) as (i1 & i2 & ic & Q1 & Q2 & Qc & ->). cbn [wfs] in Wf. destruct Wf as (_ & [W1 _] & [W2 _] & [Wb _] & Ws).
  rewrite walk_app. destruct (walk_noloop i1 (rpn_noloop _ _ _ W1 Q1) d false) as [v ->]. cbn [walk]. change (CMD_FOR =? CMD_FOR) with true. cbv iota.
  assert (Fc : Forall noloop ic).
  { unfold bounds_code in Qc. rewrite instrs_app in Qc. destruct (instrs ids (rpn 0 b)) as [j1| |] eqn:R1; cbn [bind] in Qc; try discriminate. rewrite instrs_app, instrs_one, cmd_code_instr in Qc. cbn [bind] in Qc.
    destruct s as [s|].
    - rewrite instrs_app in Qc. destruct (instrs ids (rpn 0 s)) as [j2| |] eqn:R2; cbn [bind] in Qc; try discriminate. rewrite instrs_one, cmd_code_instr in Qc. cbn [bind] in Qc. injection Qc as <-.
      apply Forall_app. split; [exact (rpn_noloop _ _ _ Wb R1)|]. constructor; [cbn; split; discriminate|]. apply Forall_app. split; [exact (rpn_noloop _ _ _ (proj1 Ws) R2)|]. constructor; [cbn; split; discriminate|constructor].
    - cbn [instrs bind] in Qc. injection Qc as <-. apply Forall_app. split; [exact (rpn_noloop _ _ _ Wb R1)|]. constructor; [cbn; split; discriminate|constructor]. }
  change (i2 ++ IOp OP_ASSIGN :: ic ++ [ILoop]) with (i2 ++ (IOp OP_ASSIGN :: ic) ++ [ILoop]). rewrite app_assoc. apply walk_last; [apply Forall_app; split; [exact (rpn_noloop _ _ _ W2 Q2)|constructor; [exact I|exact Fc]]|exact I|reflexivity].
Qed.
Lemma next_none is : ucode ids (UNext []) = Ok is -> is = [ICmd true CMD_NEXT].
Proof. cbn. intros [= <-]. reflexivity. Qed.

(** the instructions up to the closing NEXT *)
Lemma closing_walk : forall us iss d, Forall uok us -> ucodes ids us = Ok iss ->
  match closing d us with
  | After k args => exists is, nth_error us k = Some (UNext args) /\ nth_error iss k = Some is /\ ucode ids (UNext args) = Ok is /\ walk d false (concat (firstn k iss)) = Some (O, false)
  | Nowhere => exists d', walk d false (concat iss) = Some (d', false)
  | Other => True
  end.
Proof.
  induction us as [|u us IH]; intros iss d U; cbn [ucodes closing]; [intros [= <-]; exists d; reflexivity|]. inversion U as [|? ? Uu Us]; subst.
  destruct (ucode ids u) as [i| |] eqn:Q; cbn [bind]; try discriminate. destruct (ucodes ids us) as [x| |]; cbn [bind]; try discriminate. intros [= <-].
  assert (K : forall d0, walk d false i = Some (d0, false) ->
    match later (closing d0 us) with
    | After k args => exists is, nth_error (u :: us) k = Some (UNext args) /\ nth_error (i :: x) k = Some is /\ ucode ids (UNext args) = Ok is /\ walk d false (concat (firstn k (i :: x))) = Some (O, false)
    | Nowhere => exists d', walk d false (concat (i :: x)) = Some (d', false)
    | Other => True
    end).
  { intros d0 W. specialize (IH x d0 Us eq_refl). destruct (closing d0 us) as [k args| |]; cbn [later]; [| |exact I].
    - destruct IH as (is & E1 & E2 & E3 & E4). exists is. cbn [nth_error firstn concat]. rewrite walk_app, W. auto.
    - destruct IH as [d' E]. exists d'. cbn [concat]. rewrite walk_app, W. exact E. }
  destruct u as [w|l|lv a b s|args|c|src]; try (apply K; eapply ucode_calm; [exact Uu|exact I|exact Q]).
  - apply K. eapply ufor_walk; eauto.
  - destruct d as [|d]; [exists i; auto|]. destruct args as [|a0 args]; [|exact I]. apply K. rewrite (next_none i Q). reflexivity.
Qed.
End Skip.
