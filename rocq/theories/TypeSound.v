(** C69: an accepted line never confuses numbers and strings when it runs. *)
From Verif Require Import Base BaseLemmas Tokens ExprSpec ExprProofs NumText Bytecode BytecodeSpec Runner RunnerSpec StmtSpec ExecProofs FlowSpec FlowProofs FlowLine TokTest TokTestSpec TokTestProofs TokTestTypes TokTestProps TypeSpec.
Open Scope Z_scope.
Ltac Zify.zify_post_hook ::= Z.div_mod_to_equations.

Lemma safe_bind {A B} (P : A -> Prop) (Q : B -> Prop) (x : outcome A) (f : A -> outcome B) : safe P x -> (forall a, P a -> safe Q (f a)) -> safe Q (let* y := x in f y).
Proof. destruct x; cbn; auto. Qed.
Lemma safe_mono {A} (P Q : A -> Prop) (x : outcome A) : safe P x -> (forall a, P a -> Q a) -> safe Q x.
Proof. destruct x; cbn; auto. Qed.
Lemma safe_not_ub {A} (P : A -> Prop) (x : outcome A) : safe P x -> x <> UB.
Proof. destruct x; cbn; intros; try discriminate; contradiction. Qed.

Section Sound.
Variable h : host.
Variable ref : bool -> list Z -> vref.
Variable lab : labels_fun h.
Hypothesis T : typed_host h ref lab.

Lemma in_range_app a b : in_range (a ++ b) -> in_range a /\ in_range b.
Proof. intros R. split; intros t J; apply R, in_or_app; auto. Qed.
Definition value_of_kind (k : kind) : entry (Loc h) * St h -> Prop := fun '(v, _) => entry_kind v = Some k.

Lemma sems_eq args : forall st, (fix go (l : list expr) (st : St h) : outcome (list (entry (Loc h)) * St h) :=
        match l with
        | [] => Ok ([], st)
        | x :: r => let* (v, st) := sem h ref x st in let* (vs, st) := go r st in Ok (v :: vs, st)
        end) args st = sems h ref args st.
Proof. induction args as [|x r IH]; intros st; [reflexivity|]. cbn [sems]. destruct (sem h ref x st) as [[v st']| |]; cbn [bind]; try reflexivity. Qed.

Theorem typed_value e : wfe e -> forall k n st, has_type e k -> in_range (rpn n e) -> safe (value_of_kind k) (sem h ref e st).
Proof.
  induction e as [kt c w|e IH|o e IH|o l r IHl IHr|fn c w b args IH] using expr_ind2; intros Wf k n st Ht R; cbn [sem].
  - inversion Ht; subst; clear Ht.
    + assert (L : lit number w <> None) by (apply (R (mk number c 0 w)); [left; reflexivity|left; reflexivity]). destruct (lit number w); [reflexivity|congruence].
    + assert (L : lit base_number w <> None) by (apply (R (mk base_number c 0 w)); [left; reflexivity|right; reflexivity]). destruct (lit base_number w); [reflexivity|congruence].
    + reflexivity.
    + eapply safe_bind; [apply (th_var _ _ _ T)|]. intros [[b l] st'] ->. cbn. unfold var_of. destruct (dollar w); reflexivity.
    + eapply safe_mono; [apply (th_sys _ _ _ T)|]. intros [v st'] E. exact E.
  - cbn [wfe] in Wf. inversion Ht; subst. eapply IH; eauto.
  - destruct Wf as (U & We & _). inversion Ht; subst. cbn [rpn] in R. apply in_range_app in R as (R & _).
    eapply safe_bind; [eapply IH; eauto|]. intros [v st'] E. eapply safe_mono; [eapply (th_un _ _ _ T); eauto|]. intros [v' st''] E'. exact E'.
  - destruct Wf as (Lv & Wl & Wr & _). inversion Ht; subst. cbn [rpn] in R. apply in_range_app in R as (R1 & R2). apply in_range_app in R2 as (R2 & _).
    eapply safe_bind; [eapply IHl; eauto|]. intros [va st1] E1. eapply safe_bind; [eapply IHr; eauto|]. intros [vb st2] E2.
    eapply safe_mono; [eapply (th_bin _ _ _ T); eauto|]. intros [v st3] E3. exact E3.
  - rewrite sems_eq. cbn [wfe] in Wf. destruct Wf as (Wa & _). rewrite wfe_args in Wa. cbn [rpn] in R. apply in_range_app in R as (R & _).
    assert (V : forall ks, Forall2 has_type args ks -> forall st, safe (fun '(vs, _) => Forall2 (fun v k => entry_kind v = Some k) vs ks) (sems h ref args st)).
    { clear Ht k st. intros ks F. revert IH Wa R. induction F as [|x kx args ks Hx F IHF]; intros IH Wa R st; [constructor|].
      inversion IH; subst. inversion Wa; subst. cbn [map concat] in R. apply in_range_app in R as (R1 & R2). cbn [sems].
      eapply safe_bind; [eapply H1; eauto|]. intros [v st1] E1. eapply safe_bind; [eapply IHF; eauto|]. intros [vs st2] E2. cbn. constructor; assumption. }
    inversion Ht; subst.
    + eapply safe_bind; [apply V; eassumption|]. intros [vs st1] F. eapply safe_mono; [eapply (th_fun _ _ _ T); eauto|]. intros [v st2] E. exact E.
    + eapply safe_bind; [apply V; eassumption|]. intros [vs st1] F. assert (Lv : length vs = length ks) by (eapply Forall2_length; exact F).
      destruct vs as [|v vs]; [cbn in Lv; lia|].
      eapply safe_bind; [eapply (th_arr _ _ _ T); eauto|]. intros [[b' l] st2] ->. cbn. unfold var_of. destruct (dollar w); reflexivity.
Qed.

Lemma kind_num v k st : entry_kind v = Some k -> numeric k = true -> safe (fun _ => True) (value_num h st v).
Proof. destruct v as [| |[]|]; cbn; intros [= <-]; cbn; intros; auto; discriminate. Qed.
Lemma assign_safe lv v k k' st : entry_kind lv = Some k -> entry_kind v = Some k' -> numeric k = numeric k' -> (exists b l, lv = ER b l) -> safe (fun _ => True) (assign h lv v st).
Proof.
  intros A B C (b & l & ->). destruct b; cbn in A; injection A as <-; cbn [assign].
  - eapply (th_set _ _ _ T); [exact B|]. now rewrite <- C.
  - eapply safe_bind; [eapply kind_num; [exact B|now rewrite <- C]|]. cbn. auto.
Qed.
Lemma args_safe args : forall zs st, Forall2 arg_type args zs -> Forall afine args -> in_range (concat (map acode args)) -> safe (fun '(vs, _) => Forall2 shows vs zs) (asems h ref args st).
Proof.
  induction args as [|a args IH]; intros zs st F Af R; inversion F; subst; [constructor|]. inversion Af; subst. cbn [map concat] in R. apply in_range_app in R as (R1 & R2). cbn [asems].
  apply (safe_bind (fun '(v, _) => shows v y)).
  - destruct a as [e|w]; cbn [asem arg_type acode] in *.
    + destruct H1 as (k & Hk & ->). eapply safe_mono; [eapply typed_value; [apply H2|eauto|eauto]|]. intros [v st1] E. left. exists k. auto.
    + subst y. right. eauto.
  - intros [v st1] E1. eapply safe_bind; [apply IH; eauto|]. intros [vs st2] E2. cbn. constructor; assumption.
Qed.

Definition no_confusion (x : outcome (flow h)) : Prop := safe (fun f => match f with Call v _ _ => exists k, entry_kind v = Some k /\ numeric k = false | _ => True end) x.
Lemma goto_formats : alternatives (format_of cmd_format CMD_GOTO) = [[cL]; [cl_]] /\ alternatives (format_of cmd_format CMD_GOSUB) = [[cL]; [cl_]].
Proof. split; reflexivity. Qed.
(** the arguments of an accepted GOTO or GOSUB are labels *)
Lemma letter_string z : (z =? cS) || (z =? cs) || (z =? cL) = true -> z = cS \/ z = cs \/ z = cL.
Proof. rewrite !orb_true_iff, !Z.eqb_eq. tauto. Qed.
Lemma goto_args c zs : jumps c -> accepts (format_of cmd_format c) zs -> zs <> [] /\ Forall (fun z => z = cS \/ z = cs \/ z = cL) zs.
Proof.
  intros J (f & I & M). assert (A : alternatives (format_of cmd_format c) = [[cL]; [cl_]]) by (destruct goto_formats; destruct J as [-> | ->]; assumption). rewrite A in I. clear A J.
  destruct I as [<-|[<-|[]]]; destruct M as [M|[[M _]|[[_ M]|(g & x & a & b & E & -> & Nb & F & G)]]]; try discriminate.
  - inversion M; subst. inversion H3; subst. split; [discriminate|]. constructor; [|constructor]. apply letter_string. exact H1.
  - exfalso. destruct g as [|y g]; [|destruct g; discriminate]. injection E as <-. destruct b as [|z b]; [congruence|]. inversion G; subst. discriminate.
  - exfalso. inversion M; subst. discriminate.
  - destruct g as [|y g]; [|destruct g; discriminate]. injection E as <-. inversion F; subst. cbn [app]. split; [exact Nb|]. eapply Forall_impl; [|exact G]. intros z Hz. apply letter_string. exact Hz.
Qed.
Lemma shows_string (v : entry (Loc h)) z : shows v z -> z = cS \/ z = cs \/ z = cL -> exists k, entry_kind v = Some k /\ numeric k = false.
Proof.
  intros [(k & A & ->)|((w & ->) & ->)] S; [|exists Str; auto]. exists k. split; [exact A|]. destruct k; cbn in *; auto; unfold cN, cn, cS, cs, cL in S; cbn in S; lia.
Qed.
Lemma jump_safe c x st : jumps c -> safe (fun t => match t with Some v => exists k, entry_kind v = Some k /\ numeric k = false | None => True end) x ->
  no_confusion (if c =? CMD_GOTO then let* t := x in match t with Some v => let* i := lab v st in Ok (Jump i st) | None => Ok (Fall st) end
                else let* t := x in match t with Some v => Ok (Call v None st) | None => Ok (Fall st) end).
Proof.
  intros J S. unfold no_confusion. destruct (c =? CMD_GOTO); (eapply safe_bind; [exact S|]); intros [v|] E; cbn; auto.
  destruct E as (k & A & B). eapply safe_bind; [eapply (th_lab _ _ _ T); eauto|]. cbn. auto.
Qed.
Lemma perform_jump c vs st : jumps c -> perform h lab c vs st =
  if c =? CMD_GOTO then let* t := target h st vs in match t with Some v => let* i := lab v st in Ok (Jump i st) | None => Ok (Fall st) end
  else let* t := target h st vs in match t with Some v => Ok (Call v None st) | None => Ok (Fall st) end.
Proof. intros [-> | ->]; reflexivity. Qed.
Lemma perform_safe c vs zs st : ordinary c -> Forall2 shows vs zs -> accepts (format_of cmd_format c) zs -> no_confusion (perform h lab c vs st).
Proof.
  intros O F A. destruct (Z.eq_dec c CMD_GOTO) as [E1|N1]; [|destruct (Z.eq_dec c CMD_GOSUB) as [E2|N2]].
  1,2: assert (J : jumps c) by (unfold jumps; auto); rewrite perform_jump by exact J; apply jump_safe; [exact J|];
       destruct (goto_args c zs J A) as (Nz & Fz); destruct F as [|v z vs zs S F]; [congruence|]; inversion Fz; subst;
       destruct (shows_string v z S) as (k & Kv & Ks); [assumption|]; cbn [target]; destruct v as [| |[]|]; cbn in Kv; try discriminate Kv; injection Kv as <-; try discriminate Ks; cbn; eauto.
  unfold perform. apply Z.eqb_neq in N1, N2. rewrite N1, N2. destruct (c =? CMD_RETURN); [exact I|]. destruct (c =? CMD_END); [exact I|]. destruct (c =? CMD_STOP); [exact I|].
  eapply safe_bind; [eapply (th_cmd _ _ _ T); eauto|]. cbn. auto.
Qed.
Lemma plain_args args : Forall plain_label args -> forall st, exists ws, asems h ref args st = Ok (map (fun '(b, w) => ES b w) ws, st).
Proof.
  induction 1 as [|a args P F IH]; intros st; [exists []; reflexivity|]. destruct (IH st) as (ws & E).
  destruct a as [e|w]; cbn [asems asem plain_label] in *.
  - destruct P as (c & w & ->). exists ((false, w) :: ws). cbn [sem bind]. rewrite E. reflexivity.
  - exists ((true, w) :: ws). cbn [bind]. rewrite E. reflexivity.
Qed.
Lemma on_safe c v k ws st : jumps c -> entry_kind v = Some k -> numeric k = true -> no_confusion (perform h lab c (v :: map (fun '(b, w) => ES b w) ws) st).
Proof.
  intros J A B. rewrite perform_jump by exact J. apply jump_safe; [exact J|].
  assert (E : target h st (v :: map (fun '(b, w) => ES b w) ws) =
    let* x := value_num h st v in let n := x / 4096 in
    if (0 <=? n) && (n <? Z.of_nat (length (map (fun '(b, w) => @ES (Loc h) b w) ws))) then
      match nth_error (map (fun '(b, w) => ES b w) ws) (Z.to_nat n) with Some (ES b w) => Ok (Some (ES b w)) | Some (EO _) => Err ERR_SYNTAX | _ => UB end
    else Ok None) by (destruct v as [| |[]|]; cbn in A; try discriminate A; injection A as <-; try discriminate B; reflexivity).
  rewrite E. clear E. eapply safe_bind; [eapply kind_num; eauto|]. intros x _. cbv zeta. rewrite map_length.
  destruct ((0 <=? x / 4096) && (x / 4096 <? Z.of_nat (length ws))) eqn:C; [|exact I].
  assert (L : (Z.to_nat (x / 4096) < length ws)%nat) by (apply andb_true_iff in C; lia).
  rewrite nth_error_map. destruct (nth_error ws (Z.to_nat (x / 4096))) as [[b w]|] eqn:N; [|apply nth_error_None in N; lia]. cbn. exists Str. auto.
Qed.

Definition printable (v : entry (Loc h)) : Prop := entry_kind v <> None \/ v = EO OP_COMMA \/ v = EO OP_SEMICOLON.
Lemma osem_safe o st : otypable o -> match o with Some e => fine e | None => True end -> in_range (ocode o) -> safe (fun '(vs, _) => Forall printable vs) (osem h ref o st).
Proof.
  destruct o as [e|]; cbn [otypable osem ocode]; [|intros; constructor]. intros (k & Hk) (We & _) R. eapply safe_bind; [eapply typed_value; eauto|].
  intros [v st1] E. cbn. constructor; [|constructor]. left. cbn in E. congruence.
Qed.
Lemma isems_safe items : forall st, Forall (fun it => otypable (fst it)) items ->
  Forall (fun it => (snd it = OP_COMMA \/ snd it = OP_SEMICOLON) /\ match fst it with Some e => fine e | None => True end) items ->
  in_range (concat (map (fun it => ocode (fst it) ++ [op_tok (snd it) 1]) items)) -> safe (fun '(vs, _) => Forall printable vs) (isems h ref items st).
Proof.
  induction items as [|[o s] items IH]; intros st Ty Fn R; [constructor|]. inversion Ty; subst. inversion Fn as [|? ? [Ss Fo] Fn']; subst. cbn [fst snd] in *.
  cbn [map concat fst snd] in R. apply in_range_app in R as (R1 & R2). apply in_range_app in R1 as (R1 & _). cbn [isems].
  eapply safe_bind; [apply osem_safe; eassumption|]. intros [vs st1] F1. eapply safe_bind; [apply IH; assumption|]. intros [ws st2] F2. cbn. apply Forall_app. split; [exact F1|].
  constructor; [|exact F2]. right. destruct Ss as [-> | ->]; auto.
Qed.
Lemma lv_ref lv k st : is_lv lv -> has_type lv k -> safe (fun '(v, _) => exists b l, v = ER b l) (sem h ref lv st) \/ sem h ref lv st = UB.
Proof.
  intros L Ht. destruct lv as [kt c w| | | |fn c w b args]; try contradiction.
  - destruct kt; try contradiction. cbn [sem]. destruct (hvar h (ref false w) st) as [[[b l] st']| |]; cbn; eauto.
  - destruct fn; try contradiction. cbn [sem]. rewrite sems_eq. destruct (sems h ref args st) as [[vs st1]| |]; cbn [bind]; auto.
    destruct vs; [destruct (hvar h (ref true w) st1) as [[[b' l] st']| |]; cbn; eauto|]. destruct (harr h (ref true w) (e :: vs) st1) as [[[b' l] st']| |]; cbn; eauto.
Qed.

Lemma sems_safe args : Forall wfe args -> forall n ks st, Forall2 has_type args ks -> in_range (concat (map (rpn n) args)) ->
  safe (fun '(vs, _) => Forall2 (fun v k => entry_kind v = Some k) vs ks) (sems h ref args st).
Proof.
  induction 1 as [|x args Wx Wa IH]; intros n ks st F R; inversion F; subst; cbn [sems].
  - constructor.
  - cbn [map concat] in R. apply in_range_app in R as (R1 & R2). eapply safe_bind; [eapply typed_value; eauto|]. intros [v st1] E1. eapply safe_bind; [eapply IH; eauto|]. intros [vs st2] E2. cbn. constructor; assumption.
Qed.
Lemma dims_safe items : Forall (fun e => is_elem e /\ fine e) items -> Forall typable items -> in_range (concat (map dcode items)) -> forall st, safe (fun _ => True) (dims h ref items st).
Proof.
  induction 1 as [|e items (Ie & We & _) F IH]; intros Ty R st; cbn [dims]; [exact I|]. cbn [map concat] in R. apply in_range_app in R as (R1 & R2). destruct (Forall_inv Ty) as [k Hk].
  destruct e as [| | | |[] c w b args]; try contradiction. inversion Hk; subst. cbn [dim_sizes dim_name dcode] in *. apply in_range_app in R1 as (R1 & _). destruct We as (Wa & _). apply wfe_args in Wa.
  eapply safe_bind; [eapply sems_safe; eauto|]. intros [vs st1] E1. eapply safe_bind; [eapply (th_dim _ _ _ T); eauto|]. intros st2 _. apply IH; [apply (Forall_inv_tail Ty)|exact R2].
Qed.
Lemma stmt_safe first s st : wfs s -> basic s -> well_typed_stmt s -> plain_on s -> in_range (scode first s) -> no_confusion (exec_stmt h ref lab s st).
Proof.
  intros W B Ty P R. destruct s as [lv e|c args|e c args|items last|lv a b o|w|items]; cbn [exec_stmt].
  - destruct W as (L & (Wl & _) & (We & _)). destruct Ty as (k & k' & Hl & He & N). cbn [scode] in R. apply in_range_app in R as (R1 & R2). apply in_range_app in R2 as (R2 & _).
    unfold no_confusion. eapply (safe_bind (fun '(r, _) => entry_kind r = Some k /\ exists b l, r = ER b l)).
    + pose proof (typed_value lv Wl k 0 st Hl R1) as S1. destruct (lv_ref lv k st L Hl) as [S2|S2]; [|rewrite S2 in S1; contradiction].
      destruct (sem h ref lv st) as [[r st1]| |]; cbn in *; auto.
    + intros [r st1] (K1 & Rf). eapply safe_bind; [eapply typed_value; eauto|]. intros [v st2] K2. eapply safe_bind; [eapply assign_safe; eauto|]. cbn. auto.
  - destruct W as (O & Af). destruct Ty as (zs & F & A). cbn [scode] in R. apply in_range_app in R as (R1 & _).
    unfold no_confusion. eapply safe_bind; [eapply args_safe; eauto|]. intros [vs st1] S. eapply perform_safe; eauto.
  - destruct W as ((We & _) & O & Af). destruct Ty as ((k & Hk & Nk) & _). cbn [scode] in R. apply in_range_app in R as (R1 & _). cbn [basic] in B. cbn [plain_on] in P.
    unfold no_confusion. eapply safe_bind; [eapply typed_value; eauto|]. intros [v st1] Kv. destruct (plain_args args P st1) as (ws & ->). cbn [bind]. eapply on_safe; eauto.
  - destruct W as (Wi & Wl). destruct Ty as (Ti & Tl). cbn [scode] in R. apply in_range_app in R as (R1 & R2). apply in_range_app in R2 as (R2 & _).
    unfold no_confusion. eapply safe_bind; [apply isems_safe; eassumption|]. intros [vs st1] F1. eapply safe_bind; [apply osem_safe; eassumption|]. intros [ws st2] F2.
    eapply safe_bind; [apply (th_print _ _ _ T)|]. { apply Forall_app. split; assumption. } cbn. auto.
  - contradiction.
  - unfold no_confusion. eapply safe_bind; [eapply (th_lab _ _ _ T); [reflexivity|reflexivity]|]. cbn. auto.
  - unfold no_confusion. eapply safe_bind; [apply dims_safe; [apply W|exact Ty|exact R]|]. cbn. auto.
Qed.
Fixpoint plain_lin (l : lin) : Prop :=
  match l with LOne s => plain_on s | LSeq s l => plain_on s /\ plain_lin l | LIf _ t el => plain_lin t /\ match el with Some el => plain_lin el | None => True end end.
Lemma lin_safe l : forall first a t st, wfl a t l -> all_stmts (fun s => sspelled s /\ basic s) spelled l -> well_typed l -> plain_lin l -> in_range (lcode first l) -> no_confusion (exec_lin h ref lab l st).
Proof.
  revert l. fix IH 1. intros [s|s l|e t el] first a td st W Sp Ty P R.
  - cbn in *. eapply stmt_safe; intuition eauto.
  - cbn [wfl all_stmts well_typed plain_lin lcode exec_lin] in *. destruct W as (W1 & _ & _ & W2). destruct Sp as ((_ & B) & Sp). destruct Ty as (T1 & T2). destruct P as (P1 & P2). apply in_range_app in R as (R1 & R2).
    unfold no_confusion. eapply safe_bind; [eapply stmt_safe; eauto|]. intros [st1|i st1|v o st1|st1|st1] E; cbn [safe]; auto. eapply IH; eauto.
  - cbn [wfl all_stmts well_typed plain_lin lcode exec_lin] in *. destruct W as ((We & _) & Wt & Wl). destruct Sp as (_ & St_ & Sl). destruct Ty as ((k & Hk & Nk) & Tt & Tl). destruct P as (P1 & P2).
    apply in_range_app in R as (R0 & R). apply in_range_app in R as (_ & R). apply in_range_app in R as (R1 & R2).
    unfold no_confusion. eapply safe_bind; [eapply typed_value; eauto|]. intros [v st1] Kv. unfold truth.
    eapply (safe_bind (fun _ => True)); [eapply (safe_bind (fun _ => True)); [eapply kind_num; eauto|]; cbn; auto|]. intros [|] _.
    + eapply IH; eauto.
    + destruct el as [el|]; [|exact I]. destruct Wl as (Wl & _). change (cmd_tok CMD_ELSE :: lcode false el) with ([cmd_tok CMD_ELSE] ++ lcode false el) in R2. apply in_range_app in R2 as (_ & R2). eapply IH; eauto.
Qed.
End Sound.
