From Verif Require Import Base BaseLemmas Tokens ExprSpec ExprProofs EvalProofs StmtSpec.
Ltac Zify.zify_post_hook ::= Z.div_mod_to_equations.

(** * priorities of a line *)
Definition aptoks (a : arg_) : list token := match a with AE e => ptoks 0 e | AL w => [label_tok w] end.
Definition optoks (o : option expr) : list token := match o with Some e => ptoks 0 e | None => [] end.
Definition pcomma : token := op_tok OP_COMMA 1.
Definition sptoks (s : stmt) : list token :=
  match s with
  | SLet lv e => ptoks 0 lv ++ op_tok OP_ASSIGN 0 :: ptoks 0 e
  | SCmd c args => cmd_tok c :: sep pcomma (map aptoks args)
  | SOn e c args => cmd_tok CMD_ON :: ptoks 0 e ++ cmd_tok c :: sep pcomma (map aptoks args)
  | SPrint items last => cmd_tok CMD_PRINT :: concat (map (fun it => optoks (fst it) ++ [op_tok (snd it) 1]) items) ++ optoks last
  | SFor lv a b s => cmd_tok CMD_FOR :: ptoks 0 lv ++ op_tok OP_ASSIGN 0 :: ptoks 0 a ++ cmd_tok CMD_TO :: ptoks 0 b ++
      match s with Some s => cmd_tok CMD_STEP :: ptoks 0 s | None => [] end
  | SGo w => [label_tok w]
  | SDim items => cmd_tok CMD_DIM :: sep pcomma (map (ptoks 0) items)
  end.
Fixpoint lptoks (l : lin) : list token :=
  match l with
  | LOne s => sptoks s
  | LSeq s l => sptoks s ++ nl :: lptoks l
  | LIf e t el => cmd_tok CMD_IF :: ptoks 0 e ++ cmd_tok CMD_THEN :: lptoks t ++
      match el with Some el => cmd_tok CMD_ELSE :: lptoks el | None => [] end
  end.
Definition not_minus (e : expr) : Prop := starts_minus e = false.
Lemma lv_not_minus e : is_lv e -> starts_minus e = false.
Proof. destruct e as [k c w|e|o e|o l r|fn c w b args]; cbn; try contradiction; reflexivity. Qed.
Lemma prio_lv e : is_lv e -> fine e -> forall done r, (forall p d, done = p :: d -> ty p <> name) ->
  prio_loop done 0 (toks e ++ r) = prio_loop (rev (ptoks 0 e) ++ done) 0 r.
Proof.
  intros L [Wf D] done r Nn. destruct done as [|p d].
  - (* at the start of the line *)
    assert (G : forall x, prio_loop [] 0 (toks e ++ x) = match prio_loop [nl] 0 (toks e ++ x) with Ok l => Ok (tl l) | q => q end).
    { assert (Gen : forall l a n, a <> [] \/ match l with t :: _ => is_op t OP_SUBTRACT = false | [] => True end ->
          prio_loop a n l = match prio_loop (a ++ [nl]) n l with Ok l => Ok (tl l) | q => q end).
      { clear. induction l as [|t l IH]; intros a n Ne; cbn [prio_loop].
        - rewrite rev_app_distr. reflexivity.
        - assert (Q : forall x y z, (x : list token) <> [] -> prio_loop x y z = prio_loop x y z) by auto.
          assert (K : forall x y, x <> [] -> prio_loop x y l = match prio_loop (x ++ [nl]) y l with Ok l => Ok (tl l) | q => q end) by (intros x y Hx; apply IH; left; exact Hx).
          destruct (ty t) eqn:T; try (apply (K (_ :: _)); discriminate).
          destruct (cl t =? OP_SUBTRACT) eqn:S.
          + assert (a <> []) as Na by (destruct Ne as [Ne|Ne]; [exact Ne|]; unfold is_op, is_ty in Ne; rewrite T, S in Ne; discriminate Ne).
            destruct a as [|q a]; [contradiction|]. change (binary_minus ((q :: a) ++ [nl])) with (binary_minus (q :: a)). destruct (binary_minus (q :: a)) as [[|]| |]; cbn [bind]; try reflexivity; apply (K (_ :: _)); discriminate.
          + destruct ((cl t =? OP_OPEN_BRACKET) || (cl t =? OP_OPEN_PAREN)).
            * destruct a as [|q a]; [|cbn [app]; cbv zeta; apply (K (_ :: _ :: _)); discriminate]. cbn [app]. change (is_ty nl name) with false. cbv iota. apply (K [_]). discriminate.
            * destruct ((cl t =? OP_CLOSE_BRACKET) || (cl t =? OP_CLOSE_PAREN)); [apply (K (_ :: _)); discriminate|]. destruct (op_level (cl t)); apply (K (_ :: _)); discriminate. }
      intros x. apply (Gen (toks e ++ x) [] 0). right. destruct e as [k c w|e|o e|o l r0|fn c w b args]; cbn in L; try contradiction; [destruct k; try contradiction; reflexivity|destruct fn; [contradiction|reflexivity]]. }
    (* the same on the right hand side *)
    rewrite G. rewrite prio_expr; [|exact Wf| |lia|lia].
    2: { exists nl, []. split; [reflexivity|]. split; [intro Q; discriminate Q|]. intros _. reflexivity. }
    assert (Gen2 : forall l a n, a <> [] -> match prio_loop (a ++ [nl]) n l with Ok l => Ok (tl l) | q => q end = prio_loop a n l).
    { clear. induction l as [|t l IH]; intros a n Ne; cbn [prio_loop].
      - rewrite rev_app_distr. reflexivity.
      - destruct (ty t) eqn:T; try (apply (IH (_ :: _)); discriminate).
        destruct a as [|q a]; [contradiction|].
        destruct (cl t =? OP_SUBTRACT) eqn:S.
        + change (binary_minus ((q :: a) ++ [nl])) with (binary_minus (q :: a)). destruct (binary_minus (q :: a)) as [[|]| |]; cbn [bind]; try reflexivity; apply (IH (_ :: _)); discriminate.
        + destruct ((cl t =? OP_OPEN_BRACKET) || (cl t =? OP_OPEN_PAREN)); [cbn [app]; cbv zeta; apply (IH (_ :: _ :: _)); discriminate|].
          destruct ((cl t =? OP_CLOSE_BRACKET) || (cl t =? OP_CLOSE_PAREN)); [apply (IH (_ :: _)); discriminate|]. destruct (op_level (cl t)); apply (IH (_ :: _)); discriminate. }
    rewrite app_nil_r. apply Gen2. destruct (last_ptoks e Wf 0) as (l & t & -> & _). rewrite rev_app_distr. intro Q. discriminate Q.
  - apply prio_expr; auto; try lia. exists p, d. split; [reflexivity|]. split; [eapply Nn; reflexivity|]. rewrite lv_not_minus by exact L. intro Q. discriminate Q.
Qed.
(** an expression after a command, '=', a comma or semicolon *)
Definition after_ok (p : token) : Prop := ty p = command \/ (ty p = operation /\ cl p <= OP_OPEN_PAREN).
Lemma prio_after e p d r : fine e -> after_ok p -> prio_loop (p :: d) 0 (toks e ++ r) = prio_loop (rev (ptoks 0 e) ++ p :: d) 0 r.
Proof.
  intros [Wf D] A. apply prio_expr; auto; try lia. exists p, d. split; [reflexivity|]. split; [destruct A as [-> | [-> _]]; intro Q; discriminate Q|].
  intros _. unfold binary_minus, is_ty. destruct A as [-> | [-> L]]; cbn [tty_beq orb andb]; [reflexivity|]. replace (cl p >? OP_OPEN_PAREN) with false by lia. reflexivity.
Qed.
Lemma prio_cmd c d r : prio_loop d 0 (cmd_tok c :: r) = prio_loop (cmd_tok c :: d) 0 r. Proof. reflexivity. Qed.
Lemma prio_nl d r : prio_loop d 0 (nl :: r) = prio_loop (nl :: d) 0 r. Proof. reflexivity. Qed.
Lemma prio_assign d r : prio_loop d 0 (op_tok OP_ASSIGN 0 :: r) = prio_loop (op_tok OP_ASSIGN 0 :: d) 0 r. Proof. reflexivity. Qed.
Lemma prio_label w d r : prio_loop d 0 (label_tok w :: r) = prio_loop (label_tok w :: d) 0 r. Proof. reflexivity. Qed.
Lemma prio_sep o d r : o = OP_COMMA \/ o = OP_SEMICOLON -> prio_loop d 0 (op_tok o 0 :: r) = prio_loop (op_tok o 1 :: d) 0 r.
Proof. intros [-> | ->]; reflexivity. Qed.
Lemma after_cmd c : after_ok (cmd_tok c). Proof. left. reflexivity. Qed.
Lemma after_op o p : o <= OP_OPEN_PAREN -> after_ok (op_tok o p). Proof. intros L. right. split; [reflexivity|exact L]. Qed.
Lemma prio_arg a p d r : afine a -> after_ok p -> prio_loop (p :: d) 0 (atoks a ++ r) = prio_loop (rev (aptoks a) ++ p :: d) 0 r.
Proof. destruct a as [e|w]; cbn [afine atoks aptoks]; intros F A; [apply prio_after; assumption|reflexivity]. Qed.
Lemma sep_cons {A} (s : A) a b l : sep s (a :: b :: l) = a ++ s :: sep s (b :: l). Proof. reflexivity. Qed.
Lemma prio_args args : Forall afine args -> forall p d r, after_ok p ->
  prio_loop (p :: d) 0 (sep comma (map atoks args) ++ r) = prio_loop (rev (sep pcomma (map aptoks args)) ++ p :: d) 0 r.
Proof.
  induction args as [|a args IH]; intros F p d r A; [reflexivity|]. inversion F as [|? ? Fa F']; subst. destruct args as [|b args].
  - cbn [map sep]. apply prio_arg; assumption.
  - change (map atoks (a :: b :: args)) with (atoks a :: atoks b :: map atoks args). change (map aptoks (a :: b :: args)) with (aptoks a :: aptoks b :: map aptoks args).
    rewrite !sep_cons, <- app_assoc. rewrite prio_arg by assumption. cbn [app]. unfold comma at 1. rewrite prio_sep by auto.
    change (atoks b :: map atoks args) with (map atoks (b :: args)). change (op_tok OP_COMMA 1) with pcomma. rewrite IH; [|exact F'|apply after_op; intro Q; discriminate Q].
    change (aptoks b :: map aptoks args) with (map aptoks (b :: args)). rewrite rev_app_distr. cbn [rev]. rewrite <- !app_assoc. reflexivity.
Qed.
Lemma prio_opt o p d r : match o with Some e => fine e | None => True end -> after_ok p -> prio_loop (p :: d) 0 (otoks o ++ r) = prio_loop (rev (optoks o) ++ p :: d) 0 r.
Proof. destruct o as [e|]; intros F A; [apply prio_after; assumption|reflexivity]. Qed.
Lemma prio_items items : Forall (fun it => (snd it = OP_COMMA \/ snd it = OP_SEMICOLON) /\ match fst it with Some e => fine e | None => True end) items -> forall p d r, after_ok p ->
  exists p' d', after_ok p' /\ rev (concat (map (fun it => optoks (fst it) ++ [op_tok (snd it) 1]) items)) ++ p :: d = p' :: d' /\
  prio_loop (p :: d) 0 (concat (map (fun it => otoks (fst it) ++ [op_tok (snd it) 0]) items) ++ r) = prio_loop (p' :: d') 0 r.
Proof.
  induction items as [|[o s] items IH]; intros F p d r A; [exists p, d; auto|]. inversion F as [|? ? [Fs Fo] F']; subst. cbn [fst snd map concat] in *.
  destruct (IH F' (op_tok s 1) (rev (optoks o) ++ p :: d) r) as (p' & d' & A' & Q & G); [apply after_op; destruct Fs as [-> | ->]; intro Q; discriminate Q|].
  exists p', d'. split; [exact A'|]. split.
  - rewrite <- Q. rewrite !rev_app_distr. cbn [rev app]. rewrite <- !app_assoc. reflexivity.
  - rewrite <- G. rewrite <- !app_assoc. rewrite prio_opt by assumption. cbn [app]. rewrite prio_sep by exact Fs. reflexivity.
Qed.
Definition st_ok (done : list token) : Prop := forall p d, done = p :: d -> ty p <> name.
Lemma prio_stmt s : wfs s -> forall done r, st_ok done -> prio_loop done 0 (stoks s ++ r) = prio_loop (rev (sptoks s) ++ done) 0 r.
Proof.
  destruct s as [lv e|c args|e c args|items last|lv a b st|w|items]; cbn [wfs stoks sptoks]; intros Wf done r O.
  - destruct Wf as (L & F1 & F2). rewrite <- app_assoc, prio_lv by auto. cbn [app]. rewrite prio_assign, prio_after; [|exact F2|apply after_op; intro Q; discriminate Q].
    rewrite rev_app_distr. cbn [rev]. rewrite <- !app_assoc. reflexivity.
  - destruct Wf as (_ & F). cbn [app]. rewrite prio_cmd, prio_args by (auto using after_cmd). cbn [rev]. rewrite <- app_assoc. reflexivity.
  - destruct Wf as (F1 & _ & F). cbn [app]. rewrite prio_cmd, <- app_assoc, prio_after by (auto using after_cmd). cbn [app]. rewrite prio_cmd, prio_args by (auto using after_cmd).
    cbn [rev]. rewrite rev_app_distr. cbn [rev]. rewrite <- !app_assoc. reflexivity.
  - destruct Wf as (F & Fl). cbn [app]. rewrite prio_cmd, <- app_assoc.
    destruct (prio_items items F (cmd_tok CMD_PRINT) done (otoks last ++ r) (after_cmd _)) as (p' & d' & A' & Q & ->). rewrite prio_opt by assumption. rewrite <- Q.
    cbn [rev]. rewrite rev_app_distr, <- !app_assoc. reflexivity.
  - destruct Wf as (L & F1 & F2 & F3 & F4). cbn [app]. rewrite prio_cmd, <- app_assoc, prio_lv; [|exact L|exact F1|intros p d [= <- <-] Q; discriminate Q].
    cbn [app]. rewrite prio_assign, <- app_assoc, prio_after; [|exact F2|apply after_op; intro Q; discriminate Q]. cbn [app]. rewrite prio_cmd, <- app_assoc, prio_after by (auto using after_cmd).
    destruct st as [s|]; cbn [app].
    + rewrite prio_cmd, prio_after by (auto using after_cmd). cbn [rev]. rewrite !rev_app_distr. cbn [rev]. rewrite !rev_app_distr. cbn [rev]. rewrite !rev_app_distr. cbn [rev]. rewrite <- !app_assoc. reflexivity.
    + rewrite app_nil_r. cbn [rev]. rewrite !rev_app_distr. cbn [rev]. rewrite !rev_app_distr. cbn [rev]. rewrite <- !app_assoc. reflexivity.
  - reflexivity.
  - destruct Wf as (_ & F). assert (Fa : Forall afine (map AE items)) by (apply Forall_map; eapply Forall_impl; [|exact F]; cbn; intros e [_ Q]; exact Q).
    cbn [app]. rewrite prio_cmd. pose proof (prio_args _ Fa (cmd_tok CMD_DIM) done r (after_cmd _)) as G. rewrite !map_map in G. cbn [atoks aptoks] in G. etransitivity; [exact G|]. cbn [rev]. rewrite <- app_assoc. reflexivity.
Qed.
Lemma prio_lin l : forall after tidy, wfl after tidy l -> forall done r, st_ok done -> prio_loop done 0 (ltoks l ++ r) = prio_loop (rev (lptoks l) ++ done) 0 r.
Proof.
  assert (Oc : forall c d, st_ok (cmd_tok c :: d)) by (intros c d p q [= <- <-] Q; discriminate Q).
  revert l. fix IH 1. intros [s|s l|e t el] after tidy Wf done r O; cbn [wfl ltoks lptoks] in *.
  - destruct Wf as (Wf & _). apply prio_stmt; assumption.
  - destruct Wf as (Wf & _ & _ & Wl). rewrite <- app_assoc, prio_stmt by assumption. cbn [app]. rewrite prio_nl, (IH l _ _ Wl) by (intros p q [= <- <-] Q; discriminate Q).
    rewrite rev_app_distr. cbn [rev]. rewrite <- !app_assoc. reflexivity.
  - destruct Wf as (Fe & Wt & We). cbn [app]. rewrite prio_cmd, <- app_assoc, prio_after by (auto using after_cmd). cbn [app]. rewrite prio_cmd, <- app_assoc, (IH t _ _ Wt) by apply Oc.
    destruct el as [el|]; cbn [app].
    + destruct We as [We _]. rewrite prio_cmd, (IH el _ _ We) by apply Oc. cbn [rev]. rewrite !rev_app_distr. cbn [rev]. rewrite !rev_app_distr. cbn [rev]. rewrite <- !app_assoc. reflexivity.
    + rewrite app_nil_r. cbn [rev]. rewrite !rev_app_distr. cbn [rev]. rewrite <- !app_assoc. reflexivity.
Qed.
Lemma prio_line l : wfl false true l -> tok_prio (line_toks l) = Ok (lptoks l ++ [nl]).
Proof.
  intros Wf. unfold tok_prio, line_toks. rewrite (prio_lin l _ _ Wf) by (intros p d Q; discriminate Q). rewrite prio_nl, app_nil_r. cbn [prio_loop rev].
  rewrite rev_involutive. reflexivity.
Qed.
