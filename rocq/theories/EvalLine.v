From Verif Require Import Base BaseLemmas Tokens ExprSpec ExprProofs EvalProofs EvalDim StmtSpec StmtProofs.
Ltac Zify.zify_post_hook ::= Z.div_mod_to_equations.

(** * tok_eval on statements *)
Definition miscd (d : bool) (E : eval) (f i t : bool) : Prop :=
  argc_i E = 0 /\ length (argcs E) = 64%nat /\ is_sort E = false /\ is_dim E = d /\ is_for E = f /\ is_if E = i /\ implicit_commas E = t.
(** between operands: [o] waits, [r] is done *)
Definition atd (d : bool) (E : eval) (o r : list token) f i t : Prop := ops E = o /\ res E = r /\ miscd d E f i t.
Notation misc := (miscd false). Notation at_ := (atd false).
(** after an operand: emptying the stack down to priority 1 completes it *)
Definition pendd (d : bool) (E : eval) (o r : list token) f i t : Prop :=
  exists P R, ops E = P ++ o /\ res E = R /\ R ++ P = r /\ Forall (fun x => 2 <= prio x) P /\ miscd d E f i t.
Notation pend := (pendd false).
Lemma at_pend {d} E o r f i t : atd d E o r f i t -> pendd d E o r f i t.
Proof. intros (A & B & C). exists [], r. rewrite app_nil_r. auto. Qed.
Lemma misc_same {d} E E' f i t : miscd d E f i t -> same_flags E E' -> argc_same E E' -> miscd d E' f i t.
Proof. intros (A & B & C & D & F & G & K) (S1 & S2 & S3 & S4 & S5) (T1 & T2 & _). unfold miscd. rewrite T1, T2, S1, S2, S3, S4, S5. auto 10. Qed.
(** waiting commands and '=' have priority 0 *)
Definition zero (o : list token) : Prop := (length o <= 1)%nat /\ Forall (fun x => prio x = 0) o.
Lemma zero_topless o k : zero o -> 0 < k -> topless o k.
Proof. intros [_ Z] K. destruct Z as [|x o Hx]; cbn; [exact I|lia]. Qed.

Lemma eval_expr e E prev r o rs f i t : fine e -> at_ E o rs f i t -> zero o -> start_prev prev -> (size e <= 99)%nat ->
  exists E' q, ev_loop E prev (ptoks 0 e ++ r) = ev_loop E' (Some q) r /\ pend E' o (rs ++ rpn 0 e) f i t /\ end_prev q.
Proof.
  intros [Wf D] (Eo & Er & M) Z Sp Sz. pose proof M as (A1 & A2 & A3 & A4 & _). pose proof (lim_range e Wf) as [L1 L2]. pose proof (prec_range e Wf) as L3.
  destruct (run_expr e Wf 0 E prev r) as (E' & q & P & R & G & G1 & G2 & G3 & G4 & G5 & G6 & G7 & _); try lia; auto.
  - rewrite Eo. apply zero_topless; [exact Z|lia].
  - rewrite A4. intro Q. discriminate Q.
  - rewrite Eo. destruct Z. lia.
  - exists E', q. split; [exact G|]. split; [|exact G7]. exists P, (rs ++ R). rewrite G1, Eo. split; [reflexivity|]. rewrite G2, Er. split; [reflexivity|]. split; [rewrite <- G3, app_assoc; reflexivity|].
    split; [|eapply misc_same; eauto]. eapply Forall_impl; [|exact G4]. cbn. intros x. lia.
Qed.
(** the lvalue at the start of a statement: there may be no token before it *)
Definition lv_prev (prev : option token) : Prop := match prev with Some q => ty q <> name /\ ty q <> function /\ ty q <> dim_arr | None => True end.
Lemma ev_prev_none e E r : is_lv e -> ev_loop E None (ptoks 0 e ++ r) = ev_loop E (Some nl) (ptoks 0 e ++ r).
Proof.
  destruct e as [k c w|e|o e|o l rr|fn c w b args]; cbn [is_lv]; try contradiction.
  - destruct k; try contradiction. intros _. reflexivity.
  - destruct fn; [contradiction|]. intros _. reflexivity.
Qed.
Lemma eval_lv e E prev r o rs f i t : is_lv e -> fine e -> at_ E o rs f i t -> zero o -> lv_prev prev -> (size e <= 99)%nat ->
  exists E' q, ev_loop E prev (ptoks 0 e ++ r) = ev_loop E' (Some q) r /\ pend E' o (rs ++ rpn 0 e) f i t /\ end_prev q.
Proof.
  intros L F A Z Lp S. destruct prev as [q|]; [|rewrite ev_prev_none by exact L]; apply eval_expr; auto. cbn. repeat split; intro Q; discriminate Q.
Qed.

Lemma pend_clean1 {d} E o r f i t : pendd d E o r f i t -> zero o -> clean_stack E 1 = set_ops E o r.
Proof.
  intros (P & R & Eo & Er & Err & F & M) Z. rewrite (clean_stack_app E P o 1 Eo); [rewrite Er, Err; reflexivity| |apply zero_topless; [exact Z|lia]].
  eapply Forall_impl; [|exact F]. cbn. intros; lia.
Qed.
Lemma pend_clean0 {d} E o r f i t : pendd d E o r f i t -> zero o -> clean_stack E 0 = set_ops E [] (r ++ o).
Proof.
  intros (P & R & Eo & Er & Err & F & M) [_ Z]. rewrite (clean_stack_app E (P ++ o) [] 0); [rewrite Er, <- Err, app_assoc; reflexivity|rewrite app_nil_r; exact Eo| |exact I].
  apply Forall_app. split; [eapply Forall_impl; [|exact F]; cbn; intros; lia|eapply Forall_impl; [|exact Z]; cbn; intros; lia].
Qed.
Lemma pend_misc {d} E o r f i t : pendd d E o r f i t -> miscd d E f i t. Proof. intros (P & R & _ & _ & _ & _ & M). exact M. Qed.
Lemma misc_set E o r f i t : misc E f i t -> misc (set_ops E o r) f i t. Proof. exact (fun x => x). Qed.

(** '=' *)
Lemma ev_assign E prev r o rs f i t : pend E o rs f i t -> zero o ->
  exists E', ev_loop E prev (op_tok OP_ASSIGN 0 :: r) = ev_loop E' (Some (op_tok OP_ASSIGN 0)) r /\ at_ E' [op_tok OP_ASSIGN 0] (rs ++ o) f i t.
Proof.
  intros A Z. eexists. split.
  - apply loop_step. rewrite step_is_zero by reflexivity. unfold ev_zero. cbn [op_tok prio cl]. change (OP_ASSIGN =? OP_ASSIGN) with true. cbv iota.
    rewrite (pend_clean0 _ _ _ _ _ _ A Z). unfold push_op. cbn [ops set_ops length]. cbn [bind]. reflexivity.
  - split; [reflexivity|]. split; [reflexivity|]. apply (pend_misc _ _ _ _ _ _ A).
Qed.
(** commands that are pushed *)
Definition at_first (prev : option token) : bool := match prev with None => true | Some q => is_ty q newline end.
Lemma ev_push_cmd E o rs f i t b c : pend E o rs f i t -> zero o ->
  exists E', ev_push E (mk (if b : bool then first_of_line_command else command) c 0 []) = Ok (E', mk (if b then first_of_line_command else command) c 0 [], false) /\
   at_ E' [mk (if b then first_of_line_command else command) c 0 []] (rs ++ o) f i t.
Proof.
  intros A Z. unfold ev_push. cbn [prio level]. change (level (mk (if b then first_of_line_command else command) c 0 []) =? 6) with false. cbn [b2z]. rewrite Z.add_0_r.
  assert (G : (if match ops E with [] => true | x :: _ => prio x <? 0 end then E else clean_stack E 0) = set_ops E [] (rs ++ o)).
  { rewrite <- (pend_clean0 _ _ _ _ _ _ A Z). destruct A as (P & R & Eo & Er & Err & F & M). destruct Z as [_ Z]. destruct (ops E) as [|x l] eqn:Q.
    - unfold clean_stack. rewrite Q. cbn [clean]. rewrite <- Q, set_ops_same. reflexivity.
    - assert (0 <= prio x). { assert (K : In x (P ++ o)) by (rewrite <- Eo; left; reflexivity). apply in_app_or in K. rewrite Forall_forall in F, Z. destruct K as [K|K]; [specialize (F _ K); lia|specialize (Z _ K); lia]. }
      replace (prio x <? 0) with false by lia. reflexivity. }
  rewrite G. replace (negb (is_ty _ operation)) with true by (destruct b; reflexivity). cbn [orb]. unfold push_op. cbn [set_ops ops length]. cbn [bind].
  eexists. split; [reflexivity|]. split; [reflexivity|]. split; [reflexivity|]. apply (pend_misc _ _ _ _ _ _ A).
Qed.
Lemma retag_first prev c : (if match prev with None => true | Some q => is_ty q newline end then retag (cmd_tok c) first_of_line_command else cmd_tok c) = mk (if at_first prev then first_of_line_command else command) c 0 [].
Proof. unfold at_first. destruct prev as [q|]; [destruct (is_ty q newline)|]; reflexivity. Qed.
Lemma step_cmd E prev c nx : ev_step E prev (cmd_tok c) nx = ev_command E prev (cmd_tok c).
Proof. unfold ev_step. reflexivity. Qed.
(** what a command sets before being pushed *)
Definition for_flag (c : Z) (f : bool) : bool := if c =? CMD_FOR then true else f.
Lemma pend_flags E o rs f i t f' i' t' : pend E o rs f i t -> pend (set_flags E f' false i' false t') o rs f' i' t'.
Proof. intros (P & R & Eo & Er & Err & F & M). exists P, R. split; [exact Eo|]. split; [exact Er|]. split; [exact Err|]. split; [exact F|]. destruct M as (A1 & A2 & _). repeat split; assumption. Qed.
Lemma flags_same E f i t : misc E f i t -> set_flags E f false i false t = E.
Proof. intros (A1 & A2 & A3 & A4 & A5 & A6 & A7). destruct E. cbn in *. subst. reflexivity. Qed.
(** FOR / IF / PRINT *)
Lemma ev_flag_cmd E prev r o rs f i t c : pend E o rs f i t -> zero o -> c = CMD_FOR \/ c = CMD_IF \/ c = CMD_PRINT ->
  exists E', ev_loop E prev (cmd_tok c :: r) = ev_loop E' (Some (cmd_code (at_first prev) c)) r /\
    at_ E' [cmd_code (at_first prev) c] (rs ++ o) (if c =? CMD_FOR then true else f) (if c =? CMD_IF then true else i) (if c =? CMD_PRINT then false else t).
Proof.
  intros A Z C. pose proof (pend_misc _ _ _ _ _ _ A) as (M1 & M2 & M3 & M4 & M5 & M6 & M7).
  destruct (ev_push_cmd (set_flags E (if c =? CMD_FOR then true else f) false (if c =? CMD_IF then true else i) false (if c =? CMD_PRINT then false else t)) o rs
     (if c =? CMD_FOR then true else f) (if c =? CMD_IF then true else i) (if c =? CMD_PRINT then false else t) (at_first prev) c (pend_flags _ _ _ _ _ _ _ _ _ A) Z) as (E' & G & At).
  exists E'. split; [|exact At]. apply loop_step. rewrite step_cmd. unfold ev_command. cbn [cl cmd_tok].
  destruct C as [-> | [-> | ->]]; cbn in *; rewrite retag_first; rewrite ?M4, ?M5, ?M6, ?M7, ?M3 in *; exact G.
Qed.
(** other commands, when no FOR is open *)
Lemma ev_plain_cmd E prev r o rs i t c : pend E o rs false i t -> zero o -> ordinary c ->
  exists E', ev_loop E prev (cmd_tok c :: r) = ev_loop E' (Some (cmd_code (at_first prev) c)) r /\ at_ E' [cmd_code (at_first prev) c] (rs ++ o) false i t.
Proof.
  intros A Z C. pose proof (pend_misc _ _ _ _ _ _ A) as M. pose proof M as (M1 & M2 & M3 & M4 & M5 & M6 & M7).
  destruct (ev_push_cmd E o rs false i t (at_first prev) c A Z) as (E' & G & At). exists E'. split; [|exact At]. apply loop_step. rewrite step_cmd. unfold ev_command. cbn [cl cmd_tok].
  unfold ordinary in C. cbn [In] in C.
  replace (c =? CMD_DIM) with false by lia. replace (c =? CMD_PRINT) with false by lia. replace (c =? CMD_FOR) with false by lia. replace (c =? CMD_IF) with false by lia.
  replace (c =? CMD_THEN) with false by lia. replace (c =? CMD_ELSE) with false by lia. replace ((c =? CMD_SORT) || (c =? CMD_RSORT)) with false by lia. replace (c =? CMD_DATA) with false by lia.
  cbv zeta. cbn [set_flags is_for]. rewrite M5. cbn [andb]. rewrite retag_first. change (mk (if at_first prev then first_of_line_command else command) c 0 []) with (cmd_code (at_first prev) c) in *.
  rewrite M6, M3, M7, (flags_same E false i t M). exact G.
Qed.
(** TO / STEP *)
Lemma ev_to_cmd E prev r o rs i t c : pend E o rs true i t -> zero o -> c = CMD_TO \/ c = CMD_STEP -> at_first prev = false ->
  exists E', ev_loop E prev (cmd_tok c :: r) = ev_loop E' (Some (cmd_tok c)) r /\ at_ E' [cmd_tok c] (rs ++ o) true i t.
Proof.
  intros A Z C Pf. pose proof (pend_misc _ _ _ _ _ _ A) as M. pose proof M as (M1 & M2 & M3 & M4 & M5 & M6 & M7).
  destruct (ev_push_cmd E o rs true i t false c A Z) as (E' & G & At). exists E'. split; [|exact At]. apply loop_step. rewrite step_cmd. unfold ev_command. cbn [cl cmd_tok].
  unfold at_first in Pf. destruct C as [-> | ->]; cbn; rewrite ?M3, ?M5, ?M6, ?M7; cbn; rewrite Pf; rewrite (flags_same E true i t M); exact G.
Qed.
Lemma ev_then E prev r o rs f i t : pend E o rs f i t -> zero o ->
  exists E', ev_loop E prev (cmd_tok CMD_THEN :: r) = ev_loop E' (Some (cmd_tok CMD_THEN)) r /\ at_ E' [] (rs ++ o) f i t.
Proof.
  intros A Z. exists (set_ops E [] (rs ++ o)). split; [|split; [reflexivity|]; split; [reflexivity|]; apply (pend_misc _ _ _ _ _ _ A)].
  apply loop_step. rewrite step_cmd. unfold ev_command. cbn. rewrite (pend_clean0 _ _ _ _ _ _ A Z). reflexivity.
Qed.
Lemma ev_else E prev r o rs f i t : pend E o rs f i t -> zero o ->
  exists E', ev_loop E prev (cmd_tok CMD_ELSE :: r) = ev_loop E' (Some (cmd_tok CMD_ELSE)) r /\ at_ E' [] ((rs ++ o) ++ [cmd_tok CMD_ELSE]) f i t.
Proof.
  intros A Z. eexists. split; [|split; [|split]]; cycle 1. 
  4: { apply loop_step. rewrite step_cmd. unfold ev_command. cbn. rewrite (pend_clean0 _ _ _ _ _ _ A Z). reflexivity. }
  - reflexivity. - reflexivity. - apply (pend_misc _ _ _ _ _ _ A).
Qed.
Lemma ev_nl {d} E prev r o rs f i t : pendd d E o rs f i t -> zero o ->
  exists E', ev_loop E prev (nl :: r) = ev_loop E' (Some nl) r /\ at_ E' [] ((rs ++ o) ++ (if f then [loop_token] else [])) false i true.
Proof.
  intros A Z. pose proof (pend_misc _ _ _ _ _ _ A) as (M1 & M2 & M3 & M4 & M5 & M6 & M7). exists (ev_newline E). split.
  - apply loop_step. reflexivity.
  - unfold ev_newline. rewrite (pend_clean0 _ _ _ _ _ _ A Z). cbv zeta. cbn [set_flags set_ops is_for is_if is_sort]. rewrite M5.
    destruct f; unfold atd, miscd; cbn; rewrite ?app_nil_r; auto 12.
Qed.
Lemma ev_label E prev r rs w o f i t : at_ E o rs f i t -> prev <> None ->
  exists E', ev_loop E prev (label_tok w :: r) = ev_loop E' (Some (mk label_string (Z.of_nat (length w)) 0 w)) r /\ at_ E' o (rs ++ [mk label_string (Z.of_nat (length w)) 0 w]) f i t.
Proof.
  intros (A1 & A2 & M) Np. destruct prev as [q|]; [|contradiction]. eexists. split; [apply loop_step; reflexivity|]. split; [exact A1|]. split; [|exact M]. cbn. rewrite A2. reflexivity.
Qed.
(** comma or semicolon outside brackets *)
Lemma ev_sep {d} E q r o rs f i t s : pendd d E o rs f i t -> zero o -> s = OP_COMMA \/ s = OP_SEMICOLON ->
  (t = true -> s = OP_COMMA /\ rs <> [] /\ level q <> 1 /\ exists x y, r = x :: y /\ ty x <> newline) ->
  exists E', ev_loop E (Some q) (op_tok s 1 :: r) = ev_loop E' (Some (op_tok s 1)) r /\ atd d E' o (if t then rs else rs ++ [op_tok s 1]) f i t.
Proof.
  intros A Z S T. pose proof (pend_misc _ _ _ _ _ _ A) as M. pose proof M as (M1 & M2 & M3 & M4 & M5 & M6 & M7).
  assert (St : forall nx, ev_step E (Some q) (op_tok s 1) nx = ev_comma E (Some q) (op_tok s 1) nx) by (intros nx; destruct S as [-> | ->]; reflexivity).
  assert (Ao : argc_ok E) by (split; [exact M2|lia]).
  set (E1 := set_argc E (argc_i E) (upd (argcs E) (Z.to_nat (argc_i E)) (u8 (nth (Z.to_nat (argc_i E)) (argcs E) 0 + 1)))).
  assert (A1 : pendd d E1 o rs f i t).
  { destruct A as (P & R & Eo & Er & Err & F & _). exists P, R. split; [exact Eo|]. split; [exact Er|]. split; [exact Err|]. split; [exact F|].
    unfold miscd, E1. cbn. rewrite upd_length. auto 10. }
  assert (Ev : forall nx, ev_comma E (Some q) (op_tok s 1) nx =
     (if t then if s =? OP_SEMICOLON then Ok (push_res (set_ops E1 o rs) (op_tok s 1), op_tok s 1, false)
       else match rs with [] => Ok (push_res (set_ops E1 o rs) (op_tok s 1), op_tok s 1, false)
            | _ => match nx with None => UB | Some n => if is_ty n newline || (level q =? 1) then Ok (push_res (set_ops E1 o rs) (op_tok s 1), op_tok s 1, false) else Ok (set_ops E1 o rs, op_tok s 1, false) end end
      else Ok (push_res (set_ops E1 o rs) (op_tok s 1), op_tok s 1, false))).
  { intros nx. unfold ev_comma. rewrite argc_get_ok by exact Ao. cbn [bind]. rewrite argc_put_ok by exact Ao. cbn [bind]. fold E1. cbn [op_tok prio cl].
    rewrite (pend_clean1 _ _ _ _ _ _ A1 Z). cbn [set_ops implicit_commas res]. change (implicit_commas E1) with (implicit_commas E). rewrite M7. reflexivity. }
  destruct t.
  - destruct (T eq_refl) as (-> & Nr & Lq & x & y & -> & Tx). exists (set_ops E1 o rs). split.
    + apply loop_step. cbn [hd_error]. rewrite St, Ev. change (OP_COMMA =? OP_SEMICOLON) with false. cbv iota. destruct rs; [contradiction|].
      replace (is_ty x newline) with false by (unfold is_ty; destruct (ty x); try reflexivity; destruct (Tx eq_refl)). replace (level q =? 1) with false by lia. reflexivity.
    + split; [reflexivity|]. split; [reflexivity|]. apply (pend_misc _ _ _ _ _ _ A1).
  - exists (push_res (set_ops E1 o rs) (op_tok s 1)). split; [apply loop_step; rewrite St, Ev; reflexivity|]. split; [reflexivity|]. split; [reflexivity|]. apply (pend_misc _ _ _ _ _ _ A1).
Qed.

(** * statements *)
Lemma ptoks_first e n : wfe e -> exists x y, ptoks n e = x :: y /\ ty x <> newline.
Proof.
  revert n. induction e as [k c w|e IH|o e IH|o l r IHl IHr|fn c w b args IH] using expr_ind2; intros n Wf; cbn [ptoks wfe] in *.
  - eexists _, _. split; [reflexivity|]. cbn. destruct k; try discriminate; intro Q; discriminate Q.
  - eexists _, _. split; [reflexivity|]. intro Q. discriminate Q.
  - eexists _, _. split; [reflexivity|]. intro Q. discriminate Q.
  - destruct Wf as (_ & Wl & _). destruct (IHl n Wl) as (x & y & -> & T). eexists _, _. split; [reflexivity|exact T].
  - eexists _, _. split; [reflexivity|]. destruct fn; intro Q; discriminate Q.
Qed.
Lemma aptoks_first a : afine a -> exists x y, aptoks a = x :: y /\ ty x <> newline.
Proof. destruct a as [e|w]; intros F; [apply ptoks_first; apply F|]. eexists _, _. split; [reflexivity|]. intro Q. discriminate Q. Qed.
Lemma rpn_nonempty e n : rpn n e <> [].
Proof.
  revert n. induction e as [k c w|e IH|o e IH|o l r IHl IHr|fn c w b args IH] using expr_ind2; intros n; cbn [rpn].
  - discriminate. - apply IH.
  - intro Q. apply app_eq_nil in Q. destruct Q as [_ Q]. discriminate Q.
  - intro Q. apply app_eq_nil in Q. destruct Q as [_ Q]. apply app_eq_nil in Q. destruct Q as [_ Q]. discriminate Q.
  - intro Q. apply app_eq_nil in Q. destruct Q as [_ Q]. discriminate Q.
Qed.
Lemma acode_nonempty a : acode a <> []. Proof. destruct a; cbn; [apply rpn_nonempty|discriminate]. Qed.
Definition asize (a : arg_) : nat := length (atoks a).
Lemma eval_arg a E q r o rs f i t : afine a -> at_ E o rs f i t -> zero o -> start_prev (Some q) -> (asize a <= 99)%nat ->
  exists E' q', ev_loop E (Some q) (aptoks a ++ r) = ev_loop E' (Some q') r /\ pend E' o (rs ++ acode a) f i t /\ level q' = 0 /\ ty q' <> newline.
Proof.
  intros F A Z S L. destruct a as [e|w]; cbn [aptoks acode afine asize atoks] in *.
  - destruct (eval_expr e E (Some q) r o rs f i t F A Z S L) as (E' & q' & G & P & (_ & L1 & L2)). exists E', q'. auto.
  - cbn [app]. destruct (ev_label E (Some q) r rs w o f i t A) as (E' & G & A'); [discriminate|]. eexists E', _. split; [exact G|]. split; [apply at_pend; exact A'|]. split; [reflexivity|intro Q; discriminate Q].
Qed.
Lemma start_cmd b c : start_prev (Some (cmd_code b c)). Proof. unfold cmd_code. destruct b; cbn; repeat split; intro Q; discriminate Q. Qed.
Lemma start_op1 o p : start_prev (Some (op_tok o p)). Proof. cbn. repeat split; intro Q; discriminate Q. Qed.
Lemma eval_args args : Forall afine args -> forall E q r o rs f i t, at_ E o rs f i t -> zero o -> start_prev (Some q) -> ty q <> newline ->
  (length (sep comma (map atoks args)) <= 99)%nat -> ((2 <= length args)%nat -> t = true) ->
  exists E' q', ev_loop E (Some q) (sep pcomma (map aptoks args) ++ r) = ev_loop E' (Some q') r /\ pend E' o (rs ++ concat (map acode args)) f i t /\ ty q' <> newline.
Proof.
  induction args as [|a args IH]; intros F E q r o rs f i t A Z S Nq L T.
  - exists E, q. cbn. rewrite app_nil_r. split; [reflexivity|]. split; [apply at_pend; exact A|exact Nq].
  - inversion F as [|? ? Fa F']; subst. destruct args as [|b args].
    + cbn [map sep concat] in *. rewrite app_nil_r. destruct (eval_arg a E q r o rs f i t Fa A Z S L) as (E' & q' & G & P & _ & N). eauto.
    + assert (t = true) as -> by (apply T; cbn [length]; lia).
      change (map aptoks (a :: b :: args)) with (aptoks a :: aptoks b :: map aptoks args). change (map atoks (a :: b :: args)) with (atoks a :: atoks b :: map atoks args) in L.
      rewrite sep_cons in *. rewrite app_length in L. cbn [length] in L. rewrite <- app_assoc.
      destruct (eval_arg a E q ((pcomma :: sep pcomma (aptoks b :: map aptoks args)) ++ r) o rs f i true Fa A Z S) as (E1 & q1 & G1 & P1 & L1 & N1); [unfold asize; lia|].
      rewrite G1. clear G1. rewrite <- app_comm_cons.
      destruct (ev_sep E1 q1 (sep pcomma (aptoks b :: map aptoks args) ++ r) o (rs ++ acode a) f i true OP_COMMA P1 Z) as (E2 & G2 & A2); [auto| |].
      { intros _. split; [reflexivity|]. split; [intro Q; apply app_eq_nil in Q; destruct Q as [_ Q]; exact (acode_nonempty a Q)|]. split; [rewrite L1; discriminate|].
        inversion F' as [|? ? Fb _]; subst. destruct (aptoks_first b Fb) as (x & y & Eq & Tx). rewrite Eq. destruct args; cbn [map sep app]; eauto. }
      unfold pcomma at 1. rewrite G2. clear G2. change (aptoks b :: map aptoks args) with (map aptoks (b :: args)).
      destruct (IH F' E2 (op_tok OP_COMMA 1) r o (rs ++ acode a) f i true A2 Z) as (E3 & q3 & G3 & P3 & N3); [apply start_op1|intro Q; discriminate Q|cbn [map] in *; lia|auto|].
      exists E3, q3. split; [exact G3|]. split; [|exact N3]. cbn [map concat] in *. rewrite <- app_assoc in P3. exact P3.
Qed.
Lemma eval_opt e E q r o rs f i t : match e with Some e => fine e | None => True end -> at_ E o rs f i t -> zero o -> start_prev (Some q) -> (length (otoks e) <= 99)%nat ->
  exists E' q', ev_loop E (Some q) (optoks e ++ r) = ev_loop E' (Some q') r /\ pend E' o (rs ++ ocode e) f i t.
Proof.
  intros F A Z S L. destruct e as [e|]; cbn [optoks ocode otoks] in *.
  - destruct (eval_expr e E (Some q) r o rs f i t F A Z S L) as (E' & q' & G & P & _). eauto.
  - exists E, q. rewrite app_nil_r. split; [reflexivity|apply at_pend; exact A].
Qed.
Lemma eval_items items : Forall (fun it => (snd it = OP_COMMA \/ snd it = OP_SEMICOLON) /\ match fst it with Some e => fine e | None => True end) items -> forall E q r o rs f i,
  at_ E o rs f i false -> zero o -> start_prev (Some q) -> (length (concat (map (fun it => otoks (fst it) ++ [op_tok (snd it) 0]) items)) <= 99)%nat ->
  exists E' q', ev_loop E (Some q) (concat (map (fun it => optoks (fst it) ++ [op_tok (snd it) 1]) items) ++ r) = ev_loop E' (Some q') r /\
    at_ E' o (rs ++ concat (map (fun it => ocode (fst it) ++ [op_tok (snd it) 1]) items)) f i false /\ start_prev (Some q').
Proof.
  induction items as [|[e s] items IH]; intros F E q r o rs f i A Z S L.
  - exists E, q. cbn. rewrite app_nil_r. auto.
  - inversion F as [|? ? [Fs Fe] F']; subst. cbn [fst snd map concat] in *. rewrite !app_length in L. cbn [length] in L. rewrite <- !app_assoc.
    destruct (eval_opt e E q ([op_tok s 1] ++ concat (map (fun it => optoks (fst it) ++ [op_tok (snd it) 1]) items) ++ r) o rs f i false Fe A Z S) as (E1 & q1 & G1 & P1); [lia|].
    rewrite G1. cbn [app]. destruct (ev_sep E1 q1 (concat (map (fun it => optoks (fst it) ++ [op_tok (snd it) 1]) items) ++ r) o (rs ++ ocode e) f i false s P1 Z Fs) as (E2 & G2 & A2); [intro Q; discriminate Q|].
    rewrite G2. destruct (IH F' E2 (op_tok s 1) r o _ f i A2 Z (start_op1 _ _)) as (E3 & q3 & G3 & A3 & S3); [lia|]. exists E3, q3. split; [exact G3|]. split; [|exact S3].
    rewrite <- !app_assoc in A3. exact A3.
Qed.
Lemma zero_nil : zero []. Proof. split; [cbn; lia|constructor]. Qed.
(** DIM *)
Lemma ev_dim_cmd E prev r rs i t : at_ E [] rs false i t ->
  exists E', ev_loop E prev (cmd_tok CMD_DIM :: r) = ev_loop E' (Some (cmd_tok CMD_DIM)) r /\ atd true E' [] rs false i t.
Proof.
  intros (A1 & A2 & M1 & M2 & M3 & M4 & M5 & M6 & M7). eexists. split; [apply loop_step; rewrite step_cmd; reflexivity|]. split; [exact A1|]. split; [exact A2|]. repeat split; assumption.
Qed.
Lemma eval_dim e E prev r rs f i t : is_elem e -> fine e -> atd true E [] rs f i t -> (size e <= 99)%nat ->
  exists E' q, ev_loop E prev (ptoks 0 e ++ r) = ev_loop E' (Some q) r /\ pendd true E' [] (rs ++ dcode e) f i t /\ end_prev q.
Proof.
  destruct e as [| | | |[] c w b [|a args]]; try contradiction. intros _ [Wf D] (Eo & Er & M) Sz. pose proof M as (A1 & A2 & A3 & A4 & _).
  destruct (run_dim c w b (a :: args) Wf ltac:(discriminate) E prev r) as (E' & q & P & R & G & G1 & G2 & G3 & G4 & G5 & G6 & G7); try lia; auto.
  - rewrite Eo. exact I.
  - rewrite Eo. cbn [length]. lia.
  - exists E', q. split; [exact G|]. split; [|exact G7]. exists P, (rs ++ R). rewrite G1, Eo. split; [reflexivity|]. rewrite G2, Er. split; [reflexivity|]. split; [rewrite <- G3, app_assoc; reflexivity|].
    split; [|eapply misc_same; eauto]. eapply Forall_impl; [|exact G4]. cbn. intros x. lia.
Qed.
Lemma dcode_nonempty e : is_elem e -> dcode e <> [].
Proof. destruct e as [| | | |[] c w b [|a args]]; try contradiction. intros _ Q. apply app_eq_nil in Q. destruct Q as [_ Q]. discriminate Q. Qed.
Lemma eval_dims items : forall e, Forall (fun e => is_elem e /\ fine e) (e :: items) -> forall E q r rs i t, atd true E [] rs false i t ->
  (length (sep comma (map toks (e :: items))) <= 99)%nat -> ((2 <= length (e :: items))%nat -> t = true) ->
  exists E' q', ev_loop E (Some q) (sep pcomma (map (ptoks 0) (e :: items)) ++ r) = ev_loop E' (Some q') r /\ pendd true E' [] (rs ++ concat (map dcode (e :: items))) false i t.
Proof.
  induction items as [|x items IH]; intros e F E q r rs i t A L T; inversion F as [|? ? [Fe1 Fe2] F']; subst.
  - cbn [map sep concat] in *. destruct (eval_dim e E (Some q) r rs false i t Fe1 Fe2 A) as (E' & q' & G & P & _); [exact L|]. exists E', q'. rewrite app_nil_r. split; [exact G|exact P].
  - cbn [map] in L |- *. rewrite sep_cons in L |- *. rewrite app_length in L. cbn [length] in L. rewrite <- app_assoc.
    destruct (eval_dim e E (Some q) ((pcomma :: sep pcomma (ptoks 0 x :: map (ptoks 0) items)) ++ r) rs false i t Fe1 Fe2 A) as (E1 & q1 & G1 & P1 & (_ & Lv & _)); [unfold size; lia|]. rewrite G1. cbn [app].
    assert (Tt : t = true) by (apply T; cbn; lia). subst t.
    destruct (ev_sep E1 q1 (sep pcomma (ptoks 0 x :: map (ptoks 0) items) ++ r) _ _ _ _ _ OP_COMMA P1 zero_nil) as (E2 & G2 & A2); [auto| |].
    { intros _. split; [reflexivity|]. split; [intro Q; apply app_eq_nil in Q; destruct Q as [_ Q]; exact (dcode_nonempty e Fe1 Q)|]. split; [lia|].
      inversion F' as [|? ? [_ [Wx _]] _]; subst. destruct (ptoks_first x 0 Wx) as (y & z & -> & Ty). exists y. destruct items; cbn [map sep app]; eauto. }
    change (op_tok OP_COMMA 1) with pcomma in *. rewrite G2.
    destruct (IH x F' E2 pcomma r _ i true A2) as (E3 & q3 & G3 & P3); [exact (ltac:(cbn [map] in *; lia))|reflexivity|].
    exists E3, q3. split; [exact G3|]. cbn [map concat] in P3 |- *. rewrite <- app_assoc in P3. exact P3.
Qed.
Lemma zero_one t : prio t = 0 -> zero [t]. Proof. intros P. split; [cbn; lia|]. constructor; [exact P|constructor]. Qed.
Lemma zero_cmd b c : zero [cmd_code b c]. Proof. apply zero_one. reflexivity. Qed.
Lemma zero_ctok c : zero [cmd_tok c]. Proof. apply zero_one. reflexivity. Qed.
Definition tidy_stmt (t : bool) (s : stmt) : bool := match s with SPrint _ _ => false | _ => t end.
Definition dim_stmt (s : stmt) : bool := match s with SDim _ => true | _ => false end.
Definition for_stmt (s : stmt) : bool := match s with SFor _ _ _ _ => true | _ => false end.

Lemma eval_stmt s : wfs s -> forall E prev r rs i t, at_ E [] rs false i t -> lv_prev prev -> (prev = None -> not_go s) -> (several s -> t = true) -> (length (stoks s) <= 99)%nat ->
  exists E' q o rs', ev_loop E prev (sptoks s ++ r) = ev_loop E' (Some q) r /\ pendd (dim_stmt s) E' o rs' (for_stmt s) i (tidy_stmt t s) /\ zero o /\
    rs' ++ o ++ (if for_stmt s then [loop_token] else []) = rs ++ scode (at_first prev) s.
Proof.
  destruct s as [lv e|c args|e c args|items last|lv a b st|w|items]; cbn [wfs sptoks for_stmt dim_stmt tidy_stmt]; intros Wf E prev r rs i t A Lp Ng Sv L; cbn [stoks length] in L; repeat (progress (rewrite ?app_length in L; cbn [length] in L)).
  - destruct Wf as (Lv & F1 & F2). rewrite <- app_assoc.
    destruct (eval_lv lv E prev ((op_tok OP_ASSIGN 0 :: ptoks 0 e) ++ r) [] rs false i t Lv F1 A zero_nil Lp) as (E1 & q1 & G1 & P1 & _); [unfold size; lia|].
    rewrite G1. cbn [app]. destruct (ev_assign E1 (Some q1) (ptoks 0 e ++ r) _ _ _ _ _ P1 zero_nil) as (E2 & G2 & A2). rewrite G2.
    destruct (eval_expr e E2 (Some (op_tok OP_ASSIGN 0)) r _ _ _ _ _ F2 A2) as (E3 & q3 & G3 & P3 & _); [apply zero_one; reflexivity|apply start_op1|unfold size; lia|].
    eexists E3, q3, [op_tok OP_ASSIGN 0], _. split; [exact G3|]. split; [exact P3|]. split; [apply zero_one; reflexivity|]. cbn [scode]. rewrite !app_nil_r, <- !app_assoc. reflexivity.
  - destruct Wf as (O & F). cbn [app]. destruct (ev_plain_cmd E prev (sep pcomma (map aptoks args) ++ r) [] rs i t c (at_pend _ _ _ _ _ _ A) zero_nil O) as (E1 & G1 & A1). rewrite G1.
    destruct (eval_args args F E1 (cmd_code (at_first prev) c) r _ _ _ _ _ A1) as (E2 & q2 & G2 & P2 & _); [apply zero_cmd|apply start_cmd|unfold cmd_code; destruct (at_first prev); intro Q; discriminate Q|lia| |].
    { intros L2. apply Sv. cbn [several]. destruct args as [|? [|? ?]]; cbn [length] in L2; try lia; exact I. }
    eexists E2, q2, [cmd_code (at_first prev) c], _. split; [exact G2|]. split; [exact P2|]. split; [apply zero_cmd|]. cbn [scode]. rewrite !app_nil_r, <- !app_assoc. reflexivity.
  - destruct Wf as (F1 & O & F). cbn [app]. destruct (ev_plain_cmd E prev ((ptoks 0 e ++ cmd_tok c :: sep pcomma (map aptoks args)) ++ r) [] rs i t CMD_ON (at_pend _ _ _ _ _ _ A) zero_nil) as (E1 & G1 & A1); [unfold ordinary; cbn; intuition discriminate|]. rewrite G1, <- app_assoc.
    destruct (eval_expr e E1 (Some (cmd_code (at_first prev) CMD_ON)) ((cmd_tok c :: sep pcomma (map aptoks args)) ++ r) _ _ _ _ _ F1 A1 (zero_cmd _ _) (start_cmd _ _)) as (E2 & q2 & G2 & P2 & (_ & _ & Nq)); [unfold size; lia|].
    rewrite G2. cbn [app]. destruct (ev_plain_cmd E2 (Some q2) (sep pcomma (map aptoks args) ++ r) _ _ i t c P2 (zero_cmd _ _) O) as (E3 & G3 & A3). rewrite G3.
    assert (Fq : at_first (Some q2) = false) by (unfold at_first, is_ty; destruct (ty q2); try reflexivity; destruct (Nq eq_refl)). rewrite Fq in *.
    destruct (eval_args args F E3 (cmd_code false c) r _ _ _ _ _ A3) as (E4 & q4 & G4 & P4 & _); [apply zero_cmd|apply start_cmd|intro Q; discriminate Q|lia| |].
    { intros L2. apply Sv. cbn [several]. destruct args as [|? [|? ?]]; cbn [length] in L2; try lia; exact I. }
    eexists E4, q4, [cmd_code false c], _. split; [exact G4|]. split; [exact P4|]. split; [apply zero_cmd|]. cbn [scode]. rewrite !app_nil_r, <- !app_assoc. reflexivity.
  - destruct Wf as (F & Fl). cbn [app]. destruct (ev_flag_cmd E prev ((concat (map (fun it => optoks (fst it) ++ [op_tok (snd it) 1]) items) ++ optoks last) ++ r) [] rs false i t CMD_PRINT (at_pend _ _ _ _ _ _ A) zero_nil) as (E1 & G1 & A1); [auto|].
    rewrite G1, <- app_assoc. change (at_ E1 [cmd_code (at_first prev) CMD_PRINT] (rs ++ []) false i false) in A1. destruct (eval_items items F E1 (cmd_code (at_first prev) CMD_PRINT) (optoks last ++ r) _ _ _ _ A1 (zero_cmd _ _) (start_cmd _ _)) as (E2 & q2 & G2 & A2 & S2); [lia|]. rewrite G2.
    destruct (eval_opt last E2 q2 r _ _ _ _ _ Fl A2 (zero_cmd _ _) S2) as (E3 & q3 & G3 & P3); [lia|].
    eexists E3, q3, [cmd_code (at_first prev) CMD_PRINT], _. split; [exact G3|]. split; [exact P3|]. split; [apply zero_cmd|]. cbn [scode]. rewrite !app_nil_r, <- !app_assoc. reflexivity.
  - destruct Wf as (Lv & F1 & F2 & F3 & F4). cbn [app].
    match goal with |- context [ev_loop E prev (cmd_tok CMD_FOR :: ?x)] => destruct (ev_flag_cmd E prev x [] rs false i t CMD_FOR (at_pend _ _ _ _ _ _ A) zero_nil) as (E1 & G1 & A1); [auto|] end.
    rewrite G1, <- app_assoc. change (at_ E1 [cmd_code (at_first prev) CMD_FOR] (rs ++ []) true i t) in A1.
    match goal with |- context [ev_loop E1 _ (ptoks 0 lv ++ ?x)] => destruct (eval_expr lv E1 (Some (cmd_code (at_first prev) CMD_FOR)) x _ _ _ _ _ F1 A1 (zero_cmd _ _) (start_cmd _ _)) as (E2 & q2 & G2 & P2 & _); [unfold size; lia|] end.
    rewrite G2. cbn [app].
    match goal with |- context [ev_loop E2 _ (_ :: ?x)] => destruct (ev_assign E2 (Some q2) x _ _ _ _ _ P2 (zero_cmd _ _)) as (E3 & G3 & A3) end. rewrite G3, <- app_assoc.
    match goal with |- context [ev_loop E3 _ (ptoks 0 a ++ ?x)] => destruct (eval_expr a E3 (Some (op_tok OP_ASSIGN 0)) x _ _ _ _ _ F2 A3 ltac:(apply zero_one; reflexivity) (start_op1 _ _)) as (E4 & q4 & G4 & P4 & (_ & _ & N4)); [unfold size; lia|] end.
    rewrite G4. cbn [app].
    assert (Fq : forall q, ty q <> newline -> at_first (Some q) = false) by (intros q Nq; unfold at_first, is_ty; destruct (ty q); try reflexivity; destruct (Nq eq_refl)).
    match goal with |- context [ev_loop E4 _ (_ :: ?x)] => destruct (ev_to_cmd E4 (Some q4) x _ _ _ _ CMD_TO P4 ltac:(apply zero_one; reflexivity)) as (E5 & G5 & A5); [auto|apply Fq; exact N4|] end. rewrite G5, <- app_assoc.
    match goal with |- context [ev_loop E5 _ (ptoks 0 b ++ ?x)] => destruct (eval_expr b E5 (Some (cmd_tok CMD_TO)) x _ _ _ _ _ F3 A5 (zero_ctok _) (start_cmd false _)) as (E6 & q6 & G6 & P6 & (_ & _ & N6)); [unfold size; lia|] end.
    rewrite G6. destruct st as [s|]; cbn [app length] in *.
    + match goal with |- context [ev_loop E6 _ (_ :: ?x)] => destruct (ev_to_cmd E6 (Some q6) x _ _ _ _ CMD_STEP P6 (zero_ctok _)) as (E7 & G7 & A7); [auto|apply Fq; exact N6|] end. rewrite G7.
      destruct (eval_expr s E7 (Some (cmd_tok CMD_STEP)) r _ _ _ _ _ F4 A7 (zero_ctok _) (start_cmd false _)) as (E8 & q8 & G8 & P8 & _); [unfold size; rewrite ?app_length in L; cbn [length] in L; lia|].
      eexists E8, q8, [cmd_tok CMD_STEP], _. split; [exact G8|]. split; [exact P8|]. split; [apply zero_ctok|]. cbn [scode]. rewrite !app_nil_r, <- !app_assoc. reflexivity.
    + eexists E6, q6, [cmd_tok CMD_TO], _. split; [reflexivity|]. split; [exact P6|]. split; [apply zero_ctok|]. cbn [scode]. rewrite !app_nil_r, <- !app_assoc. reflexivity.
  - destruct prev as [q|]; [|destruct (Ng eq_refl)]. cbn [app]. destruct (ev_label E (Some q) r rs w [] false i t A) as (E' & G & A'); [discriminate|].
    eexists E', _, [], _. split; [exact G|]. split; [apply at_pend; exact A'|]. split; [apply zero_nil|]. cbn [scode]. rewrite !app_nil_r. reflexivity.
  - destruct Wf as (Ne & F). cbn [app]. destruct (ev_dim_cmd E prev (sep pcomma (map (ptoks 0) items) ++ r) rs i t A) as (E1 & G1 & A1). rewrite G1.
    destruct items as [|e items]; [destruct (Ne eq_refl)|].
    destruct (eval_dims items e F E1 (cmd_tok CMD_DIM) r rs i t A1) as (E2 & q2 & G2 & P2); [lia|intros L2; apply Sv; destruct items; [cbn [length] in L2; lia|exact I]|].
    eexists E2, q2, [], _. split; [exact G2|]. split; [exact P2|]. split; [apply zero_nil|]. cbn [scode]. rewrite !app_nil_r. reflexivity.
Qed.

(** * lines *)
Lemma eval_lin l : forall after tidy, wfl after tidy l -> forall E prev r rs i, at_ E [] rs false i tidy -> lv_prev prev -> (after = true -> prev <> None) -> (length (ltoks l) <= 99)%nat ->
  exists E' q o rs', ev_loop E prev (lptoks l ++ r) = ev_loop E' (Some q) r /\ pendd (dim_stmt (last_stmt l)) E' o rs' (for_stmt (last_stmt l)) (i || has_if l) (tidy_after tidy l) /\ zero o /\
    rs' ++ o ++ (if for_stmt (last_stmt l) then [loop_token] else []) = rs ++ lcode (at_first prev) l.
Proof.
  revert l. fix IH 1. intros [s|s l|e t el] after tidy Wf E prev r rs i A Lp An L; cbn [wfl lptoks ltoks] in *.
  - destruct Wf as (Ws & Ng & Sv). destruct (eval_stmt s Ws E prev r rs i tidy A Lp) as (E' & q & o & rs' & G & P & Z & R); auto.
    { intros ->. apply Ng. destruct after; [destruct (An eq_refl eq_refl)|reflexivity]. }
    exists E', q, o, rs'. cbn [last_stmt has_if tidy_after lcode]. rewrite orb_false_r. split; [exact G|]. split; [|auto]. destruct s; exact P.
  - destruct Wf as (Ws & Ng & Sv & Wl). rewrite app_length in L. cbn [length] in L. rewrite <- app_assoc.
    destruct (eval_stmt s Ws E prev ((nl :: lptoks l) ++ r) rs i tidy A Lp) as (E1 & q1 & o1 & rs1 & G1 & P1 & Z1 & R1); auto; [|lia|].
    { intros ->. apply Ng. destruct after; [destruct (An eq_refl eq_refl)|reflexivity]. }
    rewrite G1. cbn [app]. destruct (ev_nl E1 (Some q1) (lptoks l ++ r) _ _ _ _ _ P1 Z1) as (E2 & G2 & A2). rewrite G2.
    rewrite <- app_assoc, R1 in A2.
    destruct (IH l false true Wl E2 (Some nl) r _ i A2) as (E3 & q3 & o3 & rs3 & G3 & P3 & Z3 & R3); [cbn; repeat split; intro Q; discriminate Q|intro Q; discriminate Q|lia|].
    exists E3, q3, o3, rs3. cbn [last_stmt has_if tidy_after lcode]. split; [exact G3|]. split; [exact P3|]. split; [exact Z3|]. rewrite R3, <- app_assoc. reflexivity.
  - destruct Wf as (Fe & Wt & We). cbn [app]. 
    match goal with |- context [ev_loop E prev (_ :: ?x)] => destruct (ev_flag_cmd E prev x [] rs false i tidy CMD_IF (at_pend _ _ _ _ _ _ A) zero_nil) as (E1 & G1 & A1); [auto|] end.
    change (at_ E1 [cmd_code (at_first prev) CMD_IF] (rs ++ []) false true tidy) in A1. rewrite G1, <- app_assoc. repeat (progress (rewrite ?app_length in L; cbn [length] in L)).
    match goal with |- context [ev_loop E1 _ (ptoks 0 e ++ ?x)] => destruct (eval_expr e E1 (Some (cmd_code (at_first prev) CMD_IF)) x _ _ _ _ _ Fe A1 (zero_cmd _ _) (start_cmd _ _)) as (E2 & q2 & G2 & P2 & _); [unfold size; lia|] end.
    rewrite G2. cbn [app]. match goal with |- context [ev_loop E2 _ (_ :: ?x)] => destruct (ev_then E2 (Some q2) x _ _ _ _ _ P2 (zero_cmd _ _)) as (E3 & G3 & A3) end. rewrite G3, <- app_assoc.
    match goal with |- context [ev_loop E3 _ (lptoks t ++ ?x)] => destruct (IH t true tidy Wt E3 (Some (cmd_tok CMD_THEN)) x _ true A3) as (E4 & q4 & o4 & rs4 & G4 & P4 & Z4 & R4); [cbn; repeat split; intro Q; discriminate Q|intros _ Q; discriminate Q|lia|] end.
    rewrite G4. destruct el as [el|]; cbn [app].
    + destruct We as [We Nf]. assert (Ff : for_stmt (last_stmt t) = false) by (destruct (last_stmt t); try reflexivity; destruct (Nf I)). assert (Fd : dim_stmt (last_stmt t) = false) by (destruct (last_stmt t); try reflexivity; destruct (Nf I)). rewrite Ff, Fd in *. rewrite app_nil_r in R4. cbn [length] in L.
      match goal with |- context [ev_loop E4 _ (_ :: ?x)] => destruct (ev_else E4 (Some q4) x _ _ _ _ _ P4 Z4) as (E5 & G5 & A5) end. rewrite G5.
      destruct (IH el true (tidy_after tidy t) We E5 (Some (cmd_tok CMD_ELSE)) r _ (true || has_if t) A5) as (E6 & q6 & o6 & rs6 & G6 & P6 & Z6 & R6); [cbn; repeat split; intro Q; discriminate Q|intros _ Q; discriminate Q|lia|].
      exists E6, q6, o6, rs6. cbn [last_stmt has_if tidy_after lcode]. split; [exact G6|]. rewrite orb_true_r. split; [exact P6|]. split; [exact Z6|]. rewrite R6, R4.
      change (at_first (Some (cmd_tok CMD_THEN))) with false. change (at_first (Some (cmd_tok CMD_ELSE))) with false. rewrite !app_nil_r, <- !app_assoc. reflexivity.
    + exists E4, q4, o4, rs4. cbn [last_stmt has_if tidy_after lcode]. split; [reflexivity|]. rewrite orb_true_r. split; [exact P4|]. split; [exact Z4|]. rewrite R4.
      change (at_first (Some (cmd_tok CMD_THEN))) with false. rewrite !app_nil_r, <- !app_assoc. reflexivity.
Qed.

(** ** sizes: the translation is not longer than the source *)
Lemma rpn_size e : forall n, wfe e -> (length (rpn n e) <= size e)%nat.
Proof.
  unfold size. induction e as [k c w|e IH|o e IH|o l r IHl IHr|fn c w b args IH] using expr_ind2; intros n Wf; cbn [rpn toks wfe] in *; rewrite ?app_length; cbn [length]; rewrite ?app_length; cbn [length].
  - lia.
  - specialize (IH (n + 8) Wf). lia.
  - destruct Wf as (_ & Wf & _). specialize (IH n Wf). lia.
  - destruct Wf as (_ & Wl & Wr & _). specialize (IHl n Wl). specialize (IHr n Wr). lia.
  - destruct Wf as (Wa & _). apply wfe_args in Wa.
    assert (Q : (length (concat (map (rpn (n + 8)) args)) <= length (sep (op_tok OP_COMMA 0) (map toks args)))%nat).
    { induction args as [|a args IHa]; [cbn; lia|]. inversion IH as [|? ? I1 I2]; subst. inversion Wa; subst. specialize (IHa I2 ltac:(assumption)). specialize (I1 (n + 8) ltac:(assumption)).
      cbn [map concat]. rewrite app_length. destruct args as [|b0 args]; [cbn [map concat sep length] in *; lia|]. cbn [map] in *. rewrite sep_cons, app_length. cbn [length]. lia. }
    lia.
Qed.
Lemma args_size args : Forall afine args -> (length (concat (map acode args)) <= length (sep comma (map atoks args)))%nat.
Proof.
  induction args as [|a args IH]; intros F; [cbn; lia|]. inversion F as [|? ? Fa F']; subst. specialize (IH F').
  assert (length (acode a) <= length (atoks a))%nat. { destruct a as [e|w]; cbn [acode atoks]; [apply rpn_size; apply Fa|cbn; lia]. }
  cbn [map concat]. rewrite app_length. destruct args as [|b args]; [cbn [map concat sep length] in *; lia|]. cbn [map] in *. rewrite sep_cons, app_length. cbn [length]. lia.
Qed.
Lemma opt_size o : match o with Some e => fine e | None => True end -> (length (ocode o) <= length (otoks o))%nat.
Proof. destruct o as [e|]; cbn; intros F; [apply rpn_size; apply F|lia]. Qed.
Lemma items_size items : Forall (fun it => (snd it = OP_COMMA \/ snd it = OP_SEMICOLON) /\ match fst it with Some e => fine e | None => True end) items ->
  (length (concat (map (fun it => ocode (fst it) ++ [op_tok (snd it) 1]) items)) <= length (concat (map (fun it => otoks (fst it) ++ [op_tok (snd it) 0]) items)))%nat.
Proof.
  induction 1 as [|[o s] items [_ F] _ IH]; [cbn; lia|]. cbn [fst snd map concat] in *. rewrite !app_length. cbn [length]. pose proof (opt_size o F). lia.
Qed.
Lemma scode_size first s : wfs s -> (length (scode first s) <= length (stoks s) + (if for_stmt s then 1 else 0))%nat.
Proof.
  destruct s as [lv e|c args|e c args|items last|lv a b st|w|items]; cbn [wfs scode stoks for_stmt]; intros Wf; repeat (progress (rewrite ?app_length; cbn [length])).
  - destruct Wf as (_ & [F1 _] & [F2 _]). pose proof (rpn_size lv 0 F1). pose proof (rpn_size e 0 F2). unfold size in *. lia.
  - destruct Wf as (_ & F). pose proof (args_size args F). lia.
  - destruct Wf as ([F1 _] & _ & F). pose proof (args_size args F). pose proof (rpn_size e 0 F1). unfold size in *. lia.
  - destruct Wf as (F & Fl). pose proof (items_size items F). pose proof (opt_size last Fl). lia.
  - destruct Wf as (_ & [F1 _] & [F2 _] & [F3 _] & F4). pose proof (rpn_size lv 0 F1). pose proof (rpn_size a 0 F2). pose proof (rpn_size b 0 F3). unfold size in *.
    destruct st as [s|]; repeat (progress (rewrite ?app_length; cbn [length])); [|lia]. destruct F4 as [F4 _]. pose proof (rpn_size s 0 F4). unfold size in *. lia.
  - lia.
  - destruct Wf as (_ & F). induction items as [|x items IH]; [cbn; lia|]. inversion F as [|? ? [Fx1 [Fx2 _]] F']; subst. specialize (IH F').
    assert (length (dcode x) <= length (toks x))%nat. { pose proof (rpn_size x 0 Fx2) as Q. destruct x as [| | | |[] c w b a]; try contradiction. cbn [rpn dcode] in *. unfold size in Q. rewrite app_length in *. exact Q. }
    cbn [map concat]. rewrite app_length. destruct items as [|y items]; [cbn [map concat sep length] in *; lia|]. cbn [map] in *. rewrite sep_cons, app_length. cbn [length]. lia.
Qed.
Lemma lcode_size l : forall first after tidy, wfl after tidy l -> (length (lcode first l) + (if has_if l then 1 else 0) <= length (ltoks l) + (if for_stmt (last_stmt l) then 1 else 0))%nat.
Proof.
  revert l. fix IH 1. intros [s|s l|e t el] first after tidy Wf; cbn [wfl lcode ltoks has_if last_stmt] in *; repeat (progress (rewrite ?app_length; cbn [length])).
  - destruct Wf as (Ws & _). pose proof (scode_size first s Ws). lia.
  - destruct Wf as (Ws & _ & _ & Wl). pose proof (scode_size first s Ws). pose proof (IH l true _ _ Wl). destruct (for_stmt s); lia.
  - destruct Wf as ([Fe _] & Wt & We). pose proof (rpn_size e 0 Fe). unfold size in *. pose proof (IH t false _ _ Wt). destruct el as [el|]; repeat (progress (rewrite ?app_length; cbn [length])).
    + destruct We as [We Nf]. pose proof (IH el false _ _ We). assert (Ff : for_stmt (last_stmt t) = false) by (destruct (last_stmt t); try reflexivity; destruct (Nf I)). rewrite Ff in *.
      destruct (has_if t); destruct (has_if el); lia.
    + destruct (has_if t); lia.
Qed.

(** a line of at most 100 tokens is translated as specified *)
Theorem line_compiles l : wfl false true l -> (length (line_toks l) <= 100)%nat -> (let* p := tok_prio (line_toks l) in tok_eval p) = Ok (line_code l).
Proof.
  intros Wf L. rewrite prio_line by exact Wf. cbn [bind]. unfold line_toks in L. rewrite app_length in L. cbn [length] in L.
  assert (A0 : at_ init_eval [] [] false false true) by (repeat split).
  unfold tok_eval. destruct (eval_lin l false true Wf init_eval None [nl] [] false A0) as (E1 & q1 & o1 & rs1 & G1 & P1 & Z1 & R1); [exact I|intro Q; discriminate Q|lia|].
  rewrite G1. clear G1. destruct (ev_nl E1 (Some q1) [] _ _ _ _ _ P1 Z1) as (E2 & G2 & A2). rewrite G2. cbn [ev_loop bind].
  rewrite <- app_assoc, R1 in A2. rewrite (pend_clean0 _ _ _ _ _ _ (at_pend _ _ _ _ _ _ A2) zero_nil). cbn [set_ops is_if res]. destruct A2 as (_ & _ & (_ & _ & _ & _ & _ & M6 & _)). rewrite M6.
  cbn [app orb]. rewrite app_nil_r. change (at_first None) with true. change endif_token with (cmd_tok CMD_ENDIF).
  assert (Ec : (if has_if l then lcode true l ++ [cmd_tok CMD_ENDIF] else lcode true l) = line_code l) by (unfold line_code; destruct (has_if l); [reflexivity|rewrite app_nil_r; reflexivity]).
  rewrite Ec. replace (Z.of_nat (length (line_code l)) <=? 100) with true; [reflexivity|]. unfold line_code. rewrite app_length. pose proof (lcode_size l true false true Wf).
  destruct (has_if l); cbn [length]; destruct (for_stmt (last_stmt l)); lia.
Qed.
