(** From the simulation to runs of the interpreter loop, and the labels of a program. *)
From Verif Require Import Base BaseLemmas Tokens ExprSpec Hash HashProofs Labels LabelsProofs Bytecode BytecodeSpec BytecodeProofs Runner RunnerSpec ExecProofs StmtSpec FlowSpec ForSpec ProgSpec Link ProgProofs ProgSim.
Ltac Zify.zify_post_hook ::= Z.div_mod_to_equations.

Lemma fetch_end code i : Z.of_nat (length code) <= i -> fetch code i = Err ERR_INVALID_BC.
Proof. intros L. unfold fetch. cbv zeta. replace (byte code i) with 0 by (unfold byte; symmetry; apply nth_overflow; lia). reflexivity. Qed.
Lemma run_ok {h} (lab : labels_fun h) code : forall n c c', steps lab code n c = Ok c' -> run lab code n c = Ok c'.
Proof.
  induction n as [|n IH]; intros c c'; cbn [steps run]; [auto|]. destruct (step lab code c) as [c1| |] eqn:S; cbn [bind]; try discriminate. intros R.
  destruct (ix c <? Z.of_nat (length code)) eqn:E; [apply IH; exact R|]. unfold step in S. rewrite fetch_end in S by lia. discriminate.
Qed.
Lemma run_err {h} (lab : labels_fun h) code e : e <> ERR_INVALID_BC -> forall n c, steps lab code n c = Err e -> run lab code n c = Err e.
Proof.
  intros N. induction n as [|n IH]; intros c; cbn [steps run]; [discriminate|]. destruct (ix c <? Z.of_nat (length code)) eqn:E.
  - destruct (step lab code c) as [c1| |] eqn:S; cbn [bind]; try discriminate; [apply IH|auto].
  - unfold step. rewrite fetch_end by lia. cbn [bind]. intros [= <-]. contradiction.
Qed.
Lemma run_more {h} (lab : labels_fun h) code : forall n m c, run lab code (n + m) c = let* c := run lab code n c in run lab code m c.
Proof.
  induction n as [|n IH]; intros m c; cbn [Nat.add run bind]; [reflexivity|]. destruct (ix c <? Z.of_nat (length code)) eqn:E; [destruct (step lab code c); cbn [bind]; auto|].
  cbn [bind]. destruct m as [|m]; [reflexivity|]. cbn [run]. rewrite E. reflexivity.
Qed.
Lemma run_over {h} (lab : labels_fun h) code m c : Z.of_nat (length code) <= ix c -> run lab code m c = Ok c.
Proof. intros L. destruct m; [reflexivity|]. cbn [run]. replace (_ <? _) with false by lia. reflexivity. Qed.

Lemma reset_init n : reset_label (init_labels n) = init_labels n.
Proof. unfold reset_label, init_labels. cbn [label_count l_entry]. f_equal. induction (Z.to_nat n) as [|k IH]; [reflexivity|]. cbn [repeat map]. rewrite IH. reflexivity. Qed.
Lemma valid_nameb_ok w : valid_nameb w = true -> valid_name w.
Proof.
  unfold valid_nameb, valid_name. intros V. apply andb_true_iff in V. destruct V as [V F]. apply andb_true_iff in V. destruct V as [V1 V2]. split; [lia|]. rewrite forallb_forall in F. apply Forall_forall. intros c I. specialize (F c I). lia.
Qed.
Lemma defs_find w : forall us iss at_, length us = length iss -> match find_lab w us with Some k => In (w, at_ + here (encode (concat (firstn k iss)))) (defs_of at_ us iss) | None => ~ In w (map fst (defs_of at_ us iss)) end.
Proof.
  induction us as [|u us IH]; intros [|i iss] at_; cbn [length find_lab defs_of]; try discriminate; [intros _ []|]. intros L. injection L as L. specialize (IH iss (at_ + here (encode i)) L). destruct (is_lab w u) eqn:E.
  - destruct u; try discriminate E. cbn [is_lab] in E. destruct (list_eq_dec Z.eq_dec w0 w) as [->|]; [|discriminate]. left. cbn. rewrite Z.add_0_r. reflexivity.
  - destruct (find_lab w us) as [k|]; cbn [option_map].
    + apply in_or_app. right. cbn [firstn concat]. rewrite encode_app, app_length. replace (at_ + _) with (at_ + here (encode i) + here (encode (concat (firstn k iss)))) by lia. exact IH.
    + rewrite map_app, in_app_iff. intros [H|H]; [|exact (IH H)]. destruct u; try contradiction. cbn [map fst] in H. destruct H as [H|[]]. subst w0. cbn [is_lab] in E. destruct (list_eq_dec Z.eq_dec w w); [discriminate|contradiction].
Qed.
Lemma defs_valid : forall us iss at_, Forall uok us -> 0 <= at_ -> Forall (fun d => valid_name (fst d) /\ 0 <= snd d <= at_ + here (encode (concat iss))) (defs_of at_ us iss).
Proof.
  induction us as [|u us IH]; intros [|i iss] at_ U A; try constructor. cbn [defs_of concat]. apply Forall_app. rewrite encode_app, app_length. split.
  - destruct u; try constructor; [|constructor]. cbn [fst snd]. split; [exact (Forall_inv U)|lia].
  - eapply Forall_impl; [|apply IH; [exact (Forall_inv_tail U)|lia]]. cbn beta. intros d [V P]. split; [exact V|lia].
Qed.
Lemma labels_right {h} (strv : St h -> Loc h -> list Z) n us iss tbl ids : 0 <= n -> Forall uok us -> ucodes ids us = Ok iss -> Z.of_nat (length (encode (concat iss))) < 16777216 ->
  load (init_labels (2 ^ n)) (defs_of 0 us iss) = Some tbl ->
  forall v st, match slab h strv us v st with Ok i => table_lab h strv tbl v st = Ok (start iss (Z.to_nat i)) | Err e => table_lab h strv tbl v st = Err e | UB => True end.
Proof.
  intros Hn U Uc Sz L v st. unfold slab. destruct (label_name h strv v st) as [w|] eqn:N; [|exact I]. destruct (valid_nameb w) eqn:V; [|exact I]. apply valid_nameb_ok in V.
  assert (D : Forall (fun d => valid_name (fst d) /\ 0 <= snd d < LABEL_NOT_FOUND) (defs_of 0 us iss)).
  { eapply Forall_impl; [|apply (defs_valid us iss 0 U); lia]. cbn beta. intros d [A B]. split; [exact A|]. unfold LABEL_NOT_FOUND. lia. }
  destruct (jump_spec n (defs_of 0 us iss) tbl w Hn D L V) as [J1 J2]. pose proof (defs_find w us iss 0 (ucodes_length _ _ _ Uc)) as F.
  assert (T : table_lab h strv tbl v st = search_label tbl (Lit w)).
  { destruct v as [x|[|] s|[|] l|x]; cbn [label_name] in N; try discriminate; injection N as <-; cbn [table_lab]; try reflexivity.
    - destruct s as [|c s]; [destruct V; cbn in *; lia|]. reflexivity.
    - destruct (strv st l) as [|c s]; [destruct V; cbn in *; lia|]. reflexivity. }
  rewrite T. destruct (find_lab w us) as [k|].
  - rewrite Nat2Z.id. destruct (J1 _ F) as [-> _]. unfold start. rewrite Z.add_0_l. reflexivity.
  - destruct (J2 F) as [-> _]. reflexivity.
Qed.
