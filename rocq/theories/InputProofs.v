From Verif Require Import Base BaseLemmas Strs StrProofs Input InputSpec.
Open Scope Z_scope.
Ltac Zify.zify_post_hook ::= Z.div_mod_to_equations.

Definition qrep (i : inkey) (q : list Z) : Prop :=
  length (buf i) = 256%nat /\ current_write i = Z.of_nat (length q) /\ Z.of_nat (length q) <= 256 /\ 0 <= current_base i < 256 /\
  forall n, 0 <= n < Z.of_nat (length q) ->
    nth_error (buf i) (Z.to_nat ((current_base i + n) mod 256)) = nth_error q (Z.to_nat n).

Lemma qrep_init : qrep init_inkey [].
Proof. unfold qrep. simpl. repeat split; try lia; try reflexivity. Qed.
Lemma qrep_set i q k : qrep i q ->
  exists i', set_inkey i k = Ok (Z.of_nat (length q) <? 256, i') /\ qrep i' (if Z.of_nat (length q) <? 256 then q ++ [k] else q).
Proof.
  intros (Lb & W & Lq & B & C). unfold set_inkey, INKEY_BUF_SIZE. rewrite W.
  destruct (Z.of_nat (length q) =? 256) eqn:E.
  - exists i. replace (Z.of_nat (length q) <? 256) with false by lia. split; [reflexivity|]. repeat split; auto; lia.
  - replace (Z.of_nat (length q) <? 256) with true by lia. replace (_ <? Z.of_nat (length (buf i))) with true by lia.
    eexists. split; [reflexivity|]. unfold qrep. cbn [buf current_write current_base]. rewrite upd_length, app_length. cbn [length].
    split; [exact Lb|]. split; [unfold u16; change (2 ^ 16) with 65536; lia|]. split; [lia|]. split; [exact B|].
    intros n Hn. destruct (Z.eq_dec n (Z.of_nat (length q))) as [->|N].
    + rewrite nth_error_upd_same by lia. rewrite nth_error_app2 by lia. replace (_ - _)%nat with 0%nat by lia. reflexivity.
    + rewrite nth_error_upd_other by lia. rewrite C by lia. rewrite nth_error_app1 by lia. reflexivity.
Qed.
Lemma qrep_get i q : qrep i q ->
  exists i', get_inkey i = Ok (match q with [] => 0 | k :: _ => k end, i') /\ qrep i' (tl q).
Proof.
  intros (Lb & W & Lq & B & C). unfold get_inkey, INKEY_BUF_SIZE. rewrite W. destruct q as [|k q].
  - exists i. split; [reflexivity|]. repeat split; auto; lia.
  - cbn [length] in *. replace (_ =? 0) with false by lia.
    pose proof (C 0 ltac:(lia)) as C0. rewrite Z.add_0_r, Z.mod_small in C0 by lia. rewrite C0. cbn [nth_error Z.to_nat].
    eexists. split; [reflexivity|]. unfold qrep. cbn [buf current_write current_base tl].
    split; [exact Lb|]. split; [unfold u16; change (2 ^ 16) with 65536; lia|]. split; [lia|]. split; [lia|].
    intros n Hn. specialize (C (n + 1) ltac:(lia)). replace (Z.to_nat (n + 1)) with (S (Z.to_nat n)) in C by lia.
    cbn [nth_error] in C. rewrite <- C. f_equal. lia.
Qed.
Lemma key_run_queue l : forall i q, qrep i q ->
  exists i', key_run i l = Ok (i', snd (queue_run q l)) /\ qrep i' (fst (queue_run q l)).
Proof.
  induction l as [|[k|] t IH]; intros i q R.
  - exists i. split; [reflexivity|exact R].
  - destruct (qrep_set i q k R) as (i1 & E & R1). cbn [key_run queue_run]. rewrite E. cbn [bind].
    destruct (Z.of_nat (length q) <? 256); destruct (IH _ _ R1) as (i2 & E2 & R2); rewrite E2; cbn [bind];
      destruct (queue_run _ t); exists i2; split; auto.
  - destruct (qrep_get i q R) as (i1 & E & R1). cbn [key_run queue_run]. rewrite E. cbn [bind].
    destruct q as [|k q]; cbn [tl] in R1; destruct (IH _ _ R1) as (i2 & E2 & R2); rewrite E2; cbn [bind];
      destruct (queue_run _ t); exists i2; split; auto.
Qed.
Lemma key_run_init l : exists i', key_run init_inkey l = Ok (i', snd (queue_run [] l)).
Proof. destruct (key_run_queue l init_inkey [] qrep_init) as (i' & E & _). exists i'. exact E. Qed.

Lemma queue_fifo l : forall q, Forall (fun k => k <> 0) q -> Forall (fun e => e <> Typed 0) l ->
  let (q', r) := queue_run q l in q ++ accepted l r = returned r ++ q'.
Proof.
  induction l as [|[k|] t IH]; intros q Q F.
  - cbn. rewrite app_nil_r. reflexivity.
  - inversion F as [|? ? F1 F2]; subst. cbn [queue_run]. destruct (Z.of_nat (length q) <? 256).
    + specialize (IH (q ++ [k])). destruct (queue_run (q ++ [k]) t) as [q' r]. cbn [accepted returned].
      rewrite <- app_assoc in IH. apply IH; [|exact F2]. apply Forall_app. split; [exact Q|]. constructor; [|constructor]. congruence.
    + specialize (IH q Q F2). destruct (queue_run q t) as [q' r]. exact IH.
  - inversion F as [|? ? F1 F2]; subst. cbn [queue_run]. destruct q as [|k q].
    + specialize (IH [] Q F2). destruct (queue_run [] t) as [q' r]. exact IH.
    + inversion Q as [|? ? Q1 Q2]; subst. specialize (IH q Q2 F2). destruct (queue_run q t) as [q' r].
      cbn [accepted returned]. destruct k; [congruence| |]; cbn [app]; f_equal; exact IH.
Qed.

(** INKEY$ on keys typed as characters *)
Lemma wide_nonzero c : 0 < c < 256 -> to_wide c <> 0.
Proof. intros H E. assert (c = 0); [|lia]. apply to_wide_inj; [lia|lia|]. rewrite E. reflexivity. Qed.
Lemma func_inkey_spec i q : qrep i (map to_wide q) -> Forall (fun c => 0 < c < 256) q ->
  exists i', func_inkey i = Ok (hd_error q, i') /\ qrep i' (map to_wide (tl q)).
Proof.
  intros R F. unfold func_inkey. destruct (qrep_get i _ R) as (i' & -> & R'). cbn [bind]. exists i'.
  destruct q as [|c q]; cbn [map tl hd_error] in *; [split; [reflexivity|exact R']|].
  inversion F; subst. pose proof (wide_nonzero c ltac:(lia)).
  replace (to_wide c =? 0) with false by lia. rewrite to_char_to_wide by lia.
  replace (_ && _) with true by lia. split; [reflexivity|exact R'].
Qed.

(** * buttons *)
Definition time_of (l : list button_event) (j : nat) : button_time :=
  {| start := fst (setting (Z.of_nat j) l); repeat_ := snd (setting (Z.of_nat j) l); frame := held (Z.of_nat j) l |}.
Definition brep (l : list button_event) (s : buttons) : Prop :=
  times s = map (time_of l) (seq 0 12) /\ button s = now l /\ old_button s = before l.

Lemma held_bound j l : 0 <= held j l <= Z.of_nat (length l).
Proof. induction l as [|[b|] t IH]; cbn [held length]; [lia| |lia]. destruct (Z.testbit b j); lia. Qed.
Lemma mapM_times l b : Z.of_nat (length l) < 2 ^ 31 - 1 -> forall n k,
  mapM (step_time b) (combine (seq k n) (map (time_of l) (seq k n))) = Ok (map (time_of (Frame b :: l)) (seq k n)).
Proof.
  intros L. induction n; intros k; [reflexivity|]. cbn [seq map combine mapM]. unfold step_time at 1.
  unfold time_of at 1 2 3 4 5 6 7. cbn [frame start repeat_]. pose proof (held_bound (Z.of_nat k) l).
  replace (s32b (held (Z.of_nat k) l + 1)) with true by (unfold s32b, INT_MIN, INT_MAX; lia).
  destruct (Z.testbit b (Z.of_nat k)) eqn:E; cbn [bind]; rewrite IHn; cbn [bind]; f_equal; f_equal;
    unfold time_of; cbn [held setting]; rewrite E; f_equal; lia.
Qed.
Lemma button_run_spec l : Z.of_nat (length l) < 2 ^ 31 -> Forall valid_event l ->
  exists s, button_run l = Ok s /\ brep l s.
Proof.
  induction l as [|e t IH]; intros L F.
  - exists init_buttons. split; [reflexivity|]. repeat split.
  - inversion F as [|? ? Fe Ft]; subst. cbn [length] in L. destruct (IH ltac:(lia) Ft) as (s & E & T & N & O).
    cbn [button_run]. rewrite E. cbn [bind]. destruct e as [b|id st rp]; cbn [button_step].
    + unfold set_input. rewrite T. rewrite map_length, seq_length. rewrite mapM_times by lia. cbn [bind].
      eexists. split; [reflexivity|]. split; [reflexivity|]. cbn [button old_button]. split; [reflexivity|]. rewrite N. reflexivity.
    + destruct Fe as (Hid & Hst & Hrp). unfold cmd_brepeat.
      replace ((id <? 0) || (12 <? id)) with false by lia. replace (id =? 12) with false by lia.
      replace (st <? 0) with false by lia. replace (rp <? 0) with false by lia.
      rewrite T. rewrite nth_error_map. rewrite (nth_error_nth' _ 0%nat) by (rewrite seq_length; lia).
      rewrite seq_nth by lia. cbn [option_map]. eexists. split; [reflexivity|].
      split; [|split; assumption]. cbn [times].
      apply nth_ext with (d := time_of [] 0) (d' := time_of [] 0); [rewrite upd_length, !map_length, seq_length; reflexivity|].
      intros n Hn. rewrite upd_length, map_length, seq_length in Hn.
      assert (Q : forall l', nth n (map (time_of l') (seq 0 12)) (time_of [] 0) = time_of l' n).
      { intros l'. rewrite nth_indep with (d' := time_of l' 0) by (rewrite map_length, seq_length; lia). rewrite map_nth. rewrite seq_nth by lia. reflexivity. }
      destruct (Nat.eq_dec n (Z.to_nat id)) as [->|Ne].
      * rewrite nth_upd_same by (rewrite map_length, seq_length; lia). rewrite Q. unfold time_of. cbn [setting held frame].
        rewrite Z2Nat.id by lia. rewrite Z.eqb_refl. cbn [fst snd]. f_equal. cbn. rewrite Z2Nat.id by lia. reflexivity.
      * rewrite nth_upd_other by lia. rewrite !Q. unfold time_of. cbn [setting held]. replace (id =? Z.of_nat n) with false by lia. reflexivity.
Qed.

Lemma check_repeat_spec h s r : 0 <= h -> 0 <= s -> 0 <= r -> check_repeat h s r = true <-> fires h s r.
Proof.
  intros Hh Hs Hr. unfold check_repeat, fires. destruct ((r >? 0) && (h >? s)) eqn:E.
  - rewrite Z.rem_mod_nonneg by lia. rewrite Z.eqb_eq. split.
    + intros M. right. split; [lia|]. exists ((h - 1 - s) / (r + 1)). split; [apply Z.div_pos; lia|].
      pose proof (Z.div_mod (h - 1 - s) (r + 1) ltac:(lia)). lia.
    + intros [->|(_ & n & Hn & ->)].
      * replace (1 - 1 - s) with 0 by lia. apply Z.mod_0_l. lia.
      * replace (s + 1 + n * (r + 1) - 1 - s) with (n * (r + 1)) by lia. apply Z.mod_mul. lia.
  - rewrite Z.eqb_eq. split; [auto|]. intros [H|(Hp & n & Hn & ->)]; [exact H|]. nia.
Qed.
Lemma setting_nonneg j l : Forall valid_event l -> 0 <= fst (setting j l) /\ 0 <= snd (setting j l).
Proof.
  induction 1 as [|[b|id s r] t V _ IH]; cbn [setting fst snd]; [lia|exact IH|].
  destruct (id =? j); [|exact IH]. cbn [fst snd]. destruct V. lia.
Qed.

Lemma pressed_mask_bit ts : forall k j, 0 <= j -> Z.testbit (pressed_mask k ts) j =
  match nth_error ts (Z.to_nat j - k) with Some t => (Z.of_nat k <=? j) && check_pressed t | None => false end.
Proof.
  induction ts as [|t r IH]; intros k j Hj; cbn [pressed_mask].
  - rewrite Z.bits_0. destruct (Z.to_nat j - k)%nat; reflexivity.
  - rewrite Z.lor_spec. rewrite Z.mul_pow2_bits by lia. rewrite IH by lia.
    destruct (Z_lt_ge_dec j (Z.of_nat k)) as [Lt|Ge].
    + rewrite Z.testbit_neg_r by lia. replace (Z.of_nat k <=? j) with false by lia. replace (Z.of_nat (S k) <=? j) with false by lia.
      destruct (nth_error r _), (nth_error (t :: r) _); reflexivity.
    + replace (Z.of_nat k <=? j) with true by lia. destruct (Z.eq_dec j (Z.of_nat k)) as [->|N].
      * rewrite Z.sub_diag. replace (Z.to_nat (Z.of_nat k) - k)%nat with 0%nat by lia. cbn [nth_error].
        replace (Z.of_nat (S k) <=? Z.of_nat k) with false by lia.
        replace (match nth_error r (Z.to_nat (Z.of_nat k) - S k) with Some t0 => false && check_pressed t0 | None => false end) with false
          by (destruct (nth_error r _); reflexivity).
        rewrite orb_false_r. destruct (check_pressed t); reflexivity.
      * replace (Z.to_nat j - k)%nat with (S (Z.to_nat j - S k)) by lia. cbn [nth_error].
        replace (Z.of_nat (S k) <=? j) with true by lia.
        replace (Z.testbit (b2z (check_pressed t)) (j - Z.of_nat k)) with false; [reflexivity|].
        symmetry. destruct (check_pressed t); cbn [b2z]; [|apply Z.bits_0].
        apply Z.bits_above_log2; [lia|]. cbn. lia.
Qed.
Lemma pressed_mask_nonneg ts k : 0 <= pressed_mask k ts.
Proof.
  revert k; induction ts as [|t r IH]; intros k; cbn [pressed_mask]; [lia|]. apply Z.lor_nonneg. split; [|apply IH].
  destruct (check_pressed t); cbn [b2z]; [|lia]. pose proof (Z.pow_nonneg 2 (Z.of_nat k)). lia.
Qed.

Lemma below_4096 z : 0 <= z -> (forall j, 12 <= j -> Z.testbit z j = false) -> z < 4096.
Proof.
  intros Hz H. destruct (Z.eq_dec z 0) as [->|N]; [lia|]. change 4096 with (2 ^ 12). apply Z.log2_lt_pow2; [lia|].
  destruct (Z_lt_ge_dec (Z.log2 z) 12); [assumption|]. specialize (H (Z.log2 z) ltac:(lia)). rewrite Z.bit_log2 in H by lia. discriminate H.
Qed.

Lemma now_range l : Forall valid_event l -> forall n, 0 <= nth n (frames l) 0 < 4096.
Proof.
  induction 1 as [|[b|id s r] t V _ IH]; intros n; cbn [frames]; [destruct n; cbn; lia| |apply IH].
  destruct n; cbn [nth]; [exact V|apply IH].
Qed.
Lemma bits_12 b j : 0 <= b < 4096 -> 12 <= j -> Z.testbit b j = false.
Proof.
  intros H J. destruct (Z.eq_dec b 0) as [->|]; [apply Z.bits_0|]. apply Z.bits_above_log2; [lia|].
  apply Z.lt_le_trans with 12; [|lia]. apply Z.log2_lt_pow2; [lia|]. change (2 ^ 12) with 4096. lia.
Qed.

Lemma exact_mask v : 0 <= v < 4096 -> INT_TO_FP v = v * 4096.
Proof. intros H. apply INT_TO_FP_exact. change (2^19) with 524288. lia. Qed.

Lemma button_spec l mode : Z.of_nat (length l) < 2 ^ 31 -> Forall valid_event l -> 0 <= mode <= 3 ->
  exists s v, button_run l = Ok s /\ func_button s mode = Ok (v * 4096) /\ 0 <= v < 4096 /\
    (mode = 1 -> func_btrig s = v * 4096) /\
    forall j, 0 <= j < 12 -> (Z.testbit v j = true <-> shows mode l j).
Proof.
  intros L F M. destruct (button_run_spec l L F) as (s & E & T & N & O). exists s.
  pose proof (now_range l F 0) as R0. pose proof (now_range l F 1) as R1. fold (now l) in R0. fold (before l) in R1.
  assert (C : mode = 0 \/ mode = 1 \/ mode = 2 \/ mode = 3) by lia. destruct C as [->|[->|[->| ->]]]; unfold func_button, func_btrig; cbn [Z.eqb Pos.eqb].
  - exists (now l). rewrite N, exact_mask by lia. split; [exact E|]. split; [reflexivity|]. split; [lia|]. split; [lia|].
    intros j Hj. unfold shows. split; [auto|]. intros [[_ Q]|[[Q _]|[[Q _]|[Q _]]]]; [exact Q|lia|lia|lia].
  - assert (Bt : forall j, 0 <= j -> Z.testbit (pressed_mask 0 (times s)) j = if j <? 12 then check_pressed (time_of l (Z.to_nat j)) else false).
    { intros j Hj. rewrite pressed_mask_bit by lia. rewrite T, Nat.sub_0_r, nth_error_map.
      destruct (j <? 12) eqn:J.
      - rewrite (nth_error_nth' _ 0%nat) by (rewrite seq_length; lia). rewrite seq_nth by lia. cbn [option_map].
        replace (Z.of_nat 0 <=? j) with true by lia. reflexivity.
      - rewrite (proj2 (nth_error_None _ _)) by (rewrite seq_length; lia). reflexivity. }
    assert (Rm : 0 <= pressed_mask 0 (times s) < 4096).
    { split; [apply pressed_mask_nonneg|]. apply below_4096; [apply pressed_mask_nonneg|]. intros j Hj. rewrite Bt by lia.
      replace (j <? 12) with false by lia. reflexivity. }
    exists (pressed_mask 0 (times s)). rewrite exact_mask by exact Rm. split; [exact E|]. split; [reflexivity|]. split; [exact Rm|]. split; [reflexivity|].
    intros j Hj. rewrite Bt by lia. replace (j <? 12) with true by lia. unfold check_pressed, time_of. cbn [frame start repeat_].
    rewrite Z2Nat.id by lia. pose proof (setting_nonneg j l F). pose proof (held_bound j l). rewrite check_repeat_spec by lia.
    unfold shows. split; [intros H1; right; left; auto|]. intros [[H1 _]|[[_ H1]|[[H1 _]|[H1 _]]]]; [lia|exact H1|lia|lia].
  - exists (Z.land (now l) (Z.lnot (before l))). rewrite N, O.
    assert (Rm : 0 <= Z.land (now l) (Z.lnot (before l)) < 4096).
    { assert (H0 : 0 <= Z.land (now l) (Z.lnot (before l))) by (apply Z.land_nonneg; lia). split; [assumption|]. apply below_4096; [assumption|].
      intros j Hj. rewrite Z.land_spec. rewrite (bits_12 (now l)) by lia. reflexivity. }
    rewrite exact_mask by exact Rm. split; [exact E|]. split; [reflexivity|]. split; [exact Rm|]. split; [lia|].
    intros j Hj. rewrite Z.land_spec, Z.lnot_spec by lia. unfold shows.
    destruct (Z.testbit (now l) j), (Z.testbit (before l) j); cbn [negb andb]; intuition (congruence || lia).
  - exists (Z.land (Z.lnot (now l)) (before l)). rewrite N, O.
    assert (Rm : 0 <= Z.land (Z.lnot (now l)) (before l) < 4096).
    { assert (H0 : 0 <= Z.land (Z.lnot (now l)) (before l)) by (apply Z.land_nonneg; lia). split; [assumption|]. apply below_4096; [assumption|].
      intros j Hj. rewrite Z.land_spec. rewrite (bits_12 (before l)) by lia. apply andb_false_r. }
    rewrite exact_mask by exact Rm. split; [exact E|]. split; [reflexivity|]. split; [exact Rm|]. split; [lia|].
    intros j Hj. rewrite Z.land_spec, Z.lnot_spec by lia. unfold shows.
    destruct (Z.testbit (now l) j), (Z.testbit (before l) j); cbn [negb andb]; intuition (congruence || lia).
Qed.

(** SELECT raises Break in the first frame it is held *)
Lemma select_break l b : Z.of_nat (length l) < 2 ^ 31 - 1 -> Forall valid_event l -> 0 <= b < 4096 ->
  exists s s' brk, button_run l = Ok s /\ set_input s b = Ok (brk, s') /\
    (brk = true <-> Z.testbit b 11 = true /\ held 11 l = 0).
Proof.
  intros L F B. destruct (button_run_spec l ltac:(lia) F) as (s & E & T & N & O). exists s. unfold set_input.
  rewrite T, map_length, seq_length, mapM_times by lia. cbn [bind]. eexists. eexists. split; [exact E|]. split; [reflexivity|].
  rewrite nth_error_map. change (nth_error (seq 0 12) BUTTON_ID_SELECT) with (Some 11%nat). cbn [option_map].
  unfold time_of. cbn [frame held]. change (Z.of_nat 11) with 11. pose proof (held_bound 11 l).
  destruct (Z.testbit b 11); split; intros H1; try lia; try tauto. all: destruct H1; congruence || lia.
Qed.

(** unknown buttons are rejected and change nothing *)
Lemma brepeat_range s id st rp : ~ (0 <= id <= 12) -> cmd_brepeat s [id; st; rp] = (s, Some ERR_OUT_OF_RANGE).
Proof. intros H. unfold cmd_brepeat. replace ((id <? 0) || (12 <? id)) with true by lia. reflexivity. Qed.
