(** C62: SPANIM shows its characters in turn. *)
From Verif Require Import Base BaseLemmas Memory Graphics Sprites SpritesSpec SpritesProofs SpritesMove.
Ltac Zify.zify_post_hook ::= Z.div_mod_to_equations.
Open Scope Z_scope.

(** the character the sprite shows on the screen *)
Definition shown (S : sprites) (q id : Z) : Z := get_sprite_chr (info S q id).
(** how far apart the characters of a sprite of w by h pixels are *)
Definition apart (w h : Z) : Z := Z.max 1 (w * h / 256).
(** SPCHK says that the animation runs *)
Definition animated (S : sprites) (id : Z) : Prop := exists v, func_spchk S id = Ok v /\ Z.testbit (whole v) 3 = true.
Definition not_animated (S : sprites) (id : Z) : Prop := exists v, func_spchk S id = Ok v /\ Z.testbit (whole v) 3 = false.

Lemma succ_div n t : 0 < t -> 0 <= n ->
  (n mod t + 1 = t -> (n + 1) mod t = 0 /\ (n + 1) / t = n / t + 1) /\ (n mod t + 1 <> t -> (n + 1) mod t = n mod t + 1 /\ (n + 1) / t = n / t).
Proof.
  intros Ht Hn. pose proof (Z.div_mod n t ltac:(lia)) as D. pose proof (Z.mod_pos_bound n t Ht) as B. split; intros E.
  - split; [symmetry; apply (Z.mod_unique_pos _ _ (n / t + 1)); nia|symmetry; apply (Z.div_unique_pos _ _ _ 0); nia].
  - split; [symmetry; apply (Z.mod_unique_pos _ _ (n / t)); nia|symmetry; apply (Z.div_unique_pos _ _ _ (n mod t + 1)); nia].
Qed.
Lemma apart_eq w h : (let k := w * h / 256 in if k <? 1 then 1 else k) = apart w h.
Proof. cbv zeta. unfold apart. destruct (_ <? 1) eqn:E; lia. Qed.
Lemma quot_k k m : 0 < k -> Z.quot (k * m) k = m.
Proof. intros H. rewrite Z.mul_comm. apply Z.quot_mul. lia. Qed.

Section Turn.
Variables (w h chr c t : Z).
Hypotheses (Hc : 1 <= c) (Ht : 1 <= t).
Let k := apart w h.
Let step a := fst (next_anim w h chr a).
Lemma k_pos : 1 <= k. Proof. unfold k, apart. lia. Qed.
Lemma turn_forever l n : iter n step (mkAnim c t l true 0 chr) = mkAnim c t l true (Z.of_nat n mod t) (chr + k * ((Z.of_nat n / t) mod c)).
Proof.
  pose proof k_pos as K. induction n as [|n IH].
  - cbn [iter]. change (Z.of_nat 0) with 0. rewrite Z.mod_0_l, Z.div_0_l, Z.mod_0_l by lia. f_equal. lia.
  - cbn [iter]. rewrite IH. unfold step, next_anim. cbn [a_forever a_loop a_frame a_fpc a_chr a_chrs orb negb andb]. rewrite apart_eq. fold k.
    set (m := Z.of_nat n). replace (Z.of_nat (S n)) with (m + 1) by (unfold m; lia). assert (Hm : 0 <= m) by (unfold m; lia). clearbody m.
    destruct (succ_div m t ltac:(lia) Hm) as (A & B).
    assert (Hq : 0 <= m / t) by (apply Z.div_pos; lia). destruct (succ_div (m / t) c ltac:(lia) Hq) as (C & D).
    destruct (Z.eqb_spec (m mod t + 1) t) as [E|E].
    + destruct (A E) as (-> & ->). replace (chr + k * ((m / t) mod c) + k - chr) with (k * ((m / t) mod c + 1)) by lia. rewrite quot_k by lia.
      destruct (Z.eqb_spec ((m / t) mod c + 1) c) as [F|F]; cbn [fst].
      * destruct (C F) as (-> & _). f_equal. lia.
      * destruct (D F) as (-> & _). f_equal. lia.
    + destruct (B E) as (-> & ->). reflexivity.
Qed.
Lemma turn_end l n : l <= 0 -> forall f x, iter n step (mkAnim c t l false f x) = mkAnim c t l false f x.
Proof. intros L f x. induction n as [|n IH]; [reflexivity|]. cbn [iter]. rewrite IH. unfold step, next_anim. cbn [a_forever a_loop orb]. replace (l >? 0) with false by lia. reflexivity. Qed.
Lemma turn_loops l n : 1 <= l -> iter n step (mkAnim c t l false 0 chr) =
  if Z.of_nat n <? l * c * t then mkAnim c t (l - Z.of_nat n / t / c) false (Z.of_nat n mod t) (chr + k * ((Z.of_nat n / t) mod c)) else mkAnim c t 0 false 0 (chr + k * (c - 1)).
Proof.
  intros L. pose proof k_pos as K. induction n as [|n IH].
  - cbn [iter]. change (Z.of_nat 0) with 0. replace (0 <? l * c * t) with true by (symmetry; apply Z.ltb_lt; nia). rewrite Z.mod_0_l, !Z.div_0_l, Z.mod_0_l by lia. f_equal; lia.
  - cbn [iter]. rewrite IH. clear IH. set (m := Z.of_nat n). replace (Z.of_nat (S n)) with (m + 1) by (unfold m; lia). assert (Hm : 0 <= m) by (unfold m; lia). clearbody m.
    destruct (Z.ltb_spec m (l * c * t)) as [X|X].
    2:{ replace (m + 1 <? l * c * t) with false by lia. unfold step, next_anim. cbn [a_forever a_loop orb fst]. reflexivity. }
    destruct (succ_div m t ltac:(lia) Hm) as (A & B).
    assert (Hq : 0 <= m / t) by (apply Z.div_pos; lia). destruct (succ_div (m / t) c ltac:(lia) Hq) as (C & D).
    assert (Hr : 0 <= m / t / c) by (apply Z.div_pos; lia).
    pose proof (Z.div_mod m t ltac:(lia)) as D1. pose proof (Z.mod_pos_bound m t ltac:(lia)) as B1.
    pose proof (Z.div_mod (m / t) c ltac:(lia)) as D2. pose proof (Z.mod_pos_bound (m / t) c ltac:(lia)) as B2.
    assert (Lq : m / t < l * c) by (apply Z.div_lt_upper_bound; nia).
    assert (Lr : m / t / c < l) by (apply Z.div_lt_upper_bound; nia).
    unfold step, next_anim. cbn [a_forever a_loop a_frame a_fpc a_chr a_chrs orb negb andb]. rewrite apart_eq. fold k.
    replace (l - m / t / c >? 0) with true by lia.
    destruct (Z.eqb_spec (m mod t + 1) t) as [E|E].
    + destruct (A E) as (-> & ->). replace (chr + k * ((m / t) mod c) + k - chr) with (k * ((m / t) mod c + 1)) by lia. rewrite quot_k by lia.
      destruct (Z.eqb_spec ((m / t) mod c + 1) c) as [F|F]; cbn [fst].
      * destruct (C F) as (-> & ->).
        destruct (Z.eqb_spec (l - m / t / c - 1) 0) as [G|G].
        -- cbn [fst]. assert (M1 : m + 1 = l * c * t) by nia. replace (m + 1 <? l * c * t) with false by lia. rewrite G. f_equal. nia.
        -- cbn [fst]. assert (m / t / c + 2 <= l) by lia. assert (m / t + 1 <= (l - 1) * c) by nia. assert (m + 1 <= (l - 1) * c * t) by nia. assert (0 < c * t) by nia.
           replace (m + 1 <? l * c * t) with true by (symmetry; apply Z.ltb_lt; nia). f_equal; lia.
      * destruct (D F) as (-> & ->). assert (m / t + 2 <= (m / t / c + 1) * c) by nia. assert (m / t + 2 <= l * c) by nia. assert (m + 1 < l * c * t) by nia.
        replace (m + 1 <? l * c * t) with true by lia. f_equal; lia.
    + destruct (B E) as (-> & ->). cbn [fst]. assert (m + 1 < t * (m / t + 1)) by nia. assert (m + 1 < l * c * t) by nia. replace (m + 1 <? l * c * t) with true by lia. reflexivity.
Qed.
End Turn.

Section Spanim.
Variables (S : sprites) (id chrs time : Z).
Let q := page_ S.
Let i := whole id.
Let s := info S q i.
Hypotheses (P : screen_ok S) (Hi : 0 <= i <= 99) (A : exists_sprite S i) (U : undisturbed S q i) (Hc : 1 <= whole chrs) (Ht : 1 <= whole time) (H0 : 0 <= s_chr s).

Lemma put_course a n : let S' := put S i (set_anim a s) in
  let s' := info (frames n S') q i in
  anim_ s' = iter n (fun a => fst (next_anim (s_w s) (s_h s) (s_chr s) a)) a /\ s_chr s' = s_chr s /\ page_ (frames n S') = q.
Proof.
  cbv zeta. set (S' := put S i (set_anim a s)).
  assert (I : info S' q i = set_anim a s) by apply put_at.
  assert (O : forall j, j <> i -> info S' q j = info S q j) by (intros j N; apply put_same_but; intros (_ & E); contradiction).
  destruct (parts_course S' q i P ltac:(lia)) with (n := n) as (_ & _ & _ & PA & _ & _ & PC & _).
  - rewrite I. exact A.
  - intros j Hj. rewrite O by lia. apply U. exact Hj.
  - rewrite PA, PC, I. split; [reflexivity|]. split; [reflexivity|]. rewrite page_frames. reflexivity.
Qed.
Lemma spchk_bit T : page_ T = q -> exists v, func_spchk T id = Ok v /\ Z.testbit (whole v) 3 = a_forever (anim_ (info T q i)) || (a_loop (anim_ (info T q i)) >? 0).
Proof.
  intros E. unfold func_spchk, int_range. change (FP_TO_INT id) with i. replace ((i <? 0) || (i >? 99)) with false by lia.
  rewrite in_table_ok; [|unfold screen_ok; rewrite E; exact P|exact Hi]. rewrite E. eexists. split; [reflexivity|].
  destruct (ptime _ >=? 0), (ctime (angle _) >=? 0), (ctime (scale _) >=? 0), (a_forever _ || _); reflexivity.
Qed.
End Spanim.

Section Claims.
Variables (S : sprites) (id chrs time : Z).
Let first := s_chr (info S (page_ S) (whole id)).
Let step := apart (s_w (info S (page_ S) (whole id))) (s_h (info S (page_ S) (whole id))).
Hypotheses (P : screen_ok S) (Hi : 0 <= whole id <= 99) (A : exists_sprite S (whole id)) (U : undisturbed S (page_ S) (whole id))
  (Hc : 1 <= whole chrs) (Ht : 1 <= whole time) (H0 : 0 <= first).

(** without a number of loops, or with 0: forever *)
Theorem C62_forever_partial : forall loop, match loop with None => True | Some l => whole l = 0 end ->
  exists S', cmd_spanim S id chrs time loop = (S', Done) /\ same_but (page_ S) (whole id) S S' /\
    forall n, shown (frames n S') (page_ S) (whole id) = first + step * ((Z.of_nat n / whole time) mod whole chrs) /\ animated (frames n S') id.
Proof.
  intros loop HL.
  assert (E : exists l, cmd_spanim S id chrs time loop = (put S (whole id) (set_anim (mkAnim (whole chrs) (whole time) l true 0 first) (info S (page_ S) (whole id))), Done)).
  { unfold cmd_spanim. rewrite range_ok by lia. unfold at_least. change (FP_TO_INT chrs) with (whole chrs). change (FP_TO_INT time) with (whole time).
    replace (whole chrs <? 0) with false by lia. replace (whole time <? 0) with false by lia. rewrite slot_ok by assumption. destruct loop as [l|].
    - change (FP_TO_INT l) with (whole l). rewrite HL. cbn [Z.ltb Z.compare Z.eqb]. exists 0. reflexivity.
    - exists 0. reflexivity. }
  destruct E as (l & E). eexists. split; [exact E|]. split; [apply put_same_but|]. intros n.
  destruct (put_course S id P Hi A U (mkAnim (whole chrs) (whole time) l true 0 first) n) as (PA & PC & PP). cbv zeta in *.
  rewrite turn_forever in PA by assumption. split.
  - unfold shown, get_sprite_chr. rewrite PA. cbn [a_chr]. fold first. fold step.
    assert (0 <= step * ((Z.of_nat n / whole time) mod whole chrs)). { apply Z.mul_nonneg_nonneg; [unfold step, apart; lia|]. apply Z.mod_pos_bound. lia. }
    replace (_ >=? 0) with true by lia. reflexivity.
  - destruct (spchk_bit S id P Hi _ PP) as (v & V1 & V2). exists v. split; [exact V1|]. rewrite V2, PA. reflexivity.
Qed.
(** with loops: that many times, and then the last one stays; SPCHK tells when *)
Theorem C62_loops_partial : forall loops, 1 <= whole loops ->
  exists S', cmd_spanim S id chrs time (Some loops) = (S', Done) /\ same_but (page_ S) (whole id) S S' /\
    forall n, let len := whole loops * whole chrs * whole time in
     (Z.of_nat n < len -> shown (frames n S') (page_ S) (whole id) = first + step * ((Z.of_nat n / whole time) mod whole chrs) /\ animated (frames n S') id) /\
     (len <= Z.of_nat n -> shown (frames n S') (page_ S) (whole id) = first + step * (whole chrs - 1) /\ not_animated (frames n S') id).
Proof.
  intros loops HL.
  assert (E : cmd_spanim S id chrs time (Some loops) = (put S (whole id) (set_anim (mkAnim (whole chrs) (whole time) (whole loops) false 0 first) (info S (page_ S) (whole id))), Done)).
  { unfold cmd_spanim. rewrite range_ok by lia. unfold at_least. change (FP_TO_INT chrs) with (whole chrs). change (FP_TO_INT time) with (whole time).
    replace (whole chrs <? 0) with false by lia. replace (whole time <? 0) with false by lia. rewrite slot_ok by assumption.
    change (FP_TO_INT loops) with (whole loops). replace (whole loops <? 0) with false by lia. replace (whole loops =? 0) with false by lia. reflexivity. }
  eexists. split; [exact E|]. split; [apply put_same_but|]. intros n. cbv zeta.
  destruct (put_course S id P Hi A U (mkAnim (whole chrs) (whole time) (whole loops) false 0 first) n) as (PA & PC & PP). cbv zeta in *.
  rewrite turn_loops in PA by assumption.
  destruct (spchk_bit S id P Hi _ PP) as (v & V1 & V2).
  assert (K : 1 <= step) by (unfold step, apart; lia).
  split; intros L.
  - replace (Z.of_nat n <? whole loops * whole chrs * whole time) with true in PA by lia. split.
    + unfold shown, get_sprite_chr. rewrite PA. cbn [a_chr]. fold first. fold step.
      assert (0 <= step * ((Z.of_nat n / whole time) mod whole chrs)). { apply Z.mul_nonneg_nonneg; [lia|]. apply Z.mod_pos_bound. lia. }
      replace (_ >=? 0) with true by lia. reflexivity.
    + exists v. split; [exact V1|]. rewrite V2, PA. cbn [a_forever a_loop orb].
      assert (Z.of_nat n / whole time / whole chrs < whole loops).
      { rewrite Z.div_div by lia. apply Z.div_lt_upper_bound; nia. } lia.
  - replace (Z.of_nat n <? whole loops * whole chrs * whole time) with false in PA by lia. split.
    + unfold shown, get_sprite_chr. rewrite PA. cbn [a_chr]. fold first. fold step.
      assert (0 <= step * (whole chrs - 1)) by nia. replace (_ >=? 0) with true by lia. reflexivity.
    + exists v. split; [exact V1|]. rewrite V2, PA. reflexivity.
Qed.
End Claims.

(** ** What is wrong *)
(** time 0 is accepted, and the animation never moves, nor ends *)
(** time 0 is accepted; the animation then never moves, and never ends *)
Theorem C62_no_time_refuted : forall S id chrs time loops, screen_ok S -> 0 <= whole id <= 99 -> exists_sprite S (whole id) -> undisturbed S (page_ S) (whole id) ->
  0 <= whole chrs -> whole time = 0 -> 1 <= whole loops -> 0 <= s_chr (info S (page_ S) (whole id)) ->
  exists S', cmd_spanim S id chrs time (Some loops) = (S', Done) /\ forall n, shown (frames n S') (page_ S) (whole id) = s_chr (info S (page_ S) (whole id)) /\ animated (frames n S') id.
Proof.
  intros S id chrs time loops P Hi A U Hc Ht HL H0. set (first := s_chr _) in *.
  assert (E : cmd_spanim S id chrs time (Some loops) = (put S (whole id) (set_anim (mkAnim (whole chrs) 0 (whole loops) false 0 first) (info S (page_ S) (whole id))), Done)).
  { unfold cmd_spanim. rewrite range_ok by lia. unfold at_least. change (FP_TO_INT chrs) with (whole chrs). change (FP_TO_INT time) with (whole time). rewrite Ht.
    replace (whole chrs <? 0) with false by lia. cbn [Z.ltb Z.compare]. rewrite slot_ok by assumption.
    change (FP_TO_INT loops) with (whole loops). replace (whole loops <? 0) with false by lia. replace (whole loops =? 0) with false by lia. reflexivity. }
  eexists. split; [exact E|]. intros n.
  destruct (put_course S id P Hi A U (mkAnim (whole chrs) 0 (whole loops) false 0 first) n) as (PA & PC & PP). cbv zeta in *.
  assert (I : iter n (fun a => fst (next_anim (s_w (info S (page_ S) (whole id))) (s_h (info S (page_ S) (whole id))) (s_chr (info S (page_ S) (whole id))) a)) (mkAnim (whole chrs) 0 (whole loops) false 0 first) = mkAnim (whole chrs) 0 (whole loops) false (Z.of_nat n) first).
  { clear PA PC PP. induction n as [|n IH]; [reflexivity|]. cbn [iter]. rewrite IH. unfold next_anim. cbn [a_forever a_loop a_frame a_fpc a_chr a_chrs orb].
    replace (whole loops >? 0) with true by lia. replace (Z.of_nat n + 1 =? 0) with false by lia. cbn [fst]. f_equal. lia. }
  rewrite I in PA. split.
  - unfold shown, get_sprite_chr. rewrite PA. cbn [a_chr]. replace (first >=? 0) with true by lia. reflexivity.
  - destruct (spchk_bit S id P Hi _ PP) as (v & V1 & V2). exists v. split; [exact V1|]. rewrite V2, PA. cbn [a_forever a_loop orb]. lia.
Qed.
(** 0 characters are accepted; the animation then runs on through all the characters there are, and beyond *)
Theorem C62_no_chrs_refuted : forall S id chrs time loops, screen_ok S -> 0 <= whole id <= 99 -> exists_sprite S (whole id) -> undisturbed S (page_ S) (whole id) ->
  whole chrs = 0 -> 1 <= whole time -> 1 <= whole loops -> 0 <= s_chr (info S (page_ S) (whole id)) ->
  exists S', cmd_spanim S id chrs time (Some loops) = (S', Done) /\ forall m, exists n, shown (frames n S') (page_ S) (whole id) >= m.
Proof.
  intros S id chrs time loops P Hi A U Hc Ht HL H0. set (first := s_chr _) in *.
  assert (E : cmd_spanim S id chrs time (Some loops) = (put S (whole id) (set_anim (mkAnim 0 (whole time) (whole loops) false 0 first) (info S (page_ S) (whole id))), Done)).
  { unfold cmd_spanim. rewrite range_ok by lia. unfold at_least. change (FP_TO_INT chrs) with (whole chrs). change (FP_TO_INT time) with (whole time). rewrite Hc.
    replace (whole time <? 0) with false by lia. cbn [Z.ltb Z.compare]. rewrite slot_ok by assumption.
    change (FP_TO_INT loops) with (whole loops). replace (whole loops <? 0) with false by lia. replace (whole loops =? 0) with false by lia. reflexivity. }
  eexists. split; [exact E|].
  set (k := apart (s_w (info S (page_ S) (whole id))) (s_h (info S (page_ S) (whole id)))). assert (K : 1 <= k) by (unfold k, apart; lia).
  assert (I : forall n, shown (frames n (put S (whole id) (set_anim (mkAnim 0 (whole time) (whole loops) false 0 first) (info S (page_ S) (whole id))))) (page_ S) (whole id) = first + k * (Z.of_nat n / whole time)).
  { intros n. destruct (put_course S id P Hi A U (mkAnim 0 (whole time) (whole loops) false 0 first) n) as (PA & PC & PP). cbv zeta in *.
    assert (I : iter n (fun a => fst (next_anim (s_w (info S (page_ S) (whole id))) (s_h (info S (page_ S) (whole id))) (s_chr (info S (page_ S) (whole id))) a)) (mkAnim 0 (whole time) (whole loops) false 0 first)
       = mkAnim 0 (whole time) (whole loops) false (Z.of_nat n mod whole time) (first + k * (Z.of_nat n / whole time))).
    { clear PA PC PP. induction n as [|n IH].
      - cbn [iter]. change (Z.of_nat 0) with 0. rewrite Z.mod_0_l, Z.div_0_l by lia. f_equal. lia.
      - cbn [iter]. rewrite IH. unfold next_anim. cbn [a_forever a_loop a_frame a_fpc a_chr a_chrs orb]. rewrite apart_eq. fold k. fold first.
        replace (whole loops >? 0) with true by lia. replace (Z.of_nat (Datatypes.S n)) with (Z.of_nat n + 1) by lia.
        assert (Hq : 0 <= Z.of_nat n / whole time) by (apply Z.div_pos; lia).
        destruct (succ_div (Z.of_nat n) (whole time) ltac:(lia) ltac:(lia)) as (X & Y).
        destruct (Z.eqb_spec (Z.of_nat n mod whole time + 1) (whole time)) as [F|F].
        + destruct (X F) as (-> & ->). replace (first + k * (Z.of_nat n / whole time) + k - first) with (k * (Z.of_nat n / whole time + 1)) by lia. rewrite quot_k by lia.
          replace (Z.of_nat n / whole time + 1 =? 0) with false by (symmetry; apply Z.eqb_neq; clear - Hq; lia). cbn [fst]. f_equal. lia.
        + destruct (Y F) as (-> & ->). reflexivity. }
    rewrite I in PA. unfold shown, get_sprite_chr. rewrite PA. cbn [a_chr].
    assert (0 <= k * (Z.of_nat n / whole time)) by (apply Z.mul_nonneg_nonneg; [lia|apply Z.div_pos; lia]). replace (_ >=? 0) with true by lia. reflexivity. }
  intros m. exists (Z.to_nat (Z.max 0 m * whole time)). rewrite I, Z2Nat.id by nia. rewrite Z.div_mul by lia. nia.
Qed.
(** once animated, a sprite does not show what SPCHR says, even when the animation has ended *)
Definition ended : sprites := frames 6 (fst (cmd_spanim one 4096 (2 * 4096) (3 * 4096) (Some 4096))).
Theorem C62_spchr_refuted : not_animated ended 4096 /\ exists S2, cmd_spchr ended 4096 (9 * 4096) None = (S2, Done) /\ forall n, shown (frames n S2) 0 1 = 6.
Proof.
  split; [eexists; split; vm_compute; reflexivity|].
  assert (D : snd (cmd_spchr ended 4096 (9 * 4096) None) = Done) by (vm_compute; reflexivity).
  assert (I0 : anim_ (info (fst (cmd_spchr ended 4096 (9 * 4096) None)) 0 1) = mkAnim 2 3 0 false 0 6) by (vm_compute; reflexivity).
  destruct (cmd_spchr ended 4096 (9 * 4096) None) as [S2 d]. cbn [fst snd] in *. subst d. exists S2. split; [reflexivity|]. intros n.
  assert (I : anim_ (info (frames n S2) 0 1) = mkAnim 2 3 0 false 0 6).
  { induction n as [|n IH]; [exact I0|]. cbn [frames]. destruct (frame_cases (frames n S2) 0 1) as [E|E]; rewrite E; [|exact IH]. rewrite step_sprite_eq.
    destruct (active (info (frames n S2) 0 1)); [cbn [fst anim_]|exact IH]. rewrite IH. reflexivity. }
  unfold shown, get_sprite_chr. rewrite I. reflexivity.
Qed.
Example C62_ok : screen_ok one /\ 0 <= whole 4096 <= 99 /\ exists_sprite one (whole 4096) /\ undisturbed one 0 1 /\ 0 <= s_chr (info one 0 1) /\
  exists S', cmd_spanim one 4096 (3 * 4096) (2 * 4096) None = (S', Done) /\ map (fun n => shown (frames n S') 0 1) [0; 1; 2; 3; 4; 5; 6; 7]%nat = [5; 5; 6; 6; 7; 7; 5; 5].
Proof.
  split; [split; discriminate|]. split; [split; discriminate|]. split; [reflexivity|]. split.
  { intros j Hj. assert (j = 0) as -> by lia. intros X. discriminate X. }
  split; [discriminate|]. eexists. split; [reflexivity|]. vm_compute. reflexivity.
Qed.
Print Assumptions C62_forever_partial.
Print Assumptions C62_loops_partial.
Print Assumptions C62_no_time_refuted.
Print Assumptions C62_no_chrs_refuted.
Print Assumptions C62_spchr_refuted.
