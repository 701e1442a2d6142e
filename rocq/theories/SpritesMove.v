(** C42: SPOFS and the passing of frames.  C61: SPSCALE and SPANGLE. *)
From Verif Require Import Base BaseLemmas Memory Graphics Sprites SpritesSpec SpritesProofs.
Ltac Zify.zify_post_hook ::= Z.div_mod_to_equations.
Open Scope Z_scope.

(** ** courses *)
Lemma between a b k t : 0 <= k <= t -> INT_MIN <= a <= INT_MAX -> INT_MIN <= a + t * b <= INT_MAX -> INT_MIN <= a + k * b <= INT_MAX.
Proof. unfold INT_MIN, INT_MAX. change (2 ^ 31) with 2147483648. intros.
  destruct (Z_le_dec 0 b) as [B|B].
  - assert (0 * b <= k * b) by (apply Z.mul_le_mono_nonneg_r; lia). assert (k * b <= t * b) by (apply Z.mul_le_mono_nonneg_r; lia). lia.
  - assert (k * b <= 0 * b) by (apply Z.mul_le_mono_nonpos_r; lia). assert (t * b <= k * b) by (apply Z.mul_le_mono_nonpos_r; lia). lia.
Qed.
Lemma pos_course x y dx dy t : 0 <= t -> INT_MIN <= x <= INT_MAX -> INT_MIN <= y <= INT_MAX -> INT_MIN <= x + t * dx <= INT_MAX -> INT_MIN <= y + t * dy <= INT_MAX ->
  forall n, let k := Z.min (Z.of_nat n) t in iter n next_pos (mkMotion x y dx dy (t - 1)) = mkMotion (x + k * dx) (y + k * dy) dx dy (t - 1 - k).
Proof.
  intros Ht Hx Hy Ex Ey n. cbv zeta. induction n as [|n IH].
  - cbn [iter]. replace (Z.min (Z.of_nat 0) t) with 0 by lia. f_equal; lia.
  - cbn [iter]. rewrite IH. unfold next_pos. cbn [ptime px_ py_ pdx pdy]. destruct (t - 1 - Z.min (Z.of_nat n) t >=? 0) eqn:E.
    + replace (Z.min (Z.of_nat (S n)) t) with (Z.min (Z.of_nat n) t + 1) by lia. set (k := Z.min (Z.of_nat n) t) in *.
      assert (B1 := between x dx (k + 1) t ltac:(lia) Hx Ex). assert (B2 := between y dy (k + 1) t ltac:(lia) Hy Ey).
      replace (x + k * dx + dx) with (x + (k + 1) * dx) by lia. replace (y + k * dy + dy) with (y + (k + 1) * dy) by lia.
      rewrite !s32_id by assumption. f_equal; lia.
    + replace (Z.min (Z.of_nat (S n)) t) with (Z.min (Z.of_nat n) t) by lia. reflexivity.
Qed.
Lemma scale_course v d t : 0 <= t -> INT_MIN <= v <= INT_MAX -> INT_MIN <= v + (t + 1) * d <= INT_MAX ->
  forall n, let k := Z.min (Z.of_nat n) (t + 1) in iter n next_change_scale (mkChange v d t) = mkChange (v + k * d) d (t - k).
Proof.
  intros Ht Hv Ev n. cbv zeta. induction n as [|n IH].
  - cbn [iter]. replace (Z.min (Z.of_nat 0) (t + 1)) with 0 by lia. f_equal; lia.
  - cbn [iter]. rewrite IH. unfold next_change_scale. cbn [ctime cv cd]. destruct (t - Z.min (Z.of_nat n) (t + 1) >=? 0) eqn:E.
    + replace (Z.min (Z.of_nat (S n)) (t + 1)) with (Z.min (Z.of_nat n) (t + 1) + 1) by lia. set (k := Z.min (Z.of_nat n) (t + 1)) in *.
      assert (B1 := between v d (k + 1) (t + 1) ltac:(lia) Hv Ev).
      replace (v + k * d + d) with (v + (k + 1) * d) by lia. rewrite s32_id by assumption. f_equal; lia.
    + replace (Z.min (Z.of_nat (S n)) (t + 1)) with (Z.min (Z.of_nat n) (t + 1)) by lia. reflexivity.
Qed.
Lemma angle_course v d t : 0 <= t -> INT_MIN <= v <= INT_MAX -> Z.abs d < 360 * 4096 -> INT_MIN <= v + (t + 1) * d <= INT_MAX ->
  forall n, let k := Z.min (Z.of_nat n) (t + 1) in iter n next_change_angle (mkChange v d t) = mkChange (v + k * d) d (t - k).
Proof.
  intros Ht Hv Hd Ev n. cbv zeta. induction n as [|n IH].
  - cbn [iter]. replace (Z.min (Z.of_nat 0) (t + 1)) with 0 by lia. f_equal; lia.
  - cbn [iter]. rewrite IH. unfold next_change_angle. cbn [ctime cv cd]. destruct (t - Z.min (Z.of_nat n) (t + 1) >=? 0) eqn:E.
    + replace (Z.min (Z.of_nat (S n)) (t + 1)) with (Z.min (Z.of_nat n) (t + 1) + 1) by lia. set (k := Z.min (Z.of_nat n) (t + 1)) in *.
      assert (B1 := between v d (k + 1) (t + 1) ltac:(lia) Hv Ev).
      assert (R : Z.rem d (INT_TO_FP 360) = d).
      { change (INT_TO_FP 360) with 1474560. destruct (Z_le_dec 0 d) as [P|P]; [apply Z.rem_small; lia|].
        replace d with (- (- d)) by lia. rewrite Z.rem_opp_l by lia. rewrite Z.rem_small by lia. lia. }
      rewrite R. replace (v + k * d + d) with (v + (k + 1) * d) by lia. rewrite s32_id by assumption. f_equal; lia.
    + replace (Z.min (Z.of_nat (S n)) (t + 1)) with (Z.min (Z.of_nat n) (t + 1)) by lia. reflexivity.
Qed.
Lemma rest_pos x y dx dy t n : t < 0 -> iter n next_pos (mkMotion x y dx dy t) = mkMotion x y dx dy t.
Proof. intros H. induction n as [|n IH]; [reflexivity|]. cbn [iter]. rewrite IH. unfold next_pos. cbn [ptime]. replace (t >=? 0) with false by lia. reflexivity. Qed.
Lemma rest_scale v d t n : t < 0 -> iter n next_change_scale (mkChange v d t) = mkChange v d t.
Proof. intros H. induction n as [|n IH]; [reflexivity|]. cbn [iter]. rewrite IH. unfold next_change_scale. cbn [ctime]. replace (t >=? 0) with false by lia. reflexivity. Qed.
Lemma rest_angle v d t n : t < 0 -> iter n next_change_angle (mkChange v d t) = mkChange v d t.
Proof. intros H. induction n as [|n IH]; [reflexivity|]. cbn [iter]. rewrite IH. unfold next_change_angle. cbn [ctime]. replace (t >=? 0) with false by lia. reflexivity. Qed.
(** at rest whether or not the frame reaches the sprite *)
Lemma still_pos S q id n : ptime (pos (info S q id)) < 0 -> pos (info (frames n S) q id) = pos (info S q id).
Proof.
  intros H. induction n as [|n IH]; [reflexivity|]. cbn [frames]. destruct (frame_cases (frames n S) q id) as [E|E]; rewrite E; [|exact IH].
  rewrite step_sprite_eq. destruct (active _); cbn [fst pos]; [|exact IH]. rewrite IH. unfold next_pos. replace (_ >=? 0) with false by lia. reflexivity.
Qed.
Lemma still_scale S q id n : ctime (scale (info S q id)) < 0 -> scale (info (frames n S) q id) = scale (info S q id).
Proof.
  intros H. induction n as [|n IH]; [reflexivity|]. cbn [frames]. destruct (frame_cases (frames n S) q id) as [E|E]; rewrite E; [|exact IH].
  rewrite step_sprite_eq. destruct (active _); cbn [fst scale]; [|exact IH]. rewrite IH. unfold next_change_scale. replace (_ >=? 0) with false by lia. reflexivity.
Qed.
Lemma still_angle S q id n : ctime (angle (info S q id)) < 0 -> angle (info (frames n S) q id) = angle (info S q id).
Proof.
  intros H. induction n as [|n IH]; [reflexivity|]. cbn [frames]. destruct (frame_cases (frames n S) q id) as [E|E]; rewrite E; [|exact IH].
  rewrite step_sprite_eq. destruct (active _); cbn [fst angle]; [|exact IH]. rewrite IH. unfold next_change_angle. replace (_ >=? 0) with false by lia. reflexivity.
Qed.

(** ** other sprites *)
Definition animates_alike (s t : sprite) : Prop := active t = active s /\ s_w t = s_w s /\ s_h t = s_h s /\ s_chr t = s_chr s /\ anim_ t = anim_ s.
Lemma alike_stops s t : animates_alike s t -> snd (step_sprite t) = snd (step_sprite s).
Proof. intros (A & B & C & D & E). rewrite !step_sprite_eq, A, B, C, D, E. destruct (active s); reflexivity. Qed.
Lemma alike_step s t : animates_alike s t -> animates_alike (fst (step_sprite s)) (fst (step_sprite t)).
Proof. intros H. assert (H' := H). destruct H as (A & B & C & D & E). rewrite !step_sprite_eq, A, B, C, D, E. destruct (active s); [repeat split|exact H']. Qed.
Lemma others q id S T : same_but q id S T -> animates_alike (info S q id) (info T q id) ->
  forall n, same_but q id (frames n S) (frames n T) /\ animates_alike (info (frames n S) q id) (info (frames n T) q id).
Proof.
  intros SB AL n. induction n as [|n (IB & IA)]; [split; assumption|]. cbn [frames].
  set (S' := frames n S) in *. set (T' := frames n T) in *. clearbody S' T'.
  destruct IB as (B1 & B2 & B3 & B4 & B5 & B6).
  assert (SP : forall p j, stops (info T' p) j = stops (info S' p) j).
  { intros p j. unfold stops. destruct (Z.eq_dec p q) as [->|N]; [|rewrite (B6 p j) by tauto; reflexivity].
    destruct (Z.eq_dec j id) as [->|N]; [apply alike_stops; exact IA|rewrite (B6 q j) by tauto; reflexivity]. }
  assert (CL : forall p i j, clear_to (info T' p) i j <-> clear_to (info S' p) i j).
  { intros p i j. unfold clear_to. split; intros H m Hm; specialize (H m Hm); [rewrite <- SP|rewrite SP]; exact H. }
  assert (ST : forall p j, (0 <= p <= 1 /\ 0 <= j < 100 /\ clear_to (info S' p) 0 j) \/ ~ (0 <= p <= 1 /\ 0 <= j < 100 /\ clear_to (info S' p) 0 j)).
  { intros p j. destruct (clear_dec' (info S' p) 0 j); [|tauto]. destruct (Z_le_dec 0 p); [|right; lia]. destruct (Z_le_dec p 1); [|right; lia].
    destruct (Z_le_dec 0 j); [|right; lia]. destruct (Z_lt_dec j 100); [|right; lia]. left. auto. }
  split.
  - repeat split; try assumption. intros p j N. destruct (ST p j) as [(P & J & C)|H].
    + rewrite !frame_info by (assumption || (apply CL; assumption)). rewrite (B6 p j N). reflexivity.
    + assert (H' : ~ (0 <= p <= 1 /\ 0 <= j < 100 /\ clear_to (info T' p) 0 j)) by (rewrite CL; exact H).
      rewrite (frame_held S' p j H), (frame_held T' p j H'). apply B6. exact N.
  - destruct (ST q id) as [(P & J & C)|H].
    + rewrite !frame_info by (assumption || (apply CL; assumption)). apply alike_step. exact IA.
    + assert (H' : ~ (0 <= q <= 1 /\ 0 <= id < 100 /\ clear_to (info T' q) 0 id)) by (rewrite CL; exact H).
      rewrite (frame_held S' q id H), (frame_held T' q id H'). exact IA.
Qed.

Lemma land_floor v : Z.land v (- 4096) = 4096 * (v / 4096).
Proof.
  replace (- 4096) with (Z.lnot (Z.ones 12)) by reflexivity. rewrite <- Z.ldiff_land. rewrite Z.ldiff_ones_r by lia.
  rewrite Z.shiftl_mul_pow2 by lia. rewrite Z.shiftr_div_pow2 by lia. change (2 ^ 12) with 4096. lia.
Qed.
Lemma spofs_eq S id x y t : screen_ok S -> 0 <= whole id <= 99 -> exists_sprite S (whole id) -> 0 <= whole t ->
  cmd_spofs S id x y (Some t) =
    let s := info S (page_ S) (whole id) in
    (put S (whole id) (set_pos (if whole t =? 0 then mkMotion (4096 * whole x) (4096 * whole y) (pdx (pos s)) (pdy (pos s)) (-1)
       else mkMotion (px_ (pos s)) (py_ (pos s)) (Z.quot (s32 (4096 * whole x - px_ (pos s))) (whole t)) (Z.quot (s32 (4096 * whole y - py_ (pos s))) (whole t)) (whole t - 1)) s), Done).
Proof.
  intros P I A T. unfold cmd_spofs. rewrite range_ok by exact I. cbv zeta. rewrite slot_ok by assumption. unfold live. unfold exists_sprite in A. rewrite A.
  unfold at_least, FP_TO_INT. fold (whole t). replace (whole t <? 0) with false by lia. rewrite !land_floor. unfold whole. destruct (t / 4096 =? 0); reflexivity.
Qed.
Lemma quot_near d t : 1 <= t -> Z.abs (d - t * Z.quot d t) < t /\ Z.min 0 d <= t * Z.quot d t <= Z.max 0 d.
Proof.
  intros H. assert (K : forall e, 0 <= e -> 0 <= t * Z.quot e t <= e /\ e - t * Z.quot e t < t).
  { intros e He. rewrite Z.quot_div_nonneg by lia. assert (E := Z.div_mod e t ltac:(lia)). assert (B := Z.mod_pos_bound e t ltac:(lia)).
    assert (0 <= t * (e / t)) by (apply Z.mul_nonneg_nonneg; [lia|apply Z.div_pos; lia]). lia. }
  destruct (Z_le_dec 0 d) as [P|P].
  - specialize (K d P). lia.
  - specialize (K (- d) ltac:(lia)). rewrite Z.quot_opp_l in K by lia. rewrite Z.mul_opp_r in K. lia.
Qed.

(** *** the motion *)
(** While undisturbed: n frames after SPOFS id,x,y,t the sprite has gone n steps of 1/t of the way, each
    rounded towards zero to 1/4096 pixel, and stays there after t frames: less than t/4096 pixels short of
    the target, exactly there if t divides the way. *)
Theorem C42_moves_partial : forall S id x y t, screen_ok S -> 0 <= whole id <= 99 -> exists_sprite S (whole id) -> undisturbed S (page_ S) (whole id) ->
  1 <= whole t -> near x -> near y ->
  let q := page_ S in let i := whole id in
  let ways := 4096 * whole x - x_of S q i in let wayu := 4096 * whole y - y_of S q i in
  near (x_of S q i) -> near (y_of S q i) ->
  exists S', cmd_spofs S id x y (Some t) = (S', Done) /\
    (forall n, let k := Z.min (Z.of_nat n) (whole t) in
       x_of (frames n S') q i = x_of S q i + k * Z.quot ways (whole t) /\ y_of (frames n S') q i = y_of S q i + k * Z.quot wayu (whole t)) /\
    (forall n, whole t <= Z.of_nat n ->
       Z.abs (4096 * whole x - x_of (frames n S') q i) < whole t /\ Z.abs (4096 * whole y - y_of (frames n S') q i) < whole t /\
       ((whole t | ways) -> x_of (frames n S') q i = 4096 * whole x) /\ ((whole t | wayu) -> y_of (frames n S') q i = 4096 * whole y)) /\
    (forall n, func_spchk (frames n S') id = Ok (4096 * (b2z (Z.of_nat n <? whole t) + 2 * b2z (ctime (angle (info (frames n S') q i)) >=? 0) + 4 * b2z (ctime (scale (info (frames n S') q i)) >=? 0)
        + 8 * b2z (a_forever (anim_ (info (frames n S') q i)) || (a_loop (anim_ (info (frames n S') q i)) >? 0))))).
Proof.
  intros S id x y t P I A U T Nx Ny q i ways wayu N1 N2.
  rewrite spofs_eq by (assumption || lia). cbv zeta. fold q i. replace (whole t =? 0) with false by lia.
  set (s := info S q i). set (S' := put S i _). exists S'. split; [reflexivity|].
  unfold near in *. change (2 ^ 30) with 1073741824 in *.
  assert (Bx : - 1073741824 <= 4096 * whole x < 1073741824 /\ - 1073741824 <= 4096 * whole y < 1073741824) by (unfold whole; lia).
  assert (Ws : - 2147483648 <= ways <= 2147483647) by (unfold ways; lia). assert (Wu : - 2147483648 <= wayu <= 2147483647) by (unfold wayu; lia).
  assert (E' : pos (info S' q i) = mkMotion (x_of S q i) (y_of S q i) (Z.quot ways (whole t)) (Z.quot wayu (whole t)) (whole t - 1)).
  { unfold S', q. rewrite put_at. cbn [set_pos pos]. unfold s. fold (x_of S q i) (y_of S q i) ways wayu.
    rewrite !s32_id by (unfold INT_MIN, INT_MAX; change (2 ^ 31) with 2147483648; lia). reflexivity. }
  assert (A' : active (info S' q i) = true) by (unfold S', q; rewrite put_at; exact A).
  assert (U' : undisturbed S' q i).
  { intros j Hj Aj. revert Aj. unfold S'. rewrite put_info. replace ((q =? page_ S) && (j =? i)) with false by lia. apply U. exact Hj. }
  destruct (quot_near ways (whole t) T) as (Q1 & Q2). destruct (quot_near wayu (whole t) T) as (Q3 & Q4).
  assert (C : forall n, pos (info (frames n S') q i) = mkMotion (x_of S q i + Z.min (Z.of_nat n) (whole t) * Z.quot ways (whole t)) (y_of S q i + Z.min (Z.of_nat n) (whole t) * Z.quot wayu (whole t))
     (Z.quot ways (whole t)) (Z.quot wayu (whole t)) (whole t - 1 - Z.min (Z.of_nat n) (whole t))).
  { intros n. destruct (parts_course S' q i ltac:(unfold screen_ok in P; unfold q; lia) ltac:(unfold i; lia) A' U' n) as (C & _). rewrite C, E'.
    apply pos_course; unfold INT_MIN, INT_MAX; change (2 ^ 31) with 2147483648; unfold ways, wayu in *; lia. }
  assert (C1 : forall n, x_of (frames n S') q i = x_of S q i + Z.min (Z.of_nat n) (whole t) * Z.quot ways (whole t)) by (intros n; unfold x_of at 1; rewrite C; reflexivity).
  assert (C2 : forall n, y_of (frames n S') q i = y_of S q i + Z.min (Z.of_nat n) (whole t) * Z.quot wayu (whole t)) by (intros n; unfold y_of at 1; rewrite C; reflexivity).
  split; [intros n; split; [apply C1|apply C2]|]. split.
  - intros n Hn. rewrite C1, C2. replace (Z.min (Z.of_nat n) (whole t)) with (whole t) by lia.
    split; [unfold ways in *; lia|]. split; [unfold wayu in *; lia|]. split.
    + intros (k & K). rewrite K, Z.quot_mul by lia. unfold ways in K. lia.
    + intros (k & K). rewrite K, Z.quot_mul by lia. unfold wayu in K. lia.
  - intros n. unfold func_spchk, int_range, FP_TO_INT. fold (whole id). fold i. replace ((i <? 0) || (i >? 99)) with false by lia.
    assert (PG : page_ (frames n S') = q) by (rewrite page_frames; reflexivity).
    rewrite in_table_ok; [|unfold screen_ok; rewrite PG; exact P|unfold i; lia]. rewrite PG, C. cbn [ptime].
    replace (whole t - 1 - Z.min (Z.of_nat n) (whole t) >=? 0) with (Z.of_nat n <? whole t) by lia.
    rewrite INT_TO_FP_exact; [f_equal; lia|]. change (2 ^ 19) with 524288. unfold b2z.
    destruct (Z.of_nat n <? whole t), (ctime (angle (info (frames n S') q i)) >=? 0), (ctime (scale (info (frames n S') q i)) >=? 0), (a_forever (anim_ (info (frames n S') q i)) || (a_loop (anim_ (info (frames n S') q i)) >? 0)); lia.
Qed.
(** without a time, or with time 0, at once, and whatever the other sprites do *)
Theorem C42_jumps : forall S id x y t, screen_ok S -> 0 <= whole id <= 99 -> exists_sprite S (whole id) -> (t = None \/ exists v, t = Some v /\ whole v = 0) ->
  exists S', cmd_spofs S id x y t = (S', Done) /\
    forall n, x_of (frames n S') (page_ S) (whole id) = 4096 * whole x /\ y_of (frames n S') (page_ S) (whole id) = 4096 * whole y.
Proof.
  intros S id x y t P I A T.
  assert (E : cmd_spofs S id x y t = (put S (whole id) (set_pos (mkMotion (4096 * whole x) (4096 * whole y) (pdx (pos (info S (page_ S) (whole id)))) (pdy (pos (info S (page_ S) (whole id)))) (-1)) (info S (page_ S) (whole id))), Done)).
  { destruct T as [->|(v & -> & V)].
    - unfold cmd_spofs. rewrite range_ok by exact I. cbv zeta. rewrite slot_ok by assumption. unfold live. unfold exists_sprite in A. rewrite A. rewrite !land_floor. reflexivity.
    - rewrite spofs_eq by (assumption || lia). cbv zeta. rewrite V. reflexivity. }
  rewrite E. eexists. split; [reflexivity|]. intros n. unfold x_of, y_of. rewrite still_pos by (rewrite put_at; cbn; lia). rewrite put_at. split; reflexivity.
Qed.
(** the other sprites go on as if nothing had been commanded *)
Theorem C42_others : forall S id x y t S' f, cmd_spofs S id x y t = (S', f) ->
  forall n, same_but (page_ S) (whole id) (frames n S) (frames n S').
Proof.
  intros S id x y t S' f E n.
  assert (R : same_but (page_ S) (whole id) S S' /\ animates_alike (info S (page_ S) (whole id)) (info S' (page_ S) (whole id))).
  { assert (Z0 : same_but (page_ S) (whole id) S S /\ animates_alike (info S (page_ S) (whole id)) (info S (page_ S) (whole id))) by (repeat split).
    revert E. unfold cmd_spofs, range, int_range. change (FP_TO_INT id) with (whole id). destruct (_ || _); [intros E; injection E as <- _; exact Z0|].
    unfold slot. destruct (in_table S (whole id)); [|intros E; injection E as <- _; exact Z0]. unfold live. destruct (active _); [|intros E; injection E as <- _; exact Z0].
    assert (K : forall m, same_but (page_ S) (whole id) S (put S (whole id) (set_pos m (info S (page_ S) (whole id)))) /\
       animates_alike (info S (page_ S) (whole id)) (info (put S (whole id) (set_pos m (info S (page_ S) (whole id)))) (page_ S) (whole id))).
    { intros m. split; [apply put_same_but|]. rewrite put_at. repeat split. }
    destruct t as [t|]; [|intros E; injection E as <- _; apply K]. unfold at_least. destruct (_ <? 0); [intros E; injection E as <- _; exact Z0|].
    destruct (_ =? 0); intros E; injection E as <- _; apply K. }
  destruct R as (R1 & R2). apply others; assumption.
Qed.
(** ** what is wrong *)
Definition hero (chr : Z) : sprite := init_sprite_info 1 chr 0 false false 0 16 16.
Definition one : sprites := put init_sprites 1 (hero 5).
Example C42_ok : screen_ok one /\ exists_sprite one 1 /\ undisturbed one 0 1 /\ near (10 * 4096) /\ near (x_of one 0 1) /\ (5 | 4096 * 10 - x_of one 0 1).
Proof.
  split; [unfold screen_ok; cbn; lia|]. split; [reflexivity|]. split; [intros j Hj; assert (j = 0) as -> by lia; intros E; discriminate E|].
  split; [unfold near; change (2 ^ 30) with 1073741824; lia|]. split; [unfold near; change (2 ^ 30) with 1073741824; cbn; lia|]. exists 8192. reflexivity.
Qed.
(** the steps are rounded: ten pixels in three frames end at pixel nine *)
Theorem C42_short_refuted : exists S', cmd_spofs one 4096 (10 * 4096) 0 (Some (3 * 4096)) = (S', Done) /\
  cmd_spread (frames 3 S') 4096 = Ok (9 * 4096, 0, 0, 4096, 5) /\ cmd_spread (frames 100 S') 4096 = Ok (9 * 4096, 0, 0, 4096, 5).
Proof. eexists. split; [reflexivity|]. split; vm_compute; reflexivity. Qed.
(** in the frame in which a sprite ends its animation the sprites after it stand still *)
Definition two : sprites := fst (cmd_spanim (put one 0 (hero 5)) 0 4096 (2 * 4096) (Some 4096)).
Theorem C42_held_refuted : exists S', cmd_spofs two 4096 (10 * 4096) 0 (Some (5 * 4096)) = (S', Done) /\ (5 | 4096 * 10 - x_of two 0 1) /\
  x_of (frames 1 S') 0 1 = 2 * 4096 /\ x_of (frames 2 S') 0 1 = 2 * 4096 /\ x_of (frames 5 S') 0 1 = 8 * 4096 /\ x_of (frames 6 S') 0 1 = 10 * 4096.
Proof. eexists. split; [reflexivity|]. split; [exists 8192; reflexivity|]. repeat split; vm_compute; reflexivity. Qed.
(** a sprite just set is reported as turning and growing *)
Theorem C42_spchk_refuted : exists S', cmd_spset init_sprites 0 0 0 0 0 0 None = (S', Done) /\ func_spchk S' 0 = Ok (6 * 4096) /\ func_spchk (frames 1 S') 0 = Ok 0.
Proof. eexists. split; [reflexivity|]. split; vm_compute; reflexivity. Qed.

(** ** C61: SPSCALE *)
Definition percent (v : Z) : Z := 4096 * whole v / 100.
Lemma percent_eq sc : 0 <= whole sc <= 200 -> Z.quot (INT_TO_FP (whole sc)) 100 = percent sc.
Proof. intros H. rewrite INT_TO_FP_exact by (change (2 ^ 19) with 524288; lia). unfold percent. rewrite Z.quot_div_nonneg by lia. f_equal. lia. Qed.
Theorem C61_scale_at_once : forall S id sc, screen_ok S -> 0 <= whole id <= 31 -> exists_sprite S (whole id) -> 0 <= whole sc <= 200 ->
  exists S', cmd_spscale S id sc None = (S', Done) /\ forall n, scale_of (frames n S') (page_ S) (whole id) = percent sc.
Proof.
  intros S id sc P I A B. unfold cmd_spscale. rewrite range_ok by exact I. rewrite range_ok by exact B. change (0 <? 0) with false. cbv iota.
  rewrite slot_ok by (assumption || lia). unfold live. unfold exists_sprite in A. rewrite A. rewrite percent_eq by exact B.
  eexists. split; [reflexivity|]. intros n. unfold scale_of. rewrite still_scale by (rewrite put_at; cbn; lia). rewrite put_at. reflexivity.
Qed.
(** with a time the scale comes near the value in that time, but then goes on for one frame more *)
Theorem C61_scale_partial : forall S id sc t, screen_ok S -> 0 <= whole id <= 31 -> exists_sprite S (whole id) -> undisturbed S (page_ S) (whole id) ->
  0 <= whole sc <= 200 -> 1 <= whole t -> let q := page_ S in let i := whole id in 0 <= scale_of S q i <= 3 * 4096 ->
  let d := Z.quot (percent sc - scale_of S q i) (whole t) in
  exists S', cmd_spscale S id sc (Some t) = (S', Done) /\
    (forall n, scale_of (frames n S') q i = scale_of S q i + Z.min (Z.of_nat n) (whole t + 1) * d) /\
    Z.abs (percent sc - scale_of (frames (Z.to_nat (whole t)) S') q i) < whole t /\
    (forall n, whole t < Z.of_nat n -> scale_of (frames n S') q i = scale_of (frames (Z.to_nat (whole t)) S') q i + d).
Proof.
  intros S id sc t P I A U B T q i Hs d. unfold cmd_spscale. rewrite range_ok by exact I. rewrite range_ok by exact B.
  replace (t <? 0) with false by (unfold whole in T; lia). rewrite slot_ok by (assumption || lia). unfold live. unfold exists_sprite in A. rewrite A. rewrite percent_eq by exact B.
  unfold at_least. change (FP_TO_INT t) with (whole t). replace (whole t <? 0) with false by lia. replace (whole t =? 0) with false by lia.
  fold q i. set (s := info S q i). set (S' := put S i _). exists S'. split; [reflexivity|].
  assert (PB : 0 <= percent sc <= 8192) by (unfold percent; lia).
  assert (E' : scale (info S' q i) = mkChange (scale_of S q i) d (whole t)).
  { unfold S', q. rewrite put_at. cbn [set_scale scale]. unfold s. fold (scale_of S q i). fold q. rewrite s32_id by (unfold INT_MIN, INT_MAX; change (2 ^ 31) with 2147483648; lia). reflexivity. }
  assert (A' : active (info S' q i) = true) by (unfold S', q; rewrite put_at; exact A).
  assert (U' : undisturbed S' q i).
  { intros j Hj Aj. revert Aj. unfold S'. rewrite put_info. replace ((q =? page_ S) && (j =? i)) with false by lia. apply U. exact Hj. }
  destruct (quot_near (percent sc - scale_of S q i) (whole t) T) as (Q1 & Q2). fold d in Q1, Q2.
  assert (Dd : Z.abs d <= 20000) by nia.
  assert (C : forall n, scale_of (frames n S') q i = scale_of S q i + Z.min (Z.of_nat n) (whole t + 1) * d).
  { intros n. destruct (parts_course S' q i ltac:(unfold screen_ok in P; unfold q; lia) ltac:(unfold i; lia) A' U' n) as (_ & C & _). unfold scale_of at 1. rewrite C, E'.
    rewrite scale_course; [reflexivity|lia|..]; unfold INT_MIN, INT_MAX; change (2 ^ 31) with 2147483648; nia. }
  split; [exact C|]. split.
  - rewrite C. replace (Z.min (Z.of_nat (Z.to_nat (whole t))) (whole t + 1)) with (whole t) by lia. lia.
  - intros n Hn. rewrite !C. replace (Z.min (Z.of_nat n) (whole t + 1)) with (whole t + 1) by lia. replace (Z.min (Z.of_nat (Z.to_nat (whole t))) (whole t + 1)) with (whole t) by lia. lia.
Qed.
(** from 100 % to 200 % in ten frames: 209 % *)
Theorem C61_scale_refuted : exists S', cmd_spscale one 4096 (200 * 4096) (Some (10 * 4096)) = (S', Done) /\ percent (200 * 4096) = 2 * 4096 /\
  scale_of (frames 10 S') 0 1 = 8186 /\ scale_of (frames 11 S') 0 1 = 8595 /\ scale_of (frames 50 S') 0 1 = 8595.
Proof. eexists. split; [reflexivity|]. repeat split; vm_compute; reflexivity. Qed.
(** in no time: a division by zero *)
Theorem C61_scale_zero_refuted : forall S id sc, screen_ok S -> 0 <= whole id <= 31 -> exists_sprite S (whole id) -> 0 <= whole sc <= 200 ->
  cmd_spscale S id sc (Some 0) = (S, Crash).
Proof.
  intros S id sc P I A B. unfold cmd_spscale. rewrite range_ok by exact I. rewrite range_ok by exact B. change (0 <? 0) with false. cbv iota.
  rewrite slot_ok by (assumption || lia). unfold live. unfold exists_sprite in A. rewrite A. reflexivity.
Qed.
(** ** SPANGLE *)
Theorem C61_angle_at_once : forall S id an t, screen_ok S -> 0 <= whole id <= 99 -> exists_sprite S (whole id) -> is_s32 an -> (t = None \/ exists v, t = Some v /\ whole v = 0) ->
  exists S', cmd_spangle S id an t None = (S', Done) /\ forall n, angle_of (frames n S') (page_ S) (whole id) = 4096 * Z.rem (whole an) 360.
Proof.
  intros S id an t P I A B T. unfold cmd_spangle. rewrite range_ok by exact I. rewrite slot_ok by assumption. unfold live. unfold exists_sprite in A. rewrite A. cbv zeta.
  change (FP_TO_INT an) with (whole an).
  assert (RB : Z.abs (Z.rem (whole an) 360) < 360) by (apply (Z.rem_bound_abs (whole an) 360); lia).
  rewrite INT_TO_FP_exact by (change (2 ^ 19) with 524288; lia).
  assert (K : forall d, exists S', (put S (whole id) (set_angle (mkChange (Z.rem (whole an) 360 * 4096) d (-1)) (info S (page_ S) (whole id))), Done) = (S', Done) /\
     forall n, angle_of (frames n S') (page_ S) (whole id) = 4096 * Z.rem (whole an) 360).
  { intros d. eexists. split; [reflexivity|]. intros n. unfold angle_of. rewrite still_angle by (rewrite put_at; cbn; lia). rewrite put_at. cbn [set_angle angle cv]. lia. }
  destruct T as [->|(v & -> & V)]; [apply K|].
  unfold at_least. change (FP_TO_INT v) with (whole v). rewrite V. change (0 <? 0) with false. change (0 =? 0) with true. cbv iota. apply K.
Qed.
(** backwards (direction -1): like the scale, near the value in the time asked for, then one step more *)
Theorem C61_angle_partial : forall S id an t, screen_ok S -> 0 <= whole id <= 99 -> exists_sprite S (whole id) -> undisturbed S (page_ S) (whole id) ->
  is_s32 an -> 1 <= whole t -> let q := page_ S in let i := whole id in Z.abs (angle_of S q i) < 360 * 4096 ->
  let goal := 4096 * Z.rem (whole an) 360 in let d := Z.quot (goal - angle_of S q i) (whole t) in
  Z.abs d < 360 * 4096 ->
  exists S', cmd_spangle S id an (Some t) (Some (- 4096)) = (S', Done) /\
    (forall n, angle_of (frames n S') q i = angle_of S q i + Z.min (Z.of_nat n) (whole t + 1) * d) /\
    Z.abs (goal - angle_of (frames (Z.to_nat (whole t)) S') q i) < whole t /\
    (forall n, whole t < Z.of_nat n -> angle_of (frames n S') q i = angle_of (frames (Z.to_nat (whole t)) S') q i + d).
Proof.
  intros S id an t P I A U B T q i Hs goal d Hd. unfold cmd_spangle. rewrite range_ok by exact I. rewrite slot_ok by assumption. unfold live. unfold exists_sprite in A. rewrite A. cbv zeta.
  change (FP_TO_INT an) with (whole an).
  assert (RB : Z.abs (Z.rem (whole an) 360) < 360) by (apply (Z.rem_bound_abs (whole an) 360); lia).
  rewrite INT_TO_FP_exact by (change (2 ^ 19) with 524288; lia).
  unfold at_least. change (FP_TO_INT t) with (whole t). replace (whole t <? 0) with false by lia. replace (whole t =? 0) with false by lia.
  change (FP_TO_INT (- 4096)) with (-1). change ((-1 =? 1) || (-1 =? -1)) with true. change (-1 <? 0) with true. cbv iota.
  fold q i. set (s := info S q i). set (S' := put S i _). exists S'. split; [reflexivity|].
  assert (E' : angle (info S' q i) = mkChange (angle_of S q i) d (whole t)).
  { unfold S', q. rewrite put_at. cbn [set_angle angle]. unfold s. fold (angle_of S q i). fold q. unfold d, goal. rewrite s32_id by (unfold INT_MIN, INT_MAX; change (2 ^ 31) with 2147483648; lia).
    f_equal. f_equal. lia. }
  assert (A' : active (info S' q i) = true) by (unfold S', q; rewrite put_at; exact A).
  assert (U' : undisturbed S' q i).
  { intros j Hj Aj. revert Aj. unfold S'. rewrite put_info. replace ((q =? page_ S) && (j =? i)) with false by lia. apply U. exact Hj. }
  destruct (quot_near (goal - angle_of S q i) (whole t) T) as (Q1 & Q2). fold d in Q1, Q2.
  assert (C : forall n, angle_of (frames n S') q i = angle_of S q i + Z.min (Z.of_nat n) (whole t + 1) * d).
  { intros n. destruct (parts_course S' q i ltac:(unfold screen_ok in P; unfold q; lia) ltac:(unfold i; lia) A' U' n) as (_ & _ & C & _). unfold angle_of at 1. rewrite C, E'.
    rewrite angle_course; [reflexivity|lia| |exact Hd|]; unfold INT_MIN, INT_MAX, goal in *; change (2 ^ 31) with 2147483648; nia. }
  split; [exact C|]. split.
  - rewrite C. replace (Z.min (Z.of_nat (Z.to_nat (whole t))) (whole t + 1)) with (whole t) by lia. lia.
  - intros n Hn. rewrite !C. replace (Z.min (Z.of_nat n) (whole t + 1)) with (whole t + 1) by lia. replace (Z.min (Z.of_nat (Z.to_nat (whole t))) (whole t + 1)) with (whole t) by lia. lia.
Qed.
(** forwards (direction 1, also when none is given) it turns the other way round: from 0 to 90 ends at -99 *)
Theorem C61_angle_refuted : exists S', cmd_spangle one 4096 (90 * 4096) (Some (10 * 4096)) None = (S', Done) /\
  angle_of one 0 1 = 0 /\ angle_of (frames 10 S') 0 1 = - 90 * 4096 /\ angle_of (frames 11 S') 0 1 = - 99 * 4096 /\ angle_of (frames 50 S') 0 1 = - 99 * 4096.
Proof. eexists. split; [reflexivity|]. repeat split; vm_compute; reflexivity. Qed.
Example C61_ok : screen_ok one /\ exists_sprite one 1 /\ undisturbed one 0 1 /\ scale_of one 0 1 = 4096 /\ angle_of one 0 1 = 0.
Proof. destruct C42_ok as (A & B & C & _). repeat split; try exact A; try exact B; try exact C; apply A. Qed.
Print Assumptions C42_moves_partial.
Print Assumptions C42_jumps.
Print Assumptions C42_others.
Print Assumptions C42_short_refuted.
Print Assumptions C42_held_refuted.
Print Assumptions C42_spchk_refuted.
Print Assumptions C61_scale_at_once.
Print Assumptions C61_scale_partial.
Print Assumptions C61_scale_refuted.
Print Assumptions C61_scale_zero_refuted.
Print Assumptions C61_angle_at_once.
Print Assumptions C61_angle_partial.
Print Assumptions C61_angle_refuted.
