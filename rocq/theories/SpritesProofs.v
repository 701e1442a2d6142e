(** Lemmas on sprites. *)
From Verif Require Import Base BaseLemmas Memory Graphics Sprites SpritesSpec.
Ltac Zify.zify_post_hook ::= Z.div_mod_to_equations.
Open Scope Z_scope.

(** ** one frame of a screen *)
Definition stops (r : Z -> sprite) (m : Z) : bool := snd (step_sprite (r m)).
Definition clear_to (r : Z -> sprite) (i j : Z) : Prop := forall m, i <= m < j -> stops r m = false.
Lemma upd_same {A} (f : Z -> A) i v : upd2 f i v i = v.
Proof. unfold upd2. rewrite Z.eqb_refl. reflexivity. Qed.
Lemma upd_other {A} (f : Z -> A) i v j : j <> i -> upd2 f i v j = f j.
Proof. intros H. unfold upd2. apply Z.eqb_neq in H. rewrite H. reflexivity. Qed.
Lemma row_spec : forall n i r j,
  (i <= j < i + Z.of_nat n -> clear_to r i j -> step_row n i r j = fst (step_sprite (r j))) /\
  (~ (i <= j < i + Z.of_nat n /\ clear_to r i j) -> step_row n i r j = r j).
Proof.
  induction n as [|n IH]; intros i r j; [split; [lia|reflexivity]|].
  cbn [step_row]. destruct (step_sprite (r i)) as [s stop] eqn:E.
  assert (ST : stops r i = stop) by (unfold stops; rewrite E; reflexivity).
  set (r' := upd2 r i s).
  assert (R' : forall m, m <> i -> r' m = r m) by (intros m N; apply upd_other; exact N).
  destruct stop.
  - split.
    + intros Hj C. destruct (Z.eq_dec j i) as [->|N]; [unfold r'; rewrite upd_same, E; reflexivity|].
      exfalso. specialize (C i ltac:(lia)). rewrite ST in C. discriminate C.
    + intros H. destruct (Z.eq_dec j i) as [->|N]; [|apply R'; exact N]. exfalso. apply H. split; [lia|]. intros m Hm. lia.
  - destruct (IH (i + 1) r' j) as (I1 & I2).
    assert (CL : clear_to r' (i + 1) j <-> forall m, i < m < j -> stops r m = false).
    { unfold clear_to, stops. split; intros C m Hm; specialize (C m ltac:(lia)); [rewrite R' in C by lia|rewrite R' by lia]; exact C. }
    split.
    + intros Hj C. destruct (Z.eq_dec j i) as [->|N].
      * rewrite I2 by lia. unfold r'. rewrite upd_same, E. reflexivity.
      * rewrite I1; [rewrite R' by exact N; reflexivity|lia|]. apply CL. intros m Hm. apply C. lia.
    + intros H. destruct (Z.eq_dec j i) as [->|N].
      * exfalso. apply H. split; [lia|]. intros m Hm. lia.
      * rewrite I2; [apply R'; exact N|]. intros (Hj & C). apply H. split; [lia|]. intros m Hm.
        destruct (Z.eq_dec m i) as [->|Nm]; [exact ST|]. apply CL; [exact C|lia].
Qed.
Lemma clear_dec r : forall k i, {clear_to r i (i + Z.of_nat k)} + {~ clear_to r i (i + Z.of_nat k)}.
Proof.
  induction k as [|k IH]; intros i; [left; intros m Hm; lia|].
  destruct (IH i) as [C|C].
  - destruct (stops r (i + Z.of_nat k)) eqn:E.
    + right. intros D. specialize (D (i + Z.of_nat k) ltac:(lia)). congruence.
    + left. intros m Hm. destruct (Z.eq_dec m (i + Z.of_nat k)) as [->|N]; [exact E|]. apply C. lia.
  - right. intros D. apply C. intros m Hm. apply D. lia.
Qed.
Lemma clear_dec' r i j : {clear_to r i j} + {~ clear_to r i j}.
Proof.
  destruct (Z_le_gt_dec j i) as [L|L]; [left; intros m Hm; lia|].
  replace j with (i + Z.of_nat (Z.to_nat (j - i))) by lia. apply clear_dec.
Qed.
(** one frame of a sprite *)
Lemma frame_info S q j : 0 <= q <= 1 -> 0 <= j < 100 -> clear_to (info S q) 0 j -> info (step_sprites S) q j = fst (step_sprite (info S q j)).
Proof.
  intros Hq Hj C. assert (E : info (step_sprites S) q j = step_row 100 0 (info S q) j).
  { cbn [step_sprites info]. destruct (Z.eq_dec q 1) as [->|N]; [rewrite upd_same; reflexivity|].
    rewrite upd_other by exact N. assert (q = 0) as -> by lia. rewrite upd_same. reflexivity. }
  rewrite E. apply row_spec; [lia|exact C].
Qed.
Lemma frame_held S q j : ~ (0 <= q <= 1 /\ 0 <= j < 100 /\ clear_to (info S q) 0 j) -> info (step_sprites S) q j = info S q j.
Proof.
  intros H. cbn [step_sprites info].
  destruct (Z.eq_dec q 1) as [->|N].
  - rewrite upd_same. apply row_spec. intros (Hj & C). apply H. split; [lia|]. split; [lia|exact C].
  - rewrite upd_other by exact N. destruct (Z.eq_dec q 0) as [->|N0].
    + rewrite upd_same. apply row_spec. intros (Hj & C). apply H. split; [lia|]. split; [lia|exact C].
    + rewrite upd_other by exact N0. reflexivity.
Qed.
Lemma frame_cases S q j : info (step_sprites S) q j = fst (step_sprite (info S q j)) \/ info (step_sprites S) q j = info S q j.
Proof.
  destruct (clear_dec' (info S q) 0 j) as [C|C].
  - destruct (Z_le_dec 0 q) as [a|a]; [|right; apply frame_held; lia]. destruct (Z_le_dec q 1) as [b|b]; [|right; apply frame_held; lia].
    destruct (Z_le_dec 0 j) as [c|c]; [|right; apply frame_held; lia]. destruct (Z_lt_dec j 100) as [d|d]; [|right; apply frame_held; lia].
    left. apply frame_info; [lia|lia|exact C].
  - right. apply frame_held. tauto.
Qed.

(** ** the parts of a sprite step independently *)
Definition next_change_scale (c : change) : change := if ctime c >=? 0 then mkChange (s32 (cv c + cd c)) (cd c) (ctime c - 1) else c.
Definition next_change_angle (c : change) : change := if ctime c >=? 0 then mkChange (s32 (cv c + Z.rem (cd c) (INT_TO_FP 360))) (cd c) (ctime c - 1) else c.
Definition next_pos (m : motion) : motion := if ptime m >=? 0 then mkMotion (s32 (px_ m + pdx m)) (s32 (py_ m + pdy m)) (pdx m) (pdy m) (ptime m - 1) else m.
Definition next_anim (w h chr : Z) (a : anim) : anim * bool :=
  if a_forever a || (a_loop a >? 0) then
    let f := a_frame a + 1 in
    if f =? a_fpc a then
      let k := (let k := w * h / 256 in if k <? 1 then 1 else k) in
      let c := a_chr a + k in
      if Z.quot (c - chr) k =? a_chrs a then
        let l := if a_forever a then a_loop a else a_loop a - 1 in
        if negb (a_forever a) && (l =? 0) then (mkAnim (a_chrs a) (a_fpc a) l (a_forever a) 0 (c - k), true)
        else (mkAnim (a_chrs a) (a_fpc a) l (a_forever a) 0 chr, false)
      else (mkAnim (a_chrs a) (a_fpc a) (a_loop a) (a_forever a) 0 c, false)
    else (mkAnim (a_chrs a) (a_fpc a) (a_loop a) (a_forever a) f (a_chr a), false)
  else (a, false).
Lemma sprite_eta s : mkSprite (active s) (s_id s) (s_chr s) (s_pal s) (s_w s) (s_h s) (s_prio s) (s_flipx s) (s_flipy s) (s_homex s) (s_homey s) (pos s) (scale s) (angle s) (hit s) (anim_ s) (vars s) = s.
Proof. destruct s; reflexivity. Qed.
Lemma step_scale_eq s : step_scale s = set_scale (next_change_scale (scale s)) s.
Proof. unfold step_scale, next_change_scale. destruct (_ >=? 0); [reflexivity|]. destruct s; reflexivity. Qed.
Lemma step_angle_eq s : step_angle s = set_angle (next_change_angle (angle s)) s.
Proof. unfold step_angle, next_change_angle. destruct (_ >=? 0); [reflexivity|]. destruct s; reflexivity. Qed.
Lemma step_pos_eq s : step_pos s = set_pos (next_pos (pos s)) s.
Proof. unfold step_pos, next_pos. cbv zeta. destruct (_ >=? 0); [reflexivity|]. destruct s; reflexivity. Qed.
Lemma step_anim_eq s : step_anim s = (set_anim (fst (next_anim (s_w s) (s_h s) (s_chr s) (anim_ s))) s, snd (next_anim (s_w s) (s_h s) (s_chr s) (anim_ s))).
Proof.
  unfold step_anim, next_anim, chr_step. cbv zeta. destruct (a_forever (anim_ s) || _); [|destruct s; reflexivity].
  destruct (_ =? a_fpc _); [|reflexivity]. destruct (_ =? a_chrs _); [|reflexivity]. destruct (_ && _); reflexivity.
Qed.
Lemma step_sprite_eq s : step_sprite s = if active s then
    (mkSprite true (s_id s) (s_chr s) (s_pal s) (s_w s) (s_h s) (s_prio s) (s_flipx s) (s_flipy s) (s_homex s) (s_homey s)
       (next_pos (pos s)) (next_change_scale (scale s)) (next_change_angle (angle s)) (hit s) (fst (next_anim (s_w s) (s_h s) (s_chr s) (anim_ s))) (vars s), snd (next_anim (s_w s) (s_h s) (s_chr s) (anim_ s)))
  else (s, false).
Proof.
  unfold step_sprite. destruct (active s) eqn:A; [|reflexivity].
  rewrite step_scale_eq, step_angle_eq, step_pos_eq, step_anim_eq. destruct s. cbn in A. subst. reflexivity.
Qed.
Lemma s32_id v : INT_MIN <= v <= INT_MAX -> s32 v = v.
Proof. unfold INT_MIN, INT_MAX, s32. change (2 ^ 31) with 2147483648. change (2 ^ 32) with 4294967296. intros. lia. Qed.
Lemma next_anim_quiet w h chr a : a_forever a = true \/ a_loop a <= 0 -> snd (next_anim w h chr a) = false /\ (a_forever (fst (next_anim w h chr a)) = true \/ a_loop (fst (next_anim w h chr a)) <= 0).
Proof.
  intros H. unfold next_anim. destruct (a_forever a) eqn:F.
  - cbn [orb negb andb]. destruct (_ =? _); [|cbn; auto]. destruct (_ =? _); cbn [fst snd a_forever]; auto.
  - destruct H as [H|H]; [discriminate H|]. replace (a_loop a >? 0) with false by lia. cbn [orb fst snd]. auto.
Qed.
Lemma active_step s : active (fst (step_sprite s)) = active s.
Proof. rewrite step_sprite_eq. destruct (active s) eqn:E; [|exact E]. reflexivity. Qed.
Lemma active_frame S q j : active (info (step_sprites S) q j) = active (info S q j).
Proof. destruct (frame_cases S q j) as [->| ->]; [apply active_step|reflexivity]. Qed.
Lemma undisturbed_clear S q id : undisturbed S q id -> clear_to (info S q) 0 id.
Proof.
  intros U m Hm. unfold stops. rewrite step_sprite_eq. destruct (active (info S q m)) eqn:A; [|reflexivity].
  specialize (U m Hm A). apply next_anim_quiet with (w := s_w (info S q m)) (h := s_h (info S q m)) (chr := s_chr (info S q m)) in U.
  apply U.
Qed.
Lemma undisturbed_step S q id : undisturbed S q id -> undisturbed (step_sprites S) q id.
Proof.
  intros U j Hj A. rewrite active_frame in A. specialize (U j Hj A). destruct (frame_cases S q j) as [E|E]; rewrite E; [|exact U].
  rewrite step_sprite_eq, A. apply next_anim_quiet with (w := s_w (info S q j)) (h := s_h (info S q j)) (chr := s_chr (info S q j)) in U.
  apply U.
Qed.
Lemma undisturbed_frames n S q id : undisturbed S q id -> undisturbed (frames n S) q id.
Proof. intros U. induction n as [|n IH]; [exact U|]. cbn [frames]. apply undisturbed_step. exact IH. Qed.
Lemma active_frames n S q j : active (info (frames n S) q j) = active (info S q j).
Proof. induction n as [|n IH]; [reflexivity|]. cbn [frames]. rewrite active_frame. exact IH. Qed.
Lemma page_frames n S : page_ (frames n S) = page_ S.
Proof. induction n as [|n IH]; [reflexivity|]. cbn [frames step_sprites page_]. exact IH. Qed.
(** the course of one part of a sprite *)
Fixpoint iter {A} (n : nat) (f : A -> A) (a : A) : A := match n with O => a | S n => f (iter n f a) end.
Section Course.
Variables (S : sprites) (q id : Z).
Hypotheses (Hq : 0 <= q <= 1) (Hid : 0 <= id < 100) (A : active (info S q id) = true) (U : undisturbed S q id).
Lemma next_frame n : info (frames (Datatypes.S n) S) q id = fst (step_sprite (info (frames n S) q id)).
Proof. cbn [frames]. apply frame_info; [exact Hq|exact Hid|]. apply undisturbed_clear, undisturbed_frames, U. Qed.
Lemma parts_course n : let s := info S q id in let s' := info (frames n S) q id in
  pos s' = iter n next_pos (pos s) /\ scale s' = iter n next_change_scale (scale s) /\ angle s' = iter n next_change_angle (angle s) /\
  anim_ s' = iter n (fun a => fst (next_anim (s_w s) (s_h s) (s_chr s) a)) (anim_ s) /\
  s_w s' = s_w s /\ s_h s' = s_h s /\ s_chr s' = s_chr s /\ hit s' = hit s /\ vars s' = vars s.
Proof.
  cbv zeta. induction n as [|n (I1 & I2 & I3 & I4 & I5 & I6 & I7 & I8 & I9)]; [repeat split|].
  rewrite next_frame, step_sprite_eq, active_frames, A, I5, I6, I7.
  cbn [iter fst pos scale angle anim_ s_w s_h s_chr hit vars]. rewrite <- I4, <- I1, <- I2, <- I3. repeat split; assumption.
Qed.
End Course.

(** ** commands *)
Lemma range_ok S v lo hi k : lo <= whole v <= hi -> range S v lo hi k = k (whole v).
Proof. unfold whole, range, int_range, FP_TO_INT. intros H. replace ((v / 4096 <? lo) || (v / 4096 >? hi)) with false by lia. reflexivity. Qed.
Lemma range_bad S v lo hi k : ~ (lo <= whole v <= hi) -> range S v lo hi k = (S, Raised ERR_OUT_OF_RANGE).
Proof. unfold whole, range, int_range, FP_TO_INT. intros H. replace ((v / 4096 <? lo) || (v / 4096 >? hi)) with true by lia. reflexivity. Qed.
Lemma in_table_ok S id : screen_ok S -> 0 <= id <= 99 -> in_table S id = true.
Proof. unfold screen_ok, in_table, MAX_SPRITES. lia. Qed.
Lemma slot_ok S id k : screen_ok S -> 0 <= id <= 99 -> slot S id k = k (info S (page_ S) id).
Proof. intros H I. unfold slot. rewrite in_table_ok by assumption. reflexivity. Qed.
Lemma put_info S id s q j : info (put S id s) q j = if (q =? page_ S) && (j =? id) then s else info S q j.
Proof. unfold put, upd2. cbn [info]. destruct (q =? page_ S) eqn:E; [|reflexivity]. apply Z.eqb_eq in E. subst q. cbn [andb]. destruct (j =? id); reflexivity. Qed.
Lemma put_same_but S id s : same_but (page_ S) id S (put S id s).
Proof.
  repeat split. intros p j N. rewrite put_info. destruct ((p =? page_ S) && (j =? id)) eqn:E; [|reflexivity]. exfalso. apply N. lia.
Qed.
Lemma put_at S id s : info (put S id s) (page_ S) id = s.
Proof. rewrite put_info, !Z.eqb_refl. reflexivity. Qed.
