(** C63: SPHIT and SPHITSP detect exactly the sprites whose boxes meet on the way. *)
From Verif Require Import Base BaseLemmas Memory Graphics Sprites SpritesSpec SpritesProofs SpritesMove.
Ltac Zify.zify_post_hook ::= Z.div_mod_to_equations.
Open Scope Z_scope.

(** ** Specification *)
(** the box of a sprite: SPCOL's (or its size) at its scale and position *)
Definition left_ (s : sprite) : Z := px_ (pos s) + hx (hit s) * cv (scale s) / 4096.
Definition right_ (s : sprite) : Z := px_ (pos s) + (hx (hit s) + hw (hit s)) * cv (scale s) / 4096.
Definition top_ (s : sprite) : Z := py_ (pos s) + hy (hit s) * cv (scale s) / 4096.
Definition bottom_ (s : sprite) : Z := py_ (pos s) + (hy (hit s) + hh (hit s)) * cv (scale s) / 4096.
(** its way: SPCOLVEC's vector; when that is zero, the one of its motion *)
Definition way_x (s : sprite) : Z := if (hdx (hit s) =? 0) && (hdy (hit s) =? 0) then pdx (pos s) else hdx (hit s).
Definition way_y (s : sprite) : Z := if (hdx (hit s) =? 0) && (hdy (hit s) =? 0) then pdy (pos s) else hdy (hit s).
(** intervals that have a point in common, [a1,a2] moved by [da] and [b1,b2] by [db], everything in units of 1/m *)
Definition touch (m a1 a2 da b1 b2 db : Z) : Prop := m * a1 + da <= m * b2 + db /\ m * b1 + db <= m * a2 + da.
(** after a part k/m of their ways the boxes have a point in common *)
Definition meet_at (a b : sprite) (k m : Z) : Prop :=
  touch m (left_ a) (right_ a) (k * way_x a) (left_ b) (right_ b) (k * way_x b) /\
  touch m (top_ a) (bottom_ a) (k * way_y a) (top_ b) (bottom_ b) (k * way_y b).
Definition meet (a b : sprite) : Prop := exists k m, 0 <= k <= m /\ 0 < m /\ meet_at a b k m.
(** they belong to the same group *)
Definition common_group (a b : sprite) : Prop := exists g, 0 <= g /\ Z.testbit (hmask (hit a)) g = true /\ Z.testbit (hmask (hit b)) g = true.
(** no farther away than 2^17 pixels *)
Definition placed (s : sprite) : Prop :=
  Z.abs (px_ (pos s)) <= 2 ^ 29 /\ Z.abs (py_ (pos s)) <= 2 ^ 29 /\ Z.abs (pdx (pos s)) <= 2 ^ 29 /\ Z.abs (pdy (pos s)) <= 2 ^ 29 /\
  Z.abs (hdx (hit s)) <= 2 ^ 19 /\ Z.abs (hdy (hit s)) <= 2 ^ 19 /\ Z.abs (hx (hit s)) <= 2 ^ 19 /\ Z.abs (hy (hit s)) <= 2 ^ 19 /\
  0 <= hw (hit s) <= 2 ^ 20 /\ 0 <= hh (hit s) <= 2 ^ 20 /\ 0 <= cv (scale s) <= 8192.

(** ** One axis *)
Section Axis.
Variable d : Z * Z -> Z.
Lemma fold_lo : forall l m, exists r, fold_left (fun m q => if d q <? m then d q else m) l m = r /\ (forall x, x < m -> (r <= x <-> exists q, In q l /\ d q <= x)) /\ r <= m.
Proof.
  induction l as [|q l IH]; intros m; cbn [fold_left].
  - exists m. split; [reflexivity|]. split; [|lia]. intros x Hx. split; [lia|]. intros (q & [] & _).
  - destruct (IH (if d q <? m then d q else m)) as (r & E & I & J). exists r. split; [exact E|]. destruct (Z.ltb_spec (d q) m) as [C|C].
    + split; [|lia]. intros x Hx. destruct (Z_lt_dec x (d q)) as [D|D].
      * rewrite (I x D). split; [intros (p & Hp & Q); exists p; split; [right; exact Hp|exact Q]|]. intros (p & [<-|Hp] & Q); [lia|]. exists p. split; assumption.
      * split; [|lia]. intros _. exists q. split; [left; reflexivity|lia].
    + split; [|lia]. intros x Hx. rewrite (I x Hx). split; [intros (p & Hp & Q); exists p; split; [right; exact Hp|exact Q]|]. intros (p & [<-|Hp] & Q); [lia|]. exists p. split; assumption.
Qed.
Lemma fold_hi : forall l m, exists r, fold_left (fun m q => if d q >? m then d q else m) l m = r /\ (forall x, m < x -> (x <= r <-> exists q, In q l /\ x <= d q)) /\ m <= r.
Proof.
  induction l as [|q l IH]; intros m; cbn [fold_left].
  - exists m. split; [reflexivity|]. split; [|lia]. intros x Hx. split; [lia|]. intros (q & [] & _).
  - destruct (IH (if d q >? m then d q else m)) as (r & E & I & J). exists r. split; [exact E|]. destruct (d q >? m) eqn:C.
    + split; [|lia]. intros x Hx. destruct (Z_lt_dec (d q) x) as [D|D].
      * rewrite (I x D). split; [intros (p & Hp & Q); exists p; split; [right; exact Hp|exact Q]|]. intros (p & [<-|Hp] & Q); [lia|]. exists p. split; assumption.
      * split; [|lia]. intros _. exists q. split; [left; reflexivity|lia].
    + split; [|lia]. intros x Hx. rewrite (I x Hx). split; [intros (p & Hp & Q); exists p; split; [right; exact Hp|exact Q]|]. intros (p & [<-|Hp] & Q); [lia|]. exists p. split; assumption.
Qed.
Definition pass lo hi := fun '(ok, l, r) q =>
      let l := l || (d q <? lo) in let r := r || (d q >? hi) in
      (ok || ((lo <=? d q) && (d q <=? hi)) || (l && r), l, r).
Lemma fold_pass lo hi : lo <= hi -> forall va ok l r, (ok = true -> True) -> (l && r = true -> ok = true) ->
  let '(ok', _, _) := fold_left (pass lo hi) va (ok, l, r) in
  ok' = true <-> ok = true \/ (l = true \/ exists q, In q va /\ d q <= hi) /\ (r = true \/ exists q, In q va /\ lo <= d q) /\ va <> nil.
Proof.
  intros L. induction va as [|q va IH]; intros ok l r _ LR; cbn [fold_left].
  - split; [auto|]. intros [H|(_ & _ & H)]; [exact H|]. contradiction.
  - cbn [pass]. specialize (IH (ok || ((lo <=? d q) && (d q <=? hi)) || ((l || (d q <? lo)) && (r || (d q >? hi)))) (l || (d q <? lo)) (r || (d q >? hi)) (fun _ => I)).
    destruct (fold_left (pass lo hi) va _) as [[ok' l'] r'].
    assert (W : (l || (d q <? lo)) && (r || (d q >? hi)) = true -> ok || ((lo <=? d q) && (d q <=? hi)) || ((l || (d q <? lo)) && (r || (d q >? hi))) = true) by (intros ->; apply orb_true_r).
    specialize (IH W). rewrite IH. clear IH W.
    assert (T : forall P : Z * Z -> Prop, (exists p, In p (q :: va) /\ P p) <-> P q \/ exists p, In p va /\ P p).
    { intros P. split; [intros (p & [<-|H] & Q); [left; exact Q|right; exists p; split; assumption]|]. intros [H|(p & H & Q)]; [exists q; split; [left; reflexivity|exact H]|exists p; split; [right; exact H|exact Q]]. }
    rewrite !T. destruct (Z_lt_dec (d q) lo) as [A|A]; [|destruct (Z_lt_dec hi (d q)) as [B|B]].
    + replace (d q <? lo) with true by lia. replace (d q >? hi) with false by lia. replace ((lo <=? d q) && (d q <=? hi)) with false by lia.
      rewrite !orb_false_r, !orb_true_r, !andb_true_l.
      assert (NN : (exists p, In p va /\ lo <= d p) -> va <> nil) by (intros (p & H & _); destruct va; [destruct H|discriminate]).
      destruct ok, r; cbn [orb]; split; intros H; try (left; reflexivity); try tauto.
      * right. split; [auto with zarith|]. split; [auto|discriminate].
      * destruct H as [H|(H1 & H2 & H3)]; [discriminate|]. destruct H2 as [H2|H2]; [discriminate|]. right. split; [right; left; lia|]. split; [right; right; exact H2|discriminate].
      * destruct H as [H|(H1 & H2 & H3)]; [discriminate|]. destruct H2 as [H2|[H2|H2]]; [discriminate|lia|]. right. split; [left; reflexivity|]. split; [right; exact H2|apply NN; exact H2].
    + replace (d q <? lo) with false by lia. replace (d q >? hi) with true by lia. replace ((lo <=? d q) && (d q <=? hi)) with false by lia.
      rewrite !orb_false_r, !orb_true_r, !andb_true_r.
      assert (NN : (exists p, In p va /\ d p <= hi) -> va <> nil) by (intros (p & H & _); destruct va; [destruct H|discriminate]).
      destruct ok, l; cbn [orb]; split; intros H; try (left; reflexivity); try tauto.
      * right. split; [auto with zarith|]. split; [right; left; lia|discriminate].
      * destruct H as [H|(H1 & H2 & H3)]; [discriminate|]. destruct H1 as [H1|H1]; [discriminate|]. right. split; [right; right; exact H1|]. split; [right; left; lia|discriminate].
      * destruct H as [H|(H1 & H2 & H3)]; [discriminate|]. destruct H1 as [H1|[H1|H1]]; [discriminate|lia|]. right. split; [right; exact H1|]. split; [left; reflexivity|apply NN; exact H1].
    + replace ((lo <=? d q) && (d q <=? hi)) with true by lia. rewrite orb_true_r. cbn [orb]. split; [|auto]. intros _. right. split; [right; left; lia|]. split; [right; left; lia|discriminate].
Qed.
End Axis.
(** a separating axis: both projections of lists of points overlap *)
Definition dot (n q : Z * Z) : Z := fst n * fst q + snd n * snd q.
Lemma axis_spec n va vb : va <> nil -> vb <> nil -> (fst n, snd n) <> (0, 0) -> (forall q, In q va \/ In q vb -> - 2 ^ 63 < dot n q < 2 ^ 63 - 1) ->
  (axis_ok n va vb = true <-> (exists q p, In q va /\ In p vb /\ dot n q <= dot n p) /\ (exists q p, In q va /\ In p vb /\ dot n p <= dot n q)).
Proof.
  intros NA NB NZ B.
  assert (AX : axis_ok n va vb = if (fst n =? 0) && (snd n =? 0) then true else
     let lo := fold_left (fun m q => if dot n q <? m then dot n q else m) vb (2 ^ 63 - 1) in
     let hi := fold_left (fun m q => if dot n q >? m then dot n q else m) vb (- 2 ^ 63) in
     let '(ok, _, _) := fold_left (pass (dot n) lo hi) va (false, false, false) in ok) by reflexivity.
  rewrite AX. clear AX. destruct ((fst n =? 0) && (snd n =? 0)) eqn:E0.
  { exfalso. apply NZ. apply andb_true_iff in E0. destruct E0 as (E1 & E2). apply Z.eqb_eq in E1, E2. rewrite E1, E2. reflexivity. }
  clear E0. cbv zeta.
  destruct (fold_lo (dot n) vb (2 ^ 63 - 1)) as (lo & E1 & I1 & J1). destruct (fold_hi (dot n) vb (- 2 ^ 63)) as (hi & E2 & I2 & J2).
  rewrite E1, E2.
  assert (LH : lo <= hi).
  { destruct vb as [|p vb]; [contradiction|]. assert (Bp := B p (or_intror (or_introl eq_refl))).
    assert (lo <= dot n p) by (apply I1; [lia|]; exists p; split; [left; reflexivity|lia]). assert (dot n p <= hi) by (apply I2; [lia|]; exists p; split; [left; reflexivity|lia]). lia. }
  pose proof (fold_pass (dot n) lo hi LH va false false false (fun _ => I) (fun x => x)) as F.
  destruct (fold_left (pass (dot n) lo hi) va (false, false, false)) as [[ok l] r]. rewrite F. split.
  - intros [H|([H|(q & Q1 & Q2)] & [H'|(q' & Q1' & Q2')] & _)]; try discriminate.
    split; [exists q|exists q'].
    + apply I2 in Q2; [|apply B; left; exact Q1]. destruct Q2 as (p & P1 & P2). exists p. auto.
    + apply I1 in Q2'; [|apply B; left; exact Q1']. destruct Q2' as (p & P1 & P2). exists p. auto.
  - intros ((q & p & Q & P & D) & (q' & p' & Q' & P' & D')). right. split; [right; exists q|split; [right; exists q'|exact NA]].
    + split; [exact Q|]. apply I2; [apply B; left; exact Q|]. exists p. auto.
    + split; [exact Q'|]. apply I1; [apply B; left; exact Q'|]. exists p'. auto.
Qed.

(** ** A segment and a rectangle meet when no axis separates them *)
Lemma helly_pos vx vy lx hx ly hy : 0 <= vx -> 0 <= vy -> 0 <= hx -> lx <= vx -> lx <= hx -> 0 <= hy -> ly <= vy -> ly <= hy -> vy * lx <= vx * hy -> vx * ly <= vy * hx ->
  exists k m, 0 <= k <= m /\ 0 < m /\ m * lx <= k * vx <= m * hx /\ m * ly <= k * vy <= m * hy.
Proof.
  intros. destruct (Z_le_gt_dec lx 0) as [A|A]; [destruct (Z_le_gt_dec ly 0) as [B|B]|].
  - exists 0, 1. lia.
  - exists ly, vy. split; [lia|]. split; [lia|]. split; split; nia.
  - destruct (Z_le_gt_dec (ly * vx) (lx * vy)) as [C|C].
    + exists lx, vx. split; [lia|]. split; [lia|]. split; split; nia.
    + assert (0 < vy) by nia. exists ly, vy. assert (0 < ly) by nia. split; [lia|]. split; [lia|]. split; split; nia.
Qed.
Definition spanned (vx vy lx hx ly hy : Z) : Prop :=
  (exists rx ry, lx <= rx <= hx /\ ly <= ry <= hy /\ 0 <= vx * ry - vy * rx) /\ (exists rx ry, lx <= rx <= hx /\ ly <= ry <= hy /\ vx * ry - vy * rx <= 0).
Lemma helly vx vy lx hx ly hy : lx <= hx -> ly <= hy -> (0 <= hx \/ vx <= hx) -> (lx <= 0 \/ lx <= vx) -> (0 <= hy \/ vy <= hy) -> (ly <= 0 \/ ly <= vy) -> spanned vx vy lx hx ly hy ->
  exists k m, 0 <= k <= m /\ 0 < m /\ m * lx <= k * vx <= m * hx /\ m * ly <= k * vy <= m * hy.
Proof.
  intros Ox Oy X1 X2 Y1 Y2 ((rx & ry & Rx & Ry & R) & (sx & sy & Sx & Sy & S)).
  destruct (Z_le_gt_dec 0 vx) as [A|A]; destruct (Z_le_gt_dec 0 vy) as [B|B].
  - apply helly_pos; nia.
  - destruct (helly_pos vx (- vy) lx hx (- hy) (- ly)) as (k & m & K1 & K2 & K3 & K4); try nia. exists k, m. repeat split; nia.
  - destruct (helly_pos (- vx) vy (- hx) (- lx) ly hy) as (k & m & K1 & K2 & K3 & K4); try nia. exists k, m. repeat split; nia.
  - destruct (helly_pos (- vx) (- vy) (- hx) (- lx) (- hy) (- ly)) as (k & m & K1 & K2 & K3 & K4); try nia. exists k, m. repeat split; nia.
Qed.
Lemma helly_back vx vy lx hx ly hy k m : 0 <= k <= m -> 0 < m -> m * lx <= k * vx <= m * hx -> m * ly <= k * vy <= m * hy ->
  (0 <= hx \/ vx <= hx) /\ (lx <= 0 \/ lx <= vx) /\ (0 <= hy \/ vy <= hy) /\ (ly <= 0 \/ ly <= vy) /\
  0 <= vx * (if vx >=? 0 then hy else ly) - vy * (if vy >=? 0 then lx else hx) /\ vx * (if vx >=? 0 then ly else hy) - vy * (if vy >=? 0 then hx else lx) <= 0.
Proof.
  intros K M X Y.
  assert (G : forall v h, k * v <= m * h -> 0 <= h \/ v <= h) by (intros v h Q; nia).
  assert (L : forall v l, m * l <= k * v -> l <= 0 \/ l <= v) by (intros v l Q; nia).
  split; [apply G; lia|]. split; [apply L; lia|]. split; [apply G; lia|]. split; [apply L; lia|].
  destruct (vx >=? 0) eqn:A, (vy >=? 0) eqn:B.
  - assert (vx * (k * vy) <= vx * (m * hy)) by nia. assert (vy * (m * lx) <= vy * (k * vx)) by nia. assert (vx * (m * ly) <= vx * (k * vy)) by nia. assert (vy * (k * vx) <= vy * (m * hx)) by nia. split; nia.
  - assert (vx * (k * vy) <= vx * (m * hy)) by nia. assert (vy * (m * lx) >= vy * (k * vx)) by nia. assert (vx * (m * ly) <= vx * (k * vy)) by nia. assert (vy * (k * vx) >= vy * (m * hx)) by nia. split; nia.
  - assert (vx * (k * vy) >= vx * (m * hy)) by nia. assert (vy * (m * lx) <= vy * (k * vx)) by nia. assert (vx * (m * ly) >= vx * (k * vy)) by nia. assert (vy * (k * vx) <= vy * (m * hx)) by nia. split; nia.
  - assert (vx * (k * vy) >= vx * (m * hy)) by nia. assert (vy * (m * lx) >= vy * (k * vx)) by nia. assert (vx * (m * ly) >= vx * (k * vy)) by nia. assert (vy * (k * vx) >= vy * (m * hx)) by nia. split; nia.
Qed.

(** ** The test of the three axes *)
Section Boxes.
Variables (ax1 ax2 ay1 ay2 bx1 bx2 by1 by2 vx vy : Z).
Hypotheses (OA : ax1 <= ax2) (OA' : ay1 <= ay2) (OB : bx1 <= bx2) (OB' : by1 <= by2).
Let va := [(ax1, ay1); (ax2, ay1); (ax2, ay2); (ax1, ay2)] ++ [(ax1 + vx, ay1 + vy); (ax2 + vx, ay1 + vy); (ax2 + vx, ay2 + vy); (ax1 + vx, ay2 + vy)].
Let vb := [(bx1, by1); (bx2, by1); (bx2, by2); (bx1, by2)].
Hypothesis small : forall z, In z [ax1; ax2; ay1; ay2; bx1; bx2; by1; by2; ax1 + vx; ax2 + vx; ay1 + vy; ay2 + vy] -> Z.abs z <= 2 ^ 31.
Hypotheses (smallx : Z.abs vx <= 2 ^ 30) (smally : Z.abs vy <= 2 ^ 30).
Lemma in_va q : In q va -> exists x y s, (x = ax1 \/ x = ax2) /\ (y = ay1 \/ y = ay2) /\ (s = 0 \/ s = 1) /\ q = (x + s * vx, y + s * vy).
Proof.
  unfold va. cbn [app In]. intros H.
  repeat (destruct H as [<-|H]); [exists ax1, ay1, 0|exists ax2, ay1, 0|exists ax2, ay2, 0|exists ax1, ay2, 0|exists ax1, ay1, 1|exists ax2, ay1, 1|exists ax2, ay2, 1|exists ax1, ay2, 1|destruct H];
    (split; [tauto|]; split; [tauto|]; split; [tauto|]; f_equal; lia).
Qed.
Lemma va_in x y s : (x = ax1 \/ x = ax2) -> (y = ay1 \/ y = ay2) -> (s = 0 \/ s = 1) -> In (x + s * vx, y + s * vy) va.
Proof.
  intros [-> | ->] [-> | ->] [-> | ->]; unfold va; cbn [app In]; rewrite ?Z.mul_0_l, ?Z.add_0_r, ?Z.mul_1_l; tauto.
Qed.
Lemma vb_in x y : (x = bx1 \/ x = bx2) -> (y = by1 \/ y = by2) -> In (x, y) vb.
Proof. intros [-> | ->] [-> | ->]; unfold vb; cbn [In]; tauto. Qed.
Lemma in_vb q : In q vb -> (fst q = bx1 \/ fst q = bx2) /\ (snd q = by1 \/ snd q = by2).
Proof. unfold vb. cbn [In]. intros H. repeat (destruct H as [<-|H]); cbn [fst snd]; tauto. Qed.
Lemma in_va_small q : In q va -> Z.abs (fst q) <= 2 ^ 31 /\ Z.abs (snd q) <= 2 ^ 31.
Proof. unfold va. cbn [app In]. intros H. repeat (destruct H as [<-|H]); cbn [fst snd]; (split; apply small; cbn [In]; tauto). Qed.
Lemma in_vb_small q : In q vb -> Z.abs (fst q) <= 2 ^ 31 /\ Z.abs (snd q) <= 2 ^ 31.
Proof. unfold vb. cbn [In]. intros H. repeat (destruct H as [<-|H]); cbn [fst snd]; (split; apply small; cbn [In]; tauto). Qed.
Lemma dot_small n q : Z.abs (fst n) <= 2 ^ 30 -> Z.abs (snd n) <= 2 ^ 30 -> Z.abs (fst q) <= 2 ^ 31 -> Z.abs (snd q) <= 2 ^ 31 -> - 2 ^ 63 < dot n q < 2 ^ 63 - 1.
Proof.
  intros A B C D. unfold dot. assert (P : forall a b, Z.abs a <= 2 ^ 30 -> Z.abs b <= 2 ^ 31 -> Z.abs (a * b) <= 2 ^ 61).
  { intros a b Ha Hb. rewrite Z.abs_mul. change (2 ^ 61) with (2 ^ 30 * 2 ^ 31). apply Z.mul_le_mono_nonneg; try assumption; apply Z.abs_nonneg. }
  pose proof (P _ _ A C). pose proof (P _ _ B D). change (2 ^ 61) with 2305843009213693952 in *. change (2 ^ 63) with 9223372036854775808. lia.
Qed.
Lemma nva : va <> nil. Proof. discriminate. Qed.
Lemma nvb : vb <> nil. Proof. discriminate. Qed.
Lemma spec_at n : Z.abs (fst n) <= 2 ^ 30 -> Z.abs (snd n) <= 2 ^ 30 -> (fst n, snd n) <> (0, 0) ->
  (axis_ok n va vb = true <-> (exists q p, In q va /\ In p vb /\ dot n q <= dot n p) /\ (exists q p, In q va /\ In p vb /\ dot n p <= dot n q)).
Proof.
  intros A B C. apply axis_spec; [exact nva|exact nvb|exact C|]. intros q [H|H]; [apply in_va_small in H|apply in_vb_small in H]; apply dot_small; tauto.
Qed.
Lemma axis_x : axis_ok (4096, 0) va vb = true <-> (ax1 <= bx2 \/ ax1 + vx <= bx2) /\ (bx1 <= ax2 \/ bx1 <= ax2 + vx).
Proof.
  rewrite spec_at by (cbn [fst snd]; discriminate || lia). unfold dot. cbn [fst snd]. split.
  - intros ((q & p & Q & P & D) & (q' & p' & Q' & P' & D')). apply in_va in Q, Q'. apply in_vb in P, P'.
    destruct Q as (x & y & s & Qx & Qy & Qs & ->), Q' as (x' & y' & s' & Qx' & Qy' & Qs' & ->). cbn [fst snd] in *. split; [destruct Qs; subst s; lia|destruct Qs'; subst s'; lia].
  - intros (X & Y). split.
    + destruct X as [X|X]; [exists (ax1 + 0 * vx, ay1 + 0 * vy), (bx2, by1)|exists (ax1 + 1 * vx, ay1 + 1 * vy), (bx2, by1)];
        (split; [apply va_in; auto|]; split; [apply vb_in; auto|]; cbn [fst snd]; lia).
    + destruct Y as [Y|Y]; [exists (ax2 + 0 * vx, ay1 + 0 * vy), (bx1, by1)|exists (ax2 + 1 * vx, ay1 + 1 * vy), (bx1, by1)];
        (split; [apply va_in; auto|]; split; [apply vb_in; auto|]; cbn [fst snd]; lia).
Qed.
Lemma axis_y : axis_ok (0, 4096) va vb = true <-> (ay1 <= by2 \/ ay1 + vy <= by2) /\ (by1 <= ay2 \/ by1 <= ay2 + vy).
Proof.
  rewrite spec_at by (cbn [fst snd]; discriminate || lia). unfold dot. cbn [fst snd]. split.
  - intros ((q & p & Q & P & D) & (q' & p' & Q' & P' & D')). apply in_va in Q, Q'. apply in_vb in P, P'.
    destruct Q as (x & y & s & Qx & Qy & Qs & ->), Q' as (x' & y' & s' & Qx' & Qy' & Qs' & ->). cbn [fst snd] in *. split; [destruct Qs; subst s; lia|destruct Qs'; subst s'; lia].
  - intros (X & Y). split.
    + destruct X as [X|X]; [exists (ax1 + 0 * vx, ay1 + 0 * vy), (bx1, by2)|exists (ax1 + 1 * vx, ay1 + 1 * vy), (bx1, by2)];
        (split; [apply va_in; auto|]; split; [apply vb_in; auto|]; cbn [fst snd]; lia).
    + destruct Y as [Y|Y]; [exists (ax1 + 0 * vx, ay2 + 0 * vy), (bx1, by1)|exists (ax1 + 1 * vx, ay2 + 1 * vy), (bx1, by1)];
        (split; [apply va_in; auto|]; split; [apply vb_in; auto|]; cbn [fst snd]; lia).
Qed.
Lemma axis_v_to : axis_ok (- vy, vx) va vb = true -> (vx = 0 /\ vy = 0) \/ spanned vx vy (bx1 - ax2) (bx2 - ax1) (by1 - ay2) (by2 - ay1).
Proof.
  destruct (Z.eq_dec vx 0) as [X|X]; [destruct (Z.eq_dec vy 0) as [Y|Y]; [auto|]|]; rewrite spec_at; try (cbn [fst snd]; lia); try (cbn [fst snd]; congruence);
  try (intros E; cbn [fst snd] in E; injection E as E1 E2; lia); unfold dot; cbn [fst snd];
  (intros ((q & p & Q & P & D) & (q' & p' & Q' & P' & D')); apply in_va in Q, Q'; apply in_vb in P, P';
   destruct Q as (x & y & s & Qx & Qy & Qs & ->), Q' as (x' & y' & s' & Qx' & Qy' & Qs' & ->); cbn [fst snd] in *; right; split;
   [exists (fst p - x), (snd p - y)|exists (fst p' - x'), (snd p' - y')]; (split; [lia|]; split; [lia|]; lia)).
Qed.
Lemma axis_v_from : 0 <= vx * (if vx >=? 0 then by2 - ay1 else by1 - ay2) - vy * (if vy >=? 0 then bx1 - ax2 else bx2 - ax1) ->
  vx * (if vx >=? 0 then by1 - ay2 else by2 - ay1) - vy * (if vy >=? 0 then bx2 - ax1 else bx1 - ax2) <= 0 -> axis_ok (- vy, vx) va vb = true.
Proof.
  intros A B. destruct (Z.eq_dec vx 0) as [X|X]; [destruct (Z.eq_dec vy 0) as [Y|Y]|].
  1:{ unfold axis_ok. cbn [fst snd]. replace ((- vy =? 0) && (vx =? 0)) with true by lia. reflexivity. }
  all: apply spec_at; try (cbn [fst snd]; lia); try (intros E; cbn [fst snd] in E; injection E as E1 E2; lia); unfold dot; cbn [fst snd]; split.
  all: destruct (vx >=? 0), (vy >=? 0).
  all: match type of A with 0 <= _ * (?b1 - ?a1) - _ * (?b2 - ?a2) => match type of B with _ * (?b3 - ?a3) - _ * (?b4 - ?a4) <= 0 =>
    first [exists (a2 + 0 * vx, a1 + 0 * vy), (b2, b1); split; [apply va_in; auto|]; split; [apply vb_in; auto|]; cbn [fst snd]; lia
          |exists (a4 + 0 * vx, a3 + 0 * vy), (b4, b3); split; [apply va_in; auto|]; split; [apply vb_in; auto|]; cbn [fst snd]; lia] end end.
Qed.
Lemma boxes_meet : axis_ok (4096, 0) va vb && axis_ok (0, 4096) va vb && axis_ok (- vy, vx) va vb = true <->
  exists k m, 0 <= k <= m /\ 0 < m /\ (m * ax1 + k * vx <= m * bx2 /\ m * bx1 <= m * ax2 + k * vx) /\ (m * ay1 + k * vy <= m * by2 /\ m * by1 <= m * ay2 + k * vy).
Proof.
  rewrite !andb_true_iff, axis_x, axis_y. split.
  - intros (((X1 & X2) & (Y1 & Y2)) & V). apply axis_v_to in V.
    assert (SP : spanned vx vy (bx1 - ax2) (bx2 - ax1) (by1 - ay2) (by2 - ay1)).
    { destruct V as [(-> & ->)|V]; [|exact V]. split; exists (bx2 - ax1), (by2 - ay1); lia. }
    destruct (helly vx vy (bx1 - ax2) (bx2 - ax1) (by1 - ay2) (by2 - ay1)) as (k & m & K1 & K2 & K3 & K4); try lia; [exact SP|].
    exists k, m. lia.
  - intros (k & m & K & M & X & Y).
    destruct (helly_back vx vy (bx1 - ax2) (bx2 - ax1) (by1 - ay2) (by2 - ay1) k m K M) as (H1 & H2 & H3 & H4 & H5 & H6); try lia.
    split; [lia|]. apply axis_v_from; assumption.
Qed.
End Boxes.

(** ** The test of two sprites *)
Lemma land_common x y : (Z.land x y =? 0) = false <-> exists g, 0 <= g /\ Z.testbit x g = true /\ Z.testbit y g = true.
Proof.
  split.
  - intros H. apply Z.eqb_neq in H. destruct (Z_le_gt_dec 0 (Z.land x y)) as [P|P].
    + exists (Z.log2 (Z.land x y)). split; [apply Z.log2_nonneg|]. apply andb_true_iff. rewrite <- Z.land_spec. apply Z.bit_log2. lia.
    + destruct (Z.eq_dec (Z.land x y) (-1)) as [E|E].
      * exists 0. split; [lia|]. apply andb_true_iff. rewrite <- Z.land_spec, E. reflexivity.
      * (* negative: the bits above the size are all set *)
        pose (g := Z.log2 (- Z.land x y) + 1). exists g. pose proof (Z.log2_nonneg (- Z.land x y)). split; [unfold g; lia|]. apply andb_true_iff. rewrite <- Z.land_spec.
        apply Z.bits_above_log2_neg; [lia|]. apply Z.le_lt_trans with (Z.log2 (- Z.land x y)); [apply Z.log2_le_mono; lia|unfold g; lia].
  - intros (g & _ & A & B). apply Z.eqb_neq. intros E. assert (F : Z.testbit (Z.land x y) g = true) by (rewrite Z.land_spec, A, B; reflexivity). rewrite E, Z.bits_0 in F. discriminate F.
Qed.
Lemma scaled_small v k : Z.abs v <= 2 ^ 21 -> 0 <= k <= 8192 -> Z.abs (v * k / 4096) <= 2 ^ 22.
Proof.
  intros A B. change (2 ^ 21) with 2097152 in A. change (2 ^ 22) with 4194304. assert (- 17179869184 <= v * k <= 17179869184) by nia. lia.
Qed.
Lemma scaled_mono v w k : 0 <= w -> 0 <= k -> v * k / 4096 <= (v + w) * k / 4096.
Proof. intros A B. apply Z.div_le_mono; [lia|]. nia. Qed.
Lemma box_eq s : placed s -> hit_box s = mkBox (left_ s) (top_ s) (right_ s) (bottom_ s) /\ left_ s <= right_ s /\ top_ s <= bottom_ s /\
  Z.abs (left_ s) <= 2 ^ 29 + 2 ^ 22 /\ Z.abs (right_ s) <= 2 ^ 29 + 2 ^ 22 /\ Z.abs (top_ s) <= 2 ^ 29 + 2 ^ 22 /\ Z.abs (bottom_ s) <= 2 ^ 29 + 2 ^ 22.
Proof.
  intros (P1 & P2 & _ & _ & _ & _ & H1 & H2 & H3 & H4 & K). unfold hit_box, left_, right_, top_, bottom_.
  change (2 ^ 29) with 536870912 in *. change (2 ^ 19) with 524288 in *. change (2 ^ 20) with 1048576 in *. 
  pose proof (scaled_small (hx (hit s)) (cv (scale s)) ltac:(change (2 ^ 21) with 2097152; lia) K) as A1.
  pose proof (scaled_small (hy (hit s)) (cv (scale s)) ltac:(change (2 ^ 21) with 2097152; lia) K) as A2.
  pose proof (scaled_small (hx (hit s) + hw (hit s)) (cv (scale s)) ltac:(change (2 ^ 21) with 2097152; lia) K) as A3.
  pose proof (scaled_small (hy (hit s) + hh (hit s)) (cv (scale s)) ltac:(change (2 ^ 21) with 2097152; lia) K) as A4.
  pose proof (scaled_mono (hx (hit s)) (hw (hit s)) (cv (scale s)) ltac:(lia) ltac:(lia)) as M1.
  pose proof (scaled_mono (hy (hit s)) (hh (hit s)) (cv (scale s)) ltac:(lia) ltac:(lia)) as M2.
  set (b1 := hx (hit s) * cv (scale s) / 4096) in *. set (b2 := hy (hit s) * cv (scale s) / 4096) in *.
  set (b3 := (hx (hit s) + hw (hit s)) * cv (scale s) / 4096) in *. set (b4 := (hy (hit s) + hh (hit s)) * cv (scale s) / 4096) in *.
  clearbody b1 b2 b3 b4. change (2 ^ 22) with 4194304 in *.
  split; [|lia]. cbv zeta. rewrite !(s32_id b1), !(s32_id b2), !(s32_id b3), !(s32_id b4) by (unfold INT_MIN, INT_MAX; lia). rewrite !s32_id by (unfold INT_MIN, INT_MAX; lia). reflexivity.
Qed.
Lemma way_eq s : placed s -> hit_vec s = (way_x s, way_y s) /\ Z.abs (way_x s) <= 2 ^ 29 /\ Z.abs (way_y s) <= 2 ^ 29.
Proof.
  intros (_ & _ & D1 & D2 & H1 & H2 & _). unfold hit_vec, way_x, way_y. change (2 ^ 19) with 524288 in *. change (2 ^ 29) with 536870912 in *.
  destruct ((hdx (hit s) =? 0) && (hdy (hit s) =? 0)); (split; [reflexivity|]); lia.
Qed.
Lemma is_hit_spec a b : placed a -> placed b -> (is_hit a b = true <-> active a = true /\ active b = true /\ common_group a b /\ meet a b).
Proof.
  intros PA PB. destruct (box_eq a PA) as (BA & OA & OA' & LA & RA & TA & DA). destruct (box_eq b PB) as (BB & OB & OB' & LB & RB & TB & DB).
  destruct (way_eq a PA) as (WA & WXA & WYA). destruct (way_eq b PB) as (WB & WXB & WYB).
  unfold is_hit. destruct (active a); cbn [negb orb]; [|split; [discriminate|intros (H & _); discriminate H]].
  destruct (active b); cbn [negb]; [|split; [discriminate|intros (_ & H & _); discriminate H]].
  destruct (Z.land (hmask (hit a)) (hmask (hit b)) =? 0) eqn:G.
  { split; [discriminate|]. intros (_ & _ & H & _). unfold common_group in H. apply land_common in H. congruence. }
  rewrite WA, WB, BA, BB. unfold corners. cbn [bx1 by1 bx2 by2]. cbv zeta. cbn [fst snd].
  change (2 ^ 29) with 536870912 in *. change (2 ^ 22) with 4194304 in *.
  clear PA PB BA BB WA WB.
  apply Z.abs_le in LA, RA, TA, DA, LB, RB, TB, DB, WXA, WYA, WXB, WYB.
  rewrite !(s32_id (- way_y a)), !(s32_id (- way_y b)) by (unfold INT_MIN, INT_MAX; lia).
  rewrite !(s32_id (- way_y a - - way_y b)), !(s32_id (way_x a - way_x b)) by (unfold INT_MIN, INT_MAX; lia).
  set (vx := way_x a - way_x b). set (vy := way_y a - way_y b). replace (- way_y a - - way_y b) with (- vy) by (unfold vy; lia).
  cbn [map fst snd]. rewrite !s32_id by (unfold INT_MIN, INT_MAX, vx, vy; lia). change (INT_TO_FP 1) with 4096. rewrite !Z.sub_opp_r.
  rewrite boxes_meet; [|assumption|assumption|assumption|assumption| |unfold vx; change (2 ^ 30) with 1073741824; lia|unfold vy; change (2 ^ 30) with 1073741824; lia].
  2:{ clear - LA RA TA DA LB RB TB DB WXA WYA WXB WYB. subst vx vy. intros z Hz. cbn [In] in Hz. change (2 ^ 31) with 2147483648. repeat (destruct Hz as [<-|Hz]; [apply Z.abs_le; lia|]). destruct Hz. }
  split.
  - intros (k & m & K & M & X & Y). repeat split. { apply land_common. exact G. } exists k, m. split; [exact K|]. split; [exact M|]. unfold meet_at, touch, vx, vy in *. lia.
  - intros (_ & _ & _ & (k & m & K & M & X & Y)). exists k, m. split; [exact K|]. split; [exact M|]. unfold touch, vx, vy in *. lia.
Qed.

(** ** The functions *)
Definition at_ (S : sprites) (id : Z) : sprite := info S (page_ S) id.
Definition hits (S : sprites) (i j : Z) : Prop := exists_sprite S i /\ exists_sprite S j /\ common_group (at_ S i) (at_ S j) /\ meet (at_ S i) (at_ S j).
Definition all_placed (S : sprites) : Prop := forall j, 0 <= j <= 99 -> placed (at_ S j).
(** meeting does not depend on who asks *)
Theorem C63_symmetric : forall S i j, hits S i j <-> hits S j i.
Proof.
  assert (H : forall S i j, hits S i j -> hits S j i); [|intros S i j; split; apply H].
  intros S i j (A & B & (g & G0 & G1 & G2) & (k & m & K & M & X & Y)). split; [exact B|]. split; [exact A|]. split; [exists g; tauto|]. exists k, m. unfold meet_at, touch in *. tauto.
Qed.
Lemma in_range id lo hi : lo <= whole id <= hi -> int_range id lo hi = Some (whole id).
Proof. intros H. unfold int_range. change (FP_TO_INT id) with (whole id). replace ((whole id <? lo) || (whole id >? hi)) with false by lia. reflexivity. Qed.
Lemma find_zrange f : forall lo hi, match find f (zrange lo hi) with
  | Some i => lo <= i <= hi /\ f i = true /\ (forall j, lo <= j < i -> f j = false) | None => forall j, lo <= j <= hi -> f j = false end.
Proof.
  assert (G : forall n lo, match find f (map (fun i => lo + Z.of_nat i) (seq 0 n)) with
    | Some i => lo <= i < lo + Z.of_nat n /\ f i = true /\ (forall j, lo <= j < i -> f j = false) | None => forall j, lo <= j < lo + Z.of_nat n -> f j = false end).
  { induction n as [|n IH]; intros lo; [cbn; lia|]. cbn [seq map find]. rewrite Z.add_0_r. destruct (f lo) eqn:E.
    - split; [lia|]. split; [exact E|]. lia.
    - specialize (IH (lo + 1)). rewrite <- seq_shift, map_map.
      replace (map (fun x => lo + Z.of_nat (S x)) (seq 0 n)) with (map (fun i => lo + 1 + Z.of_nat i) (seq 0 n)) by (apply map_ext; intros; lia).
      destruct (find f _).
      + destruct IH as (I1 & I2 & I3). split; [lia|]. split; [exact I2|]. intros j Hj. destruct (Z.eq_dec j lo) as [->|N]; [exact E|]. apply I3. lia.
      + intros j Hj. destruct (Z.eq_dec j lo) as [->|N]; [exact E|]. apply IH. lia. }
  intros lo hi. unfold zrange. specialize (G (Z.to_nat (hi - lo + 1)) lo). destruct (find f _).
  - destruct G as (G1 & G2). split; [lia|]. exact G2.
  - intros j Hj. apply G. lia.
Qed.
Lemma fp_id j : 0 <= j <= 99 -> INT_TO_FP j = 4096 * j.
Proof. intros H. unfold INT_TO_FP, u32, s32. change (2 ^ 32) with 4294967296. change (2 ^ 31) with 2147483648. lia. Qed.
(** SPHIT(id) or SPHIT(id, start): the first sprite hit, from [start] on; SPHITNO is its number *)
Theorem C63_sphit : forall S id start, screen_ok S -> 0 <= whole id <= 99 -> match start with None => True | Some v => 0 <= whole v <= 99 end -> all_placed S ->
  let i := whole id in let from := match start with None => 0 | Some v => whole v end in
  (forall j, from <= j <= 99 -> j <> i -> ~ hits S i j) /\ func_sphit S id start = (S, Ok 0) \/
  exists j S', from <= j <= 99 /\ j <> i /\ hits S i j /\ (forall j', from <= j' < j -> j' <> i -> ~ hits S i j') /\
    func_sphit S id start = (S', Ok 4096) /\ sys_sphitno S' = 4096 * j /\ info S' = info S /\ page_ S' = page_ S.
Proof.
  intros S id start P Hi Hs AP. cbv zeta. set (i := whole id) in *. set (from := match start with None => 0 | Some v => whole v end).
  assert (Hf : 0 <= from <= 99) by (unfold from; destruct start; lia).
  assert (HH : forall j, 0 <= j <= 99 -> (is_hit (at_ S i) (at_ S j) = true <-> hits S i j)) by (intros j Hj; apply is_hit_spec; apply AP; [exact Hi|exact Hj]).
  assert (E : func_sphit S id start = match first_hit S i from with
        | Some i' => (mkS (page_ S) (info S) i' (px_ (pos (at_ S i))) (py_ (pos (at_ S i))) 0, Ok 4096) | None => (S, Ok 0) end).
  { unfold func_sphit. rewrite in_range by exact Hi. fold i. replace (match start with None => Some 0 | Some v => int_range v 0 99 end) with (Some from).
    2:{ unfold from. destruct start; [rewrite in_range by exact Hs|]; reflexivity. }
    rewrite in_table_ok by assumption. destruct (first_hit S i from); reflexivity. }
  rewrite E. clear E. unfold first_hit.
  pose proof (find_zrange (fun j => negb (j =? i) && is_hit (info S (page_ S) i) (info S (page_ S) j)) from 99) as F.
  destruct (find _ (zrange from 99)) as [j|].
  - right. destruct F as (F1 & F2 & F3). apply andb_true_iff in F2. destruct F2 as (F2 & F4). exists j. eexists. split; [exact F1|]. split; [intros ->; rewrite Z.eqb_refl in F2; discriminate F2|].
    split; [apply HH; [lia|exact F4]|]. split; [|repeat split; unfold sys_sphitno; cbn [sphitno]; apply fp_id; lia].
    intros j' Hj' N H. apply HH in H; [|lia]. specialize (F3 j' Hj'). cbv beta in F3. unfold at_ in H. rewrite H in F3. replace (j' =? i) with false in F3 by lia. discriminate F3.
  - left. split; [|reflexivity]. intros j Hj N H. apply HH in H; [|lia]. specialize (F j Hj). cbv beta in F. unfold at_ in H. rewrite H in F. replace (j =? i) with false in F by lia. discriminate F.
Qed.
(** SPHITSP(a, b) *)
Theorem C63_sphitsp : forall S a b, screen_ok S -> 0 <= whole a <= 99 -> 0 <= whole b <= 99 -> all_placed S ->
  exists S', info S' = info S /\ page_ S' = page_ S /\ sphitno S' = sphitno S /\
    (hits S (whole a) (whole b) /\ func_sphitsp S a b = (S', Ok 4096) \/ ~ hits S (whole a) (whole b) /\ func_sphitsp S a b = (S', Ok 0)).
Proof.
  intros S a b P Ha Hb AP. unfold func_sphitsp. rewrite !in_range by assumption. rewrite in_table_ok by assumption.
  assert (HH : is_hit (at_ S (whole b)) (at_ S (whole a)) = true <-> hits S (whole b) (whole a)) by (apply is_hit_spec; apply AP; assumption).
  unfold at_ in HH. destruct (is_hit _ _); eexists; (split; [|split; [|split; [|]]]).
  4:{ left. split; [apply C63_symmetric, HH; reflexivity|reflexivity]. }
  7:{ right. split; [|reflexivity]. intros H. apply C63_symmetric, HH in H. discriminate H. }
  all: reflexivity.
Qed.
(** a box that does not move is hit when the boxes overlap: the simple case *)
Theorem C63_standing : forall S i j, exists_sprite S i -> exists_sprite S j -> common_group (at_ S i) (at_ S j) ->
  way_x (at_ S i) = way_x (at_ S j) -> way_y (at_ S i) = way_y (at_ S j) ->
  (hits S i j <-> left_ (at_ S i) <= right_ (at_ S j) /\ left_ (at_ S j) <= right_ (at_ S i) /\ top_ (at_ S i) <= bottom_ (at_ S j) /\ top_ (at_ S j) <= bottom_ (at_ S i)).
Proof.
  intros S i j A B G X Y. split.
  - intros (_ & _ & _ & (k & m & K & M & U & V)). unfold touch in *. rewrite X in U. rewrite Y in V. nia.
  - intros H. split; [exact A|]. split; [exact B|]. split; [exact G|]. exists 0, 1. unfold meet_at, touch. lia.
Qed.

(** ** What is wrong *)
Definition set_ (S : sprites) (id : Z) : sprites := fst (cmd_spset S (4096 * id) (4096 * 5) 0 0 0 0 None).
Definition ofs (S : sprites) (id x y : Z) (t : option Z) : sprites := fst (cmd_spofs S (4096 * id) (4096 * x) (4096 * y) t).
(** sprite 1 moved to (160, 0) in 10 frames and stands there; sprite 2 stands at (184, 0): 8 pixels between the boxes of 16 pixels *)
Definition walked : sprites := frames 20 (ofs (ofs (set_ (set_ init_sprites 1) 2) 2 184 0 None) 1 160 0 (Some (4096 * 10))).
(** the old motion still counts: SPCHK says that both stand still, the boxes are apart, and SPHIT finds a hit *)
Theorem C63_stale_way_refuted : func_spchk walked 4096 = Ok 0 /\ func_spchk walked (2 * 4096) = Ok 0 /\ right_ (at_ walked 1) = 4096 * 176 /\ left_ (at_ walked 2) = 4096 * 184 /\
  snd (func_sphit walked 4096 None) = Ok 4096.
Proof. vm_compute. repeat split. Qed.
(** SPCOL's flag, whether the box is scaled with the sprite, is ignored *)
Theorem C63_scale_flag_refuted : forall a b flag, let h := hit a in
  is_hit (set_hit (mkHit (hdx h) (hdy h) (hx h) (hy h) (hw h) (hh h) flag (hmask h)) a) b = is_hit a b.
Proof. intros a b flag. destruct a as [? ? ? ? ? ? ? ? ? ? ? ? ? ? h ? ?]. destruct h. reflexivity. Qed.
(** a box of 16 pixels that is not to be scaled, at 0; a sprite at 20: hit when the sprite is shown at 200 % *)
Definition unscaled : sprites :=
  fst (cmd_spscale (fst (cmd_spcol (ofs (set_ (set_ init_sprites 1) 2) 2 20 0 None) 4096 0 0 (16 * 4096) (16 * 4096) 0 None)) 4096 (200 * 4096) None).
Theorem C63_unscaled_refuted : hadjust (hit (at_ unscaled 1)) = false /\ hx (hit (at_ unscaled 1)) + hw (hit (at_ unscaled 1)) = 16 * 4096 /\ left_ (at_ unscaled 2) = 20 * 4096 /\
  snd (func_sphit unscaled 4096 None) = Ok 4096.
Proof. vm_compute. repeat split. Qed.
(** as a test *)
Definition placedb (s : sprite) : bool :=
  (Z.abs (px_ (pos s)) <=? 2 ^ 29) && (Z.abs (py_ (pos s)) <=? 2 ^ 29) && (Z.abs (pdx (pos s)) <=? 2 ^ 29) && (Z.abs (pdy (pos s)) <=? 2 ^ 29) &&
  (Z.abs (hdx (hit s)) <=? 2 ^ 19) && (Z.abs (hdy (hit s)) <=? 2 ^ 19) && (Z.abs (hx (hit s)) <=? 2 ^ 19) && (Z.abs (hy (hit s)) <=? 2 ^ 19) &&
  ((0 <=? hw (hit s)) && (hw (hit s) <=? 2 ^ 20)) && ((0 <=? hh (hit s)) && (hh (hit s) <=? 2 ^ 20)) && ((0 <=? cv (scale s)) && (cv (scale s) <=? 8192)).
Lemma placedb_ok s : placedb s = true -> placed s.
Proof. unfold placedb, placed. rewrite !andb_true_iff, !Z.leb_le. tauto. Qed.
Definition world : sprites := ofs (ofs (set_ (set_ (set_ init_sprites 1) 2) 7) 2 100 0 None) 7 50 10 None.
Definition flying : sprites := fst (cmd_spcolvec world 4096 (127 * 4096) 0).
Example C63_ok : screen_ok flying /\ all_placed flying /\ func_sphit world 4096 None = (world, Ok 0) /\
  snd (func_sphit flying 4096 None) = Ok 4096 /\ sys_sphitno (fst (func_sphit flying 4096 None)) = 2 * 4096 /\ sys_sphitno (fst (func_sphit flying 4096 (Some (3 * 4096)))) = 7 * 4096.
Proof.
  split; [split; vm_compute; discriminate|]. split; [|vm_compute; repeat split].
  intros j Hj. apply placedb_ok.
  assert (F : forallb (fun n => placedb (at_ flying (Z.of_nat n))) (seq 0 100) = true) by (vm_compute; reflexivity).
  rewrite forallb_forall in F. specialize (F (Z.to_nat j)). cbv beta in F. rewrite Z2Nat.id in F by lia. apply F, in_seq. lia.
Qed.
Print Assumptions C63_symmetric.
Print Assumptions C63_sphit.
Print Assumptions C63_sphitsp.
Print Assumptions C63_standing.
Print Assumptions C63_stale_way_refuted.
Print Assumptions C63_scale_flag_refuted.
Print Assumptions C63_unscaled_refuted.
