(** Lemmas on the graphics pages. *)
From Coq Require FinFun.
From Verif Require Import Base BaseLemmas Memory Graphics GraphicsSpec.
Ltac Zify.zify_post_hook ::= Z.div_mod_to_equations.
Open Scope Z_scope.

Lemma on_page_iff x y : on_page x y = true <-> 0 <= x < 256 /\ 0 <= y < 192.
Proof. unfold on_page, GRP_WIDTH, GRP_HEIGHT. lia. Qed.
Lemma on_page_not x y : on_page x y = false <-> ~ (0 <= x < 256 /\ 0 <= y < 192).
Proof. unfold on_page, GRP_WIDTH, GRP_HEIGHT. lia. Qed.
Lemma u8_id x : 0 <= x < 256 -> u8 x = x.
Proof. intros. unfold u8. change (2 ^ 8) with 256. apply Z.mod_small. lia. Qed.
Lemma grp_index_eq x y : 0 <= x < 256 -> 0 <= y < 192 ->
  grp_index x y = x mod 8 + y mod 8 * 8 + (x / 8) mod 8 * 64 + (y / 8) mod 8 * 512 + x / 64 * 4096 + y / 64 * 16384.
Proof. intros. unfold grp_index. rewrite !u8_id by lia. reflexivity. Qed.
Lemma grp_index_range x y : 0 <= x < 256 -> 0 <= y < 192 -> 0 <= grp_index x y < 49152.
Proof. intros. rewrite grp_index_eq by assumption. lia. Qed.
Lemma digits_inj a b c d e f a' b' c' d' e' f' :
  0 <= a < 8 -> 0 <= b < 8 -> 0 <= c < 8 -> 0 <= d < 8 -> 0 <= e < 4 -> 0 <= f ->
  0 <= a' < 8 -> 0 <= b' < 8 -> 0 <= c' < 8 -> 0 <= d' < 8 -> 0 <= e' < 4 -> 0 <= f' ->
  a + b * 8 + c * 64 + d * 512 + e * 4096 + f * 16384 = a' + b' * 8 + c' * 64 + d' * 512 + e' * 4096 + f' * 16384 ->
  a = a' /\ b = b' /\ c = c' /\ d = d' /\ e = e' /\ f = f'.
Proof. intros. lia. Qed.
Lemma grp_index_inj x y x' y' : 0 <= x < 256 -> 0 <= y < 192 -> 0 <= x' < 256 -> 0 <= y' < 192 ->
  grp_index x y = grp_index x' y' -> x = x' /\ y = y'.
Proof.
  intros Hx Hy Hx' Hy' E. rewrite !grp_index_eq in E by assumption.
  assert (X : forall z, z = z mod 8 + 8 * ((z / 8) mod 8) + 64 * (z / 64)) by (intro; lia).
  rewrite (X x), (X y), (X x'), (X y').
  apply digits_inj in E; try lia.
Qed.

(** ** reading *)
Definition px (p : page) (x y : Z) : Z := p (grp_index x y).
Lemma whole_of n : whole (n * 4096) = n.
Proof. unfold whole. apply Z.div_mul. lia. Qed.
Lemma spoit g pg x y n : int_range pg 0 3 = Some n ->
  func_gspoit g (Some pg) x y = if on_page (FP_TO_INT x) (FP_TO_INT y) then Ok (INT_TO_FP (pages g n (grp_index (FP_TO_INT x) (FP_TO_INT y)))) else Ok (- INT_TO_FP 1).
Proof.
  intros E. unfold func_gspoit. rewrite E. unfold on_page, GRP_WIDTH, GRP_HEIGHT.
  set (a := FP_TO_INT x). set (b := FP_TO_INT y).
  replace ((a >=? 256) || (a <? 0) || (b <? 0) || (b >=? 192)) with (negb ((a >=? 0) && (a <? 256) && (b >=? 0) && (b <? 192))) by lia.
  destruct ((a >=? 0) && (a <? 256) && (b >=? 0) && (b <? 192)); reflexivity.
Qed.
Lemma FP_mul n : FP_TO_INT (n * 4096) = n.
Proof. unfold FP_TO_INT. apply Z.div_mul. lia. Qed.
Lemma int_range_mul n lo hi : lo <= n <= hi -> int_range (n * 4096) lo hi = Some n.
Proof. intros H. unfold int_range. rewrite FP_mul. replace ((n <? lo) || (n >? hi)) with false by lia. reflexivity. Qed.
Lemma int_range_some v lo hi n : int_range v lo hi = Some n <-> n = whole v /\ lo <= whole v <= hi.
Proof.
  unfold int_range, whole, FP_TO_INT. destruct ((v / 4096 <? lo) || (v / 4096 >? hi)) eqn:E; split; intros H.
  - discriminate H.
  - exfalso. lia.
  - injection H as <-. lia.
  - destruct H as (-> & _). reflexivity.
Qed.
Lemma int_range_none v lo hi : int_range v lo hi = None <-> ~ (lo <= whole v <= hi).
Proof.
  unfold int_range, whole, FP_TO_INT. destruct ((v / 4096 <? lo) || (v / 4096 >? hi)) eqn:E; split; intros H; try reflexivity; try lia; discriminate H.
Qed.
Lemma byte_fp v : 0 <= v <= 255 -> INT_TO_FP v = v * 4096.
Proof. intros. apply INT_TO_FP_exact. change (2 ^ 19) with 524288. lia. Qed.
Lemma colour_on g n x y : 0 <= n <= 3 -> 0 <= x < 256 -> 0 <= y < 192 -> 0 <= px (pages g n) x y <= 255 -> colour_at g n x y = px (pages g n) x y.
Proof.
  intros Hn Hx Hy B. unfold colour_at. rewrite (spoit g _ _ _ n) by (apply int_range_mul; lia). rewrite !FP_mul.
  rewrite (proj2 (on_page_iff x y)) by lia. fold (px (pages g n) x y). rewrite byte_fp by exact B. apply whole_of.
Qed.
Lemma colour_congr g h n x y : (0 <= x < 256 -> 0 <= y < 192 -> px (pages h n) x y = px (pages g n) x y) -> colour_at h n x y = colour_at g n x y.
Proof.
  intros H. unfold colour_at. destruct (int_range (n * 4096) 0 3) as [k|] eqn:E.
  - rewrite !(spoit _ _ _ _ k E), !FP_mul. assert (k = n) as -> by (apply int_range_some in E; rewrite whole_of in E; tauto).
    destruct (on_page x y) eqn:O; [|reflexivity]. apply on_page_iff in O. unfold px in H. rewrite H by tauto. reflexivity.
  - unfold func_gspoit. rewrite E. reflexivity.
Qed.
Lemma colour_off g n x y : 0 <= n <= 3 -> ~ (0 <= x < 256 /\ 0 <= y < 192) -> colour_at g n x y = -1.
Proof.
  intros Hn O. unfold colour_at. rewrite (spoit g _ _ _ n) by (apply int_range_mul; lia). rewrite !FP_mul.
  rewrite (proj2 (on_page_not x y)) by exact O. reflexivity.
Qed.

(** ** writing *)
Lemma px_set p x y v a b : 0 <= x < 256 -> 0 <= y < 192 -> 0 <= a < 256 -> 0 <= b < 192 ->
  px (set_byte p (grp_index x y) v) a b = if (a =? x) && (b =? y) then v else px p a b.
Proof.
  intros. unfold px, set_byte. destruct ((a =? x) && (b =? y)) eqn:E.
  - assert (a = x) as -> by lia. assert (b = y) as -> by lia. rewrite Z.eqb_refl. reflexivity.
  - destruct (grp_index a b =? grp_index x y) eqn:I; [|reflexivity]. apply Z.eqb_eq, grp_index_inj in I; lia.
Qed.
Lemma px_pixel p x y c mode a b : 0 <= a < 256 -> 0 <= b < 192 ->
  px (grp_pixel p x y c mode) a b = if (a =? x) && (b =? y) then blend mode (px p a b) c else px p a b.
Proof.
  intros Ha Hb. unfold grp_pixel. destruct (on_page x y) eqn:O.
  - apply on_page_iff in O. rewrite px_set by lia. destruct ((a =? x) && (b =? y)) eqn:E; [|reflexivity].
    assert (a = x) as -> by lia. assert (b = y) as -> by lia. reflexivity.
  - apply on_page_not in O. destruct ((a =? x) && (b =? y)) eqn:E; [|reflexivity]. exfalso. apply O. lia.
Qed.
(** how often a point is drawn *)
Definition hits (pts : list (Z * Z)) (a b : Z) : nat := length (filter (fun q => (a =? fst q) && (b =? snd q)) pts).
Fixpoint again (k : nat) (mode : bool) (old c : Z) : Z := match k with O => old | S k => again k mode (blend mode old c) c end.
Lemma px_plot c mode a b : forall pts p, 0 <= a < 256 -> 0 <= b < 192 ->
  px (plot p c mode pts) a b = again (hits pts a b) mode (px p a b) c.
Proof.
  induction pts as [|[x y] pts IH]; intros p Ha Hb; [reflexivity|].
  unfold plot. cbn [fold_left]. fold (plot (grp_pixel p (fst (x, y)) (snd (x, y)) c mode) c mode pts). rewrite IH by assumption.
  rewrite px_pixel by assumption. unfold hits. cbn [filter fst snd]. destruct ((a =? x) && (b =? y)); reflexivity.
Qed.
Lemma hits_in pts a b : (0 < hits pts a b)%nat <-> In (a, b) pts.
Proof.
  unfold hits. split.
  - intros H. destruct (filter _ pts) as [|q l] eqn:E; [cbn in H; lia|].
    assert (I : In q (filter (fun q => (a =? fst q) && (b =? snd q)) pts)) by (rewrite E; left; reflexivity).
    apply filter_In in I. destruct I as (I & K). destruct q as [x y]. cbn [fst snd] in K. assert (a = x) as -> by lia. assert (b = y) as -> by lia. exact I.
  - intros I. assert (J : In (a, b) (filter (fun q => (a =? fst q) && (b =? snd q)) pts)) by (apply filter_In; cbn [fst snd]; split; [exact I|lia]).
    destruct (filter _ pts); [destruct J|cbn; lia].
Qed.
Lemma hits_nodup pts a b : NoDup pts -> (hits pts a b <= 1)%nat.
Proof.
  unfold hits. intros N. induction N as [|[x y] l NI N IH]; [cbn; lia|]. cbn [filter fst snd].
  destruct ((a =? x) && (b =? y)) eqn:E; [|exact IH]. assert (a = x) as -> by lia. assert (b = y) as -> by lia.
  cbn [length]. destruct (filter (fun q => (x =? fst q) && (y =? snd q)) l) as [|q r] eqn:F; [cbn; lia|].
  exfalso. apply NI. assert (I : In q (filter (fun q => (x =? fst q) && (y =? snd q)) l)) by (rewrite F; left; reflexivity).
  apply filter_In in I. destruct I as (I & K). destruct q as [u v]. cbn [fst snd] in K. assert (x = u) as -> by lia. assert (y = v) as -> by lia. exact I.
Qed.
Lemma again_normal k old c : (0 < k)%nat -> again k false old c = c.
Proof.
  intros H. destruct k as [|k]; [lia|]. cbn [again blend]. clear H. revert old. induction k as [|k IH]; intros old; [reflexivity|]. cbn [again blend]. apply IH. exact old.
Qed.
Lemma lxor_cancel a c : Z.lxor (Z.lxor a c) c = a.
Proof. rewrite Z.lxor_assoc, Z.lxor_nilpotent, Z.lxor_0_r. reflexivity. Qed.

(** ** states *)
Lemma canvas_px g p n a b : px (pages (set_canvas g p) n) a b = if n =? draw_no g then px p a b else px (pages g n) a b.
Proof. unfold px, set_canvas, upd2. cbn [pages]. destruct (n =? draw_no g); reflexivity. Qed.
Lemma settings_canvas g p : same_settings g (set_canvas g p).
Proof. repeat split; reflexivity. Qed.
Lemma settings_refl g : same_settings g g.
Proof. repeat split; reflexivity. Qed.
Lemma well_draw g : well g -> 0 <= target g <= 3.
Proof. intros (S & _ & P & _). unfold target. apply P. exact S. Qed.
Lemma well_px g n x y : well g -> 0 <= n <= 3 -> 0 <= x < 256 -> 0 <= y < 192 -> 0 <= px (pages g n) x y <= 255.
Proof. intros (_ & _ & _ & B) Hn Hx Hy. unfold px. apply B; [exact Hn|]. apply grp_index_range; assumption. Qed.
Lemma blend_byte m a c : 0 <= a <= 255 -> 0 <= c <= 255 -> 0 <= blend m a c <= 255.
Proof.
  intros Ha Hc. unfold blend. destruct m; [|exact Hc].
  assert (B : 0 <= Z.lxor a c) by (apply Z.lxor_nonneg; lia). split; [exact B|].
  destruct (Z.eq_dec (Z.lxor a c) 0) as [->|N]; [lia|].
  assert (L := Z.log2_lxor a c ltac:(lia) ltac:(lia)).
  assert (La : Z.log2 a <= 7) by (change 7 with (Z.log2 255); apply Z.log2_le_mono; lia).
  assert (Lc : Z.log2 c <= 7) by (change 7 with (Z.log2 255); apply Z.log2_le_mono; lia).
  assert (Z.lxor a c < 2 ^ 8); [|change (2 ^ 8) with 256 in *; lia].
  apply Z.log2_lt_pow2; lia.
Qed.
(** from the bytes to what is seen *)
Lemma drawn_canvas g p c (S : Z -> Z -> Prop) : well g -> 0 <= c <= 255 ->
  (forall a b, 0 <= a < 256 -> 0 <= b < 192 ->
    (S a b -> px p a b = blend (drawmode g) (px (canvas g) a b) c) /\ (~ S a b -> px p a b = px (canvas g) a b)) ->
  drawn g (set_canvas g p) c S.
Proof.
  intros W Hc H. split; [apply settings_canvas|]. intros n x y Hn Hx Hy. destruct (H x y Hx Hy) as (H1 & H2).
  assert (B := well_px g n x y W Hn Hx Hy).
  split.
  - intros (-> & Sx). assert (E : px (pages (set_canvas g p) (target g)) x y = blend (drawmode g) (px (pages g (target g)) x y) c).
    { rewrite canvas_px. unfold draw_no, target. rewrite Z.eqb_refl. exact (H1 Sx). }
    rewrite (colour_on g) by assumption. rewrite colour_on by (assumption || (rewrite E; apply blend_byte; assumption)). exact E.
  - intros NS. apply colour_congr. intros _ _. rewrite canvas_px. destruct (n =? draw_no g) eqn:E; [|reflexivity].
    apply Z.eqb_eq in E. subst n. apply H2. intros Sx. apply NS. split; [reflexivity|exact Sx].
Qed.
Lemma drawn_plot g pts c : well g -> 0 <= c <= 255 -> (NoDup pts \/ drawmode g = false) ->
  drawn g (set_canvas g (plot (canvas g) c (drawmode g) pts)) c (fun x y => In (x, y) pts).
Proof.
  intros W Hc HN. apply drawn_canvas; [assumption..|]. intros a b Ha Hb. rewrite px_plot by assumption. split; intros H.
  - apply hits_in in H. destruct HN as [N|N].
    + assert (K := hits_nodup pts a b N). replace (hits pts a b) with 1%nat by lia. reflexivity.
    + rewrite N. rewrite again_normal by exact H. reflexivity.
  - rewrite <- hits_in in H. replace (hits pts a b) with 0%nat by lia. reflexivity.
Qed.
Lemma drawn_iff g h c S T : (forall x y, 0 <= x < 256 -> 0 <= y < 192 -> (S x y <-> T x y)) -> drawn g h c S -> drawn g h c T.
Proof.
  intros E (A & B). split; [exact A|]. intros n x y Hn Hx Hy. destruct (B n x y Hn Hx Hy) as (B1 & B2). specialize (E x y Hx Hy). split; intros H; [apply B1|apply B2]; tauto.
Qed.
Lemma with_color_ok g c k f : well g -> colour_arg g c k -> 0 <= k <= 255 -> with_color g c f = f k.
Proof.
  intros W C K. unfold with_color. destruct c as [v|]; cbn [colour_arg] in C; subst k; [|reflexivity].
  unfold in_range. rewrite (proj2 (int_range_some v 0 255 (whole v))) by tauto. reflexivity.
Qed.
Lemma with_color_bad g v f : ~ (0 <= whole v <= 255) -> with_color g (Some v) f = (g, Raised ERR_OUT_OF_RANGE).
Proof. intros H. unfold with_color, in_range. rewrite (proj2 (int_range_none v 0 255) H). reflexivity. Qed.
Lemma in_zrange a b x : In x (zrange a b) <-> a <= x <= b.
Proof.
  unfold zrange. rewrite in_map_iff. split.
  - intros (k & <- & I). apply in_seq in I. lia.
  - intros H. exists (Z.to_nat (x - a)). split; [lia|]. apply in_seq. lia.
Qed.
Lemma nodup_zrange a b : NoDup (zrange a b).
Proof. unfold zrange. apply FinFun.Injective_map_NoDup; [intros i j H; lia|apply seq_NoDup]. Qed.
Lemma clamp_in v hi x : 0 <= x < hi -> 0 <= hi -> (clamp v hi <= x <-> v <= x) /\ (x <= clamp v hi <-> x <= Z.max v 0).
Proof. intros Hx Hh. unfold clamp. destruct (v <? 0) eqn:A; [lia|]. destruct (v >? hi) eqn:B; lia. Qed.
