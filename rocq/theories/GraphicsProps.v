(** C28, C29: GPSET and GSPOIT, GFILL, GBOX, GLINE. *)
From Verif Require Import Base BaseLemmas Memory Graphics GraphicsSpec GraphicsProofs.
Ltac Zify.zify_post_hook ::= Z.div_mod_to_equations.
Open Scope Z_scope.

(** ** C28 *)
(** GPSET draws the one point (nothing if it is outside the page) *)
Theorem C28_gpset : forall g x y c k, well g -> colour_arg g c k -> 0 <= k <= 255 ->
  exists h, cmd_gpset g x y c = (h, Done) /\ drawn g h k (fun a b => a = whole x /\ b = whole y).
Proof.
  intros g x y c k W C K. unfold cmd_gpset. fold (whole x). fold (whole y). change (FP_TO_INT x) with (whole x). change (FP_TO_INT y) with (whole y).
  set (u := whole x). set (v := whole y).
  assert (OUT : ~ (0 <= u < 256 /\ 0 <= v < 192) -> drawn g g k (fun a b => a = u /\ b = v)).
  { intros O. split; [apply settings_refl|]. intros n a b Hn Ha Hb. split; [intros (_ & -> & ->); exfalso; tauto|reflexivity]. }
  destruct ((u <? 0) || (u >? 255)) eqn:E1; [exists g; split; [reflexivity|apply OUT; lia]|].
  destruct ((v <? 0) || (v >? 191)) eqn:E2; [exists g; split; [reflexivity|apply OUT; lia]|].
  rewrite (with_color_ok g c k _ W C K). eexists. split; [reflexivity|]. apply drawn_canvas; [assumption..|]. intros a b Ha Hb.
  rewrite px_pixel by assumption. split; intros S.
  - destruct S as (-> & ->). rewrite !Z.eqb_refl. reflexivity.
  - replace ((a =? u) && (b =? v)) with false by lia. reflexivity.
Qed.
(** GSPOIT: a colour on the page, -1 outside; without a page number the page drawn on *)
Theorem C28_gspoit : forall g pg x y, well g ->
  match pg with
  | Some n => if (0 <=? whole n) && (whole n <=? 3) then func_gspoit g pg x y = Ok (4096 * colour_at g (whole n) (whole x) (whole y))
              else func_gspoit g pg x y = Err ERR_OUT_OF_RANGE
  | None => func_gspoit g pg x y = Ok (4096 * colour_at g (target g) (whole x) (whole y))
  end /\
  (forall n a b, 0 <= n <= 3 -> (0 <= a < 256 /\ 0 <= b < 192 -> 0 <= colour_at g n a b <= 255) /\ (~ (0 <= a < 256 /\ 0 <= b < 192) -> colour_at g n a b = -1)).
Proof.
  intros g pg x y W. split.
  2:{ intros n a b Hn. split; intros H; [|apply colour_off; assumption]. rewrite colour_on; [apply well_px|..]; try tauto; apply well_px; tauto. }
  assert (K : forall n v, int_range v 0 3 = Some n -> func_gspoit g (Some v) x y = Ok (4096 * colour_at g n (whole x) (whole y))).
  { intros n v E. rewrite (spoit g _ _ _ n E). change (FP_TO_INT x) with (whole x). change (FP_TO_INT y) with (whole y).
    apply int_range_some in E. destruct E as (-> & R).
    destruct (on_page (whole x) (whole y)) eqn:O.
    - apply on_page_iff in O. assert (B := well_px g (whole v) (whole x) (whole y) W R (proj1 O) (proj2 O)).
      rewrite colour_on by tauto. fold (px (pages g (whole v)) (whole x) (whole y)). rewrite byte_fp by exact B. f_equal. lia.
    - apply on_page_not in O. rewrite colour_off by assumption. reflexivity. }
  destruct pg as [v|].
  - destruct ((0 <=? whole v) && (whole v <=? 3)) eqn:E; [apply K, int_range_some; lia|].
    unfold func_gspoit. rewrite (proj2 (int_range_none v 0 3)) by lia. reflexivity.
  - assert (D := well_draw g W). rewrite <- (K (target g) (target g * 4096)) by (apply int_range_mul; lia).
    unfold func_gspoit at 1 2. rewrite int_range_mul by lia. reflexivity.
Qed.
(** two points of a page never share a byte, and every byte of a page is a point *)
Theorem C28_layout : (forall x y x' y', 0 <= x < 256 -> 0 <= y < 192 -> 0 <= x' < 256 -> 0 <= y' < 192 ->
    grp_index x y = grp_index x' y' -> x = x' /\ y = y') /\
  (forall x y, 0 <= x < 256 -> 0 <= y < 192 -> 0 <= grp_index x y < 49152) /\
  (forall i, 0 <= i < 49152 -> exists x y, 0 <= x < 256 /\ 0 <= y < 192 /\ grp_index x y = i).
Proof.
  split; [exact grp_index_inj|]. split; [exact grp_index_range|]. intros i Hi.
  exists (i mod 8 + 8 * ((i / 64) mod 8) + 64 * ((i / 4096) mod 4)), ((i / 8) mod 8 + 8 * ((i / 512) mod 8) + 64 * (i / 16384)).
  split; [lia|]. split; [lia|]. rewrite grp_index_eq by lia. lia.
Qed.
(** drawing twice in the xor mode restores the point *)
Theorem C28_xor_twice : forall g x y c k, well g -> colour_arg g c k -> 0 <= k <= 255 -> drawmode g = true ->
  forall h h', cmd_gpset g x y c = (h, Done) -> cmd_gpset h x y c = (h', Done) -> same_pixels g h'.
Proof.
  intros g x y c k W C K M h h' E1 E2 n a b. apply colour_congr. intros Ha Hb. unfold cmd_gpset in *.
  change (FP_TO_INT x) with (whole x) in *. change (FP_TO_INT y) with (whole y) in *.
  destruct ((whole x <? 0) || (whole x >? 255)); [injection E1 as <-; injection E2 as <-; reflexivity|].
  destruct ((whole y <? 0) || (whole y >? 191)); [injection E1 as <-; injection E2 as <-; reflexivity|].
  rewrite (with_color_ok g c k _ W C K) in E1. injection E1 as <-.
  assert (X : with_color (set_canvas g (grp_pixel (canvas g) (whole x) (whole y) k (drawmode g))) c (fun c => (set_canvas (set_canvas g (grp_pixel (canvas g) (whole x) (whole y) k (drawmode g)))
      (grp_pixel (canvas (set_canvas g (grp_pixel (canvas g) (whole x) (whole y) k (drawmode g)))) (whole x) (whole y) c (drawmode g)), Done)) =
      (set_canvas (set_canvas g (grp_pixel (canvas g) (whole x) (whole y) k (drawmode g)))
      (grp_pixel (canvas (set_canvas g (grp_pixel (canvas g) (whole x) (whole y) k (drawmode g)))) (whole x) (whole y) k (drawmode g)), Done)).
  { unfold with_color. destruct c as [v|]; cbn [colour_arg] in C; subst k; [|reflexivity]. unfold in_range. rewrite (proj2 (int_range_some v 0 255 (whole v))) by tauto. reflexivity. }
  cbn [drawmode set_canvas] in E2. cbn [drawmode set_canvas] in X. rewrite X in E2. injection E2 as <-.
  change (px (pages (set_canvas (set_canvas g (grp_pixel (canvas g) (whole x) (whole y) k (drawmode g))) (grp_pixel (canvas (set_canvas g (grp_pixel (canvas g) (whole x) (whole y) k (drawmode g)))) (whole x) (whole y) k (drawmode g))) n) a b = px (pages g n) a b).
  rewrite !canvas_px. change (draw_no (set_canvas g _)) with (draw_no g). destruct (n =? draw_no g) eqn:E; [|reflexivity]. apply Z.eqb_eq in E. subst n.
  rewrite px_pixel by assumption. unfold canvas at 1 3. change (draw_no (set_canvas g _)) with (draw_no g). rewrite !canvas_px, Z.eqb_refl, !px_pixel by assumption.
  rewrite M. destruct ((a =? whole x) && (b =? whole y)); [apply lxor_cancel|reflexivity].
Qed.

(** ** C29 *)
Lemma in_fill x1 y1 x2 y2 a b : In (a, b) (fill_points x1 y1 x2 y2) <-> x1 <= a <= x2 /\ y1 <= b <= y2.
Proof.
  unfold fill_points. rewrite in_flat_map. split.
  - intros (x & I & J). apply in_map_iff in J. destruct J as (y & E & J). injection E as <- <-. apply in_zrange in I. apply in_zrange in J. tauto.
  - intros (H1 & H2). exists a. split; [apply in_zrange; exact H1|]. apply in_map_iff. exists b. split; [reflexivity|apply in_zrange; exact H2].
Qed.
Lemma nodup_rows (f : Z -> list (Z * Z)) (l : list Z) : NoDup l -> (forall x, NoDup (f x)) -> (forall x q, In q (f x) -> fst q = x \/ snd q = x) ->
  (forall x y q, In q (f x) -> In q (f y) -> x = y) -> NoDup (flat_map f l).
Proof.
  intros N F _ D. induction N as [|x l NI N IH]; [constructor|]. cbn [flat_map].
  assert (NA : forall (a b : list (Z * Z)), NoDup a -> NoDup b -> (forall q, In q a -> In q b -> False) -> NoDup (a ++ b)).
  { induction a as [|q a IA]; intros b A B C; [exact B|]. inversion A as [|q' a' Q A']; subst. cbn [app]. constructor.
    - rewrite in_app_iff. intros [I|I]; [contradiction|]. apply (C q); [left; reflexivity|exact I].
    - apply IA; [exact A'|exact B|]. intros r R1 R2. apply (C r); [right; exact R1|exact R2]. }
  apply NA; [apply F|exact IH|]. intros q I J. apply in_flat_map in J. destruct J as (y & J1 & J2). apply NI. rewrite (D x y q I J2). exact J1.
Qed.
Lemma nodup_fill x1 y1 x2 y2 : NoDup (fill_points x1 y1 x2 y2).
Proof.
  unfold fill_points. apply nodup_rows; [apply nodup_zrange|..].
  - intros x. apply FinFun.Injective_map_NoDup; [intros i j H; injection H; trivial|apply nodup_zrange].
  - intros x q I. apply in_map_iff in I. destruct I as (y & <- & _). left. reflexivity.
  - intros x y q I J. apply in_map_iff in I. apply in_map_iff in J. destruct I as (u & <- & _). destruct J as (v & E & _). injection E. auto.
Qed.
(** what GFILL draws, always; [Z.max v 0] is where a negative corner goes *)
Theorem C29_gfill_partial : forall g x1 y1 x2 y2 c k, well g -> colour_arg g c k -> 0 <= k <= 255 ->
  exists h, cmd_gfill g x1 y1 x2 y2 c = (h, Done) /\
    drawn g h k (fun x y => Z.max (whole x1) 0 <= x <= Z.max (whole x2) 0 /\ Z.max (whole y1) 0 <= y <= Z.max (whole y2) 0).
Proof.
  intros g x1 y1 x2 y2 c k W C K. unfold cmd_gfill. rewrite (with_color_ok g c k _ W C K). eexists. split; [reflexivity|].
  eapply drawn_iff; [|apply drawn_plot; [assumption..|left; apply nodup_fill]]. intros x y Hx Hy. cbv beta. rewrite in_fill.
  change (FP_TO_INT x1) with (whole x1). change (FP_TO_INT x2) with (whole x2). change (FP_TO_INT y1) with (whole y1). change (FP_TO_INT y2) with (whole y2).
  destruct (clamp_in (whole x1) GRP_WIDTH x Hx ltac:(unfold GRP_WIDTH; lia)) as (A1 & _). destruct (clamp_in (whole x2) GRP_WIDTH x Hx ltac:(unfold GRP_WIDTH; lia)) as (_ & A2).
  destruct (clamp_in (whole y1) GRP_HEIGHT y Hy ltac:(unfold GRP_HEIGHT; lia)) as (B1 & _). destruct (clamp_in (whole y2) GRP_HEIGHT y Hy ltac:(unfold GRP_HEIGHT; lia)) as (_ & B2).
  lia.
Qed.
(** exactly the part of the rectangle that is on the page, unless all of it is to the left of or above the page *)
Theorem C29_gfill_rectangle : forall g x1 y1 x2 y2 c k, well g -> colour_arg g c k -> 0 <= k <= 255 -> 0 <= whole x2 -> 0 <= whole y2 ->
  exists h, cmd_gfill g x1 y1 x2 y2 c = (h, Done) /\ drawn g h k (fun x y => whole x1 <= x <= whole x2 /\ whole y1 <= y <= whole y2).
Proof.
  intros g x1 y1 x2 y2 c k W C K H1 H2. destruct (C29_gfill_partial g x1 y1 x2 y2 c k W C K) as (h & E & D). exists h. split; [exact E|].
  eapply drawn_iff; [|exact D]. intros x y Hx Hy. cbv beta. lia.
Qed.
Theorem C29_colour_range : forall g x1 y1 x2 y2 v, ~ (0 <= whole v <= 255) ->
  cmd_gfill g x1 y1 x2 y2 (Some v) = (g, Raised ERR_OUT_OF_RANGE) /\ cmd_gbox g x1 y1 x2 y2 (Some v) = (g, Raised ERR_OUT_OF_RANGE) /\
  cmd_gline g x1 y1 x2 y2 (Some v) = (g, Raised ERR_OUT_OF_RANGE).
Proof. intros g x1 y1 x2 y2 v H. unfold cmd_gfill, cmd_gbox, cmd_gline. rewrite !with_color_bad by exact H. repeat split; reflexivity. Qed.

(** a blank start *)
Definition g0 : gfx := init_graphics 15 (fun _ _ => 0).
Definition g0x : gfx := set_drawmode g0 true.
Example g0_well : well g0 /\ well g0x.
Proof.
  assert (well g0) as W.
  { repeat split; cbn [g0 init_graphics screen color drawpage displaypage prio pages]; lia. }
  split; [exact W|]. destruct W as (A & B & C & D). split; [exact A|]. split; [exact B|]. split; [exact C|exact D].
Qed.
(** a rectangle wholly to the left of the page colours column 0 *)
Theorem C29_gfill_outside_refuted : exists g x1 y1 x2 y2 c, well g /\ whole x1 < 0 /\ whole x2 < 0 /\
  exists h, cmd_gfill g x1 y1 x2 y2 c = (h, Done) /\ colour_at h (target g) 0 2 <> colour_at g (target g) 0 2.
Proof.
  exists g0, (-40 * 4096), (1 * 4096), (-30 * 4096), (3 * 4096), None. split; [apply g0_well|]. split; [reflexivity|]. split; [reflexivity|].
  eexists. split; [reflexivity|]. vm_compute. discriminate.
Qed.
(** with the right corner first nothing is drawn *)
Theorem C29_gfill_swapped_refuted : forall g x1 y1 x2 y2 c k, well g -> colour_arg g c k -> 0 <= k <= 255 -> 0 <= whole x2 < whole x1 ->
  exists h, cmd_gfill g x1 y1 x2 y2 c = (h, Done) /\ same_pixels g h.
Proof.
  intros g x1 y1 x2 y2 c k W C K H. destruct (C29_gfill_partial g x1 y1 x2 y2 c k W C K) as (h & E & D). exists h. split; [exact E|].
  intros n x y. destruct (Z_le_dec 0 n) as [N1|N1]; [destruct (Z_le_dec n 3) as [N2|N2]|].
  - destruct (on_page x y) eqn:O; [apply on_page_iff in O|apply on_page_not in O; rewrite !colour_off by tauto; reflexivity].
    destruct D as (_ & D). apply (proj2 (D n x y ltac:(lia) ltac:(lia) ltac:(lia))). lia.
  - unfold colour_at, func_gspoit. rewrite (proj2 (int_range_none (n * 4096) 0 3)) by (rewrite whole_of; lia). reflexivity.
  - unfold colour_at, func_gspoit. rewrite (proj2 (int_range_none (n * 4096) 0 3)) by (rewrite whole_of; lia). reflexivity.
Qed.
Example C29_gfill_ok : exists h, cmd_gfill g0 (10 * 4096) (20 * 4096 + 2000) (12 * 4096) (300 * 4096) (Some (7 * 4096)) = (h, Done) /\
  colour_at h 0 10 20 = 7 /\ colour_at h 0 12 191 = 7 /\ colour_at h 0 13 30 = 0 /\ colour_at h 0 11 19 = 0.
Proof. eexists. split; [reflexivity|]. repeat split; vm_compute; reflexivity. Qed.

(** *** GBOX *)
Lemma in_box x1 y1 x2 y2 a b : In (a, b) (box_points x1 y1 x2 y2) <->
  (x1 <= a <= x2 /\ (b = y1 \/ b = y2)) \/ (y1 <= b <= y2 /\ (a = x1 \/ a = x2)).
Proof.
  unfold box_points. rewrite !in_app_iff, !in_map_iff.
  split.
  - intros [H|[H|[H|H]]]; destruct H as (q & E & I); injection E as <- <-; apply in_zrange in I; lia.
  - intros [(H & [->| ->])|(H & [->| ->])].
    + left. exists a. split; [reflexivity|apply in_zrange; exact H].
    + right. right. left. exists a. split; [reflexivity|apply in_zrange; exact H].
    + right. left. exists b. split; [reflexivity|apply in_zrange; exact H].
    + right. right. right. exists b. split; [reflexivity|apply in_zrange; exact H].
Qed.
(** the outline of a box *)
Definition outline (x1 y1 x2 y2 x y : Z) : Prop :=
  x1 <= x <= x2 /\ y1 <= y <= y2 /\ (x = x1 \/ x = x2 \/ y = y1 \/ y = y2).
(** in the normal mode, a box with no side left of or above the page *)
Theorem C29_gbox_partial : forall g x1 y1 x2 y2 c k, well g -> drawmode g = false -> colour_arg g c k -> 0 <= k <= 255 ->
  0 <= whole x1 <= whole x2 -> 0 <= whole y1 <= whole y2 ->
  exists h, cmd_gbox g x1 y1 x2 y2 c = (h, Done) /\ drawn g h k (outline (whole x1) (whole y1) (whole x2) (whole y2)).
Proof.
  intros g x1 y1 x2 y2 c k W M C K H1 H2. unfold cmd_gbox. rewrite (with_color_ok g c k _ W C K). eexists. split; [reflexivity|].
  eapply drawn_iff; [|apply drawn_plot; [assumption..|right; exact M]]. intros x y Hx Hy. cbv beta. rewrite in_box. unfold outline.
  change (FP_TO_INT x1) with (whole x1). change (FP_TO_INT x2) with (whole x2). change (FP_TO_INT y1) with (whole y1). change (FP_TO_INT y2) with (whole y2).
  set (a := whole x1) in *. set (b := whole x2) in *. set (d := whole y1) in *. set (e := whole y2) in *.
  unfold clamp, GRP_WIDTH, GRP_HEIGHT.
  replace (a <? 0) with false by lia. replace (b <? 0) with false by lia. replace (d <? 0) with false by lia. replace (e <? 0) with false by lia.
  destruct (a >? 256) eqn:A; destruct (b >? 256) eqn:B; destruct (d >? 192) eqn:D; destruct (e >? 192) eqn:E; lia.
Qed.
(** in the xor mode the corners are drawn twice, so they do not change *)
Theorem C29_gbox_xor_refuted : forall g x1 y1 x2 y2 c k, well g -> drawmode g = true -> colour_arg g c k -> 0 <= k <= 255 ->
  0 <= whole x1 < whole x2 -> whole x2 < 256 -> 0 <= whole y1 < whole y2 -> whole y2 < 192 ->
  exists h, cmd_gbox g x1 y1 x2 y2 c = (h, Done) /\
    drawn g h k (fun x y => outline (whole x1) (whole y1) (whole x2) (whole y2) x y /\ ~ ((x = whole x1 \/ x = whole x2) /\ (y = whole y1 \/ y = whole y2))).
Proof.
  intros g x1 y1 x2 y2 c k W M C K H1 H2 H3 H4. unfold cmd_gbox. rewrite (with_color_ok g c k _ W C K). eexists. split; [reflexivity|].
  apply drawn_canvas; [assumption..|]. intros x y Hx Hy. rewrite px_plot by assumption.
  change (FP_TO_INT x1) with (whole x1). change (FP_TO_INT x2) with (whole x2). change (FP_TO_INT y1) with (whole y1). change (FP_TO_INT y2) with (whole y2).
  set (a := whole x1) in *. set (b := whole x2) in *. set (d := whole y1) in *. set (e := whole y2) in *.
  assert (CL : forall v hi, 0 <= v < hi -> clamp v hi = v).
  { intros v hi Hv. unfold clamp. replace (v <? 0) with false by lia. replace (v >? hi) with false by lia. reflexivity. }
  rewrite !CL by (unfold GRP_WIDTH, GRP_HEIGHT; lia).
  assert (ROW : forall l yy, NoDup l -> hits (map (fun x => (x, yy)) l) x y = if (y =? yy) && (if in_dec Z.eq_dec x l then true else false) then 1%nat else 0%nat).
  { intros l yy N. assert (N' : NoDup (map (fun x => (x, yy)) l)) by (apply FinFun.Injective_map_NoDup; [intros i j E; injection E; trivial|exact N]).
    assert (U := hits_nodup _ x y N'). assert (V := hits_in (map (fun x => (x, yy)) l) x y). rewrite in_map_iff in V.
    destruct (y =? yy) eqn:E; [apply Z.eqb_eq in E; destruct (in_dec Z.eq_dec x l) as [I|I]|]; cbn [andb].
    - assert (0 < hits (map (fun x => (x, yy)) l) x y)%nat by (apply V; exists x; split; [rewrite E; reflexivity|exact I]). lia.
    - destruct (hits (map (fun x => (x, yy)) l) x y) eqn:Z; [reflexivity|]. exfalso. destruct (proj1 V ltac:(lia)) as (q & Q & J). injection Q as <- _. contradiction.
    - destruct (hits (map (fun x => (x, yy)) l) x y) eqn:Z; [reflexivity|]. exfalso. destruct (proj1 V ltac:(lia)) as (q & Q & J). injection Q as _ <-. lia. }
  assert (COL : forall l xx, NoDup l -> hits (map (fun y => (xx, y)) l) x y = if (x =? xx) && (if in_dec Z.eq_dec y l then true else false) then 1%nat else 0%nat).
  { intros l xx N. assert (N' : NoDup (map (fun y => (xx, y)) l)) by (apply FinFun.Injective_map_NoDup; [intros i j E; injection E; trivial|exact N]).
    assert (U := hits_nodup _ x y N'). assert (V := hits_in (map (fun y => (xx, y)) l) x y). rewrite in_map_iff in V.
    destruct (x =? xx) eqn:E; [apply Z.eqb_eq in E; destruct (in_dec Z.eq_dec y l) as [I|I]|]; cbn [andb].
    - assert (0 < hits (map (fun y => (xx, y)) l) x y)%nat by (apply V; exists y; split; [rewrite E; reflexivity|exact I]). lia.
    - destruct (hits (map (fun y => (xx, y)) l) x y) eqn:Z; [reflexivity|]. exfalso. destruct (proj1 V ltac:(lia)) as (q & Q & J). injection Q as _ <-. contradiction.
    - destruct (hits (map (fun y => (xx, y)) l) x y) eqn:Z; [reflexivity|]. exfalso. destruct (proj1 V ltac:(lia)) as (q & Q & J). injection Q as <- _. lia. }
  assert (APP : forall l m, hits (l ++ m) x y = (hits l x y + hits m x y)%nat) by (intros; unfold hits; rewrite filter_app, app_length; reflexivity).
  assert (DEC : forall u v w, (if in_dec Z.eq_dec u (zrange v w) then true else false) = (v <=? u) && (u <=? w)).
  { intros u v w. destruct (in_dec Z.eq_dec u (zrange v w)) as [I|I]; rewrite in_zrange in I; lia. }
  unfold box_points. rewrite !APP, !ROW, !COL by apply nodup_zrange. rewrite !DEC. unfold outline.
  rewrite M. unfold blend at 1.
  destruct (x =? a) eqn:XA; destruct (x =? b) eqn:XB; destruct (y =? d) eqn:YD; destruct (y =? e) eqn:YE; try lia;
  destruct ((a <=? x) && (x <=? b)) eqn:XI; destruct ((d <=? y) && (y <=? e)) eqn:YI; try lia; cbn [andb plus again blend]; rewrite ?lxor_cancel; (split; [intros S; try reflexivity; exfalso; lia|intros S; try reflexivity; exfalso; apply S; lia]).
Qed.
(** a side left of the page is drawn at its edge *)
Theorem C29_gbox_outside_refuted : exists g x1 y1 x2 y2 c, well g /\ drawmode g = false /\ whole x1 < 0 /\ 0 < whole x2 /\ 0 <= whole y1 < whole y2 /\
  exists h, cmd_gbox g x1 y1 x2 y2 c = (h, Done) /\ whole y1 < 2 < whole y2 /\ colour_at h (target g) 0 2 <> colour_at g (target g) 0 2.
Proof.
  exists g0, (-3 * 4096), (1 * 4096), (5 * 4096), (3 * 4096), None. split; [apply g0_well|]. do 4 (split; [unfold whole; reflexivity || (cbn; lia)|]).
  eexists. split; [reflexivity|]. split; [unfold whole; lia|]. vm_compute. discriminate.
Qed.
Example C29_gbox_ok : exists h, cmd_gbox g0 (10 * 4096) (20 * 4096) (14 * 4096) (25 * 4096) None = (h, Done) /\
  colour_at h 0 10 22 = 15 /\ colour_at h 0 14 25 = 15 /\ colour_at h 0 12 22 = 0.
Proof. eexists. split; [reflexivity|]. repeat split; vm_compute; reflexivity. Qed.
Example C29_gbox_xor_ok : exists h, cmd_gbox g0x (10 * 4096) (20 * 4096) (14 * 4096) (25 * 4096) None = (h, Done) /\
  colour_at h 0 10 22 = 15 /\ colour_at h 0 14 25 = 0.
Proof. eexists. split; [reflexivity|]. repeat split; vm_compute; reflexivity. Qed.

Print Assumptions C28_gpset.
Print Assumptions C28_gspoit.
Print Assumptions C28_layout.
Print Assumptions C28_xor_twice.
Print Assumptions C29_gfill_partial.
Print Assumptions C29_gfill_rectangle.
Print Assumptions C29_colour_range.
Print Assumptions C29_gfill_outside_refuted.
Print Assumptions C29_gfill_swapped_refuted.
Print Assumptions C29_gbox_partial.
Print Assumptions C29_gbox_xor_refuted.
Print Assumptions C29_gbox_outside_refuted.
