(** Drawing: the model's pages against the ideal boards. *)
From Verif Require Import Base BaseLemmas Tokens Runner RunnerSpec Memory Resources Graphics GraphicsSpec GraphicsProofs GraphicsProps GraphicsLine GraphicsCopy GraphicsState.
From Verif Require Import HostSim Draw IdealDraw.
Ltac Zify.zify_post_hook ::= Z.div_mod_to_equations.
Open Scope Z_scope.

Lemma draws_same c : draws c = drawing c.
Proof. unfold draws, drawing. cbn [existsb]. unfold Draw.CMD_GBOX, Draw.CMD_GCLS, Draw.CMD_GCOLOR, Draw.CMD_GCOPY, Draw.CMD_GDRAWMD, Draw.CMD_GFILL, Draw.CMD_GLINE, Draw.CMD_GPAGE, Draw.CMD_GPSET, Draw.CMD_GPRIO, CMD_GBOX, CMD_GPSET, CMD_GPRIO. lia. Qed.
Lemma within_iff lo x hi : within lo x hi = true <-> lo <= x <= hi. Proof. unfold within. lia. Qed.
Lemma within_not lo x hi : within lo x hi = false <-> ~ lo <= x <= hi. Proof. unfold within. lia. Qed.
Lemma on_target b g : pictured b g -> drawn_on b = target g.
Proof. intros (W & Sc & _ & _ & P & _). unfold drawn_on, target. rewrite Sc. apply P. apply W. Qed.
Lemma fin_ok g h : fst g = h -> snd g = Done -> finished g = Ok h. Proof. intros <- E. unfold finished. rewrite E. reflexivity. Qed.
(** only dots changed *)
Lemma pictured_dots b g h f : pictured b g -> well h -> same_settings g h ->
  (forall n x y, 0 <= n <= 3 -> 0 <= x < 256 -> 0 <= y < 192 -> f n x y = colour_at h n x y) -> pictured (dots b f) h.
Proof.
  intros (W & A & B & C & P & D) Wh (S1 & S2 & S3 & S4 & S5 & S6) F. split; [exact Wh|]. cbn [dots b_screen b_colour b_xor b_draw b_show b_prio b_dot].
  split; [congruence|]. split; [congruence|]. split; [congruence|]. split; [|exact F]. intros s Hs. rewrite S4, S5, S6. apply P, Hs.
Qed.
Lemma pictured_paint b g h k S T : pictured b g -> well h -> drawn g h k S -> (forall x y, 0 <= x < 256 -> 0 <= y < 192 -> (S x y <-> T x y = true)) -> pictured (paint b k T) h.
Proof.
  intros Pc Wh (Ss & D) E. pose proof (on_target _ _ Pc) as T0. apply pictured_dots with (g := g); [exact Pc|exact Wh|exact Ss|]. intros n x y Hn Hx Hy.
  destruct (D n x y Hn Hx Hy) as [D1 D2]. specialize (E x y Hx Hy). destruct Pc as (_ & _ & _ & X & _ & Q). rewrite (Q n x y Hn Hx Hy), X, T0. unfold blend in D1.
  destruct (n =? target g) eqn:N; cbn [andb].
  - apply Z.eqb_eq in N. destruct (T x y); [rewrite D1 by (split; [exact N|apply E; reflexivity]); reflexivity|]. symmetry. apply D2. intros [_ G]. apply E in G. discriminate.
  - symmetry. apply D2. intros [G _]. lia.
Qed.
Lemma inked_ok b (g : gfx) c (kb : Z -> outcome board) (r : gfx * fin) : pictured b g ->
  (forall v, c = Some v -> ~ 0 <= whole v <= 255 -> r = (g, Raised ERR_OUT_OF_RANGE)) ->
  (forall k, colour_arg g c k -> 0 <= k <= 255 -> okr pictured (kb k) (finished r)) -> okr pictured (inked b c kb) (finished r).
Proof.
  intros Pc Bad Good. destruct Pc as (W & _ & C & _). unfold inked. destruct c as [v|].
  - unfold ranged. destruct (within 0 (v / 4096) 255) eqn:E; [apply within_iff in E; apply Good; [reflexivity|exact E]|]. apply within_not in E.
    rewrite (Bad v eq_refl E). reflexivity.
  - rewrite C. apply Good; [reflexivity|]. apply W.
Qed.
Lemma done_ok b (r : gfx * fin) h : r = (h, Done) -> pictured b h -> okr pictured (Ok b) (finished r).
Proof. intros -> P. exists h. split; [reflexivity|exact P]. Qed.

Lemma well_gfill g x1 y1 x2 y2 c h : well g -> cmd_gfill g x1 y1 x2 y2 c = (h, Done) -> well h.
Proof. intros W E. change h with (fst (h, Done)). rewrite <- E. unfold cmd_gfill. apply well_with_color; [exact W|]. intros k Hk. apply well_canvas; [exact W|]. apply bytes_plot; [exact Hk|apply bytes_canvas, W]. Qed.
Lemma well_gbox g x1 y1 x2 y2 c h : well g -> cmd_gbox g x1 y1 x2 y2 c = (h, Done) -> well h.
Proof. intros W E. change h with (fst (h, Done)). rewrite <- E. unfold cmd_gbox. apply well_with_color; [exact W|]. intros k Hk. apply well_canvas; [exact W|]. apply bytes_plot; [exact Hk|apply bytes_canvas, W]. Qed.
Lemma well_gline g x1 y1 x2 y2 c h : well g -> cmd_gline g x1 y1 x2 y2 c = (h, Done) -> well h.
Proof.
  intros W E. change h with (fst (h, Done)). rewrite <- E. unfold cmd_gline. apply well_with_color; [exact W|]. intros k Hk. destruct (line_points _ _ _ _) as [pts|e|]; [|exact W|exact W].
  apply well_canvas; [exact W|]. apply bytes_plot; [exact Hk|apply bytes_canvas, W].
Qed.
Lemma well_gpset g x y c h : well g -> cmd_gpset g x y c = (h, Done) -> well h.
Proof.
  intros W E. change h with (fst (h, Done)). rewrite <- E. unfold cmd_gpset. destruct (_ || _); [exact W|]. destruct (_ || _); [exact W|]. apply well_with_color; [exact W|]. intros k Hk.
  apply well_canvas; [exact W|]. apply bytes_pixel; [apply bytes_canvas, W|exact Hk].
Qed.
Lemma well_gcls g c h : well g -> cmd_gcls g c = (h, Done) -> well h.
Proof.
  intros W E. change h with (fst (h, Done)). rewrite <- E. unfold cmd_gcls. apply well_with_color; [exact W|]. intros k Hk. apply well_canvas; [exact W|]. intros i Hi.
  unfold GRP_SIZE. replace ((0 <=? i) && (i <? 49152)) with true by lia. exact Hk.
Qed.

Lemma dot_ok b g x y c : pictured b g -> okr pictured (draw_dot b x y c) (finished (cmd_gpset g x y c)).
Proof.
  intros Pc. pose proof Pc as (W & _). unfold draw_dot. destruct (within 0 (x / 4096) 255 && within 0 (y / 4096) 191) eqn:O.
  - apply andb_prop in O. destruct O as [O1 O2]. apply within_iff in O1. apply within_iff in O2. apply inked_ok with (g := g); [exact Pc| |].
    + intros v -> Bad. unfold cmd_gpset. change (FP_TO_INT x) with (x / 4096). change (FP_TO_INT y) with (y / 4096).
      replace ((x / 4096 <? 0) || (x / 4096 >? 255)) with false by lia. replace ((y / 4096 <? 0) || (y / 4096 >? 191)) with false by lia. apply with_color_bad, Bad.
    + intros k C K. destruct (C28_gpset g x y c k W C K) as (h & E & D). apply (done_ok _ _ h E). eapply pictured_paint; [exact Pc|exact (well_gpset _ _ _ _ _ W E)|exact D|].
      intros a d _ _. unfold dot_at, whole. lia.
  - apply (done_ok _ _ g); [|exact Pc]. unfold cmd_gpset. change (FP_TO_INT x) with (x / 4096). change (FP_TO_INT y) with (y / 4096).
    apply Bool.andb_false_iff in O. rewrite !within_not in O. destruct ((x / 4096 <? 0) || (x / 4096 >? 255)) eqn:E1; [reflexivity|]. replace ((y / 4096 <? 0) || (y / 4096 >? 191)) with true by lia. reflexivity.
Qed.
Lemma fill_ok b g x1 y1 x2 y2 c : pictured b g -> okr pictured (draw_fill b x1 y1 x2 y2 c) (finished (cmd_gfill g x1 y1 x2 y2 c)).
Proof.
  intros Pc. pose proof Pc as (W & _). unfold draw_fill. apply inked_ok with (g := g); [exact Pc| |].
  - intros v -> Bad. apply (C29_colour_range g x1 y1 x2 y2 v Bad).
  - intros k C K. destruct (_ && _) eqn:O; [|exact I]. destruct (C29_gfill_rectangle g x1 y1 x2 y2 c k W C K) as (h & E & D); [unfold whole; lia|unfold whole; lia|].
    apply (done_ok _ _ h E). eapply pictured_paint; [exact Pc|exact (well_gfill _ _ _ _ _ _ _ W E)|exact D|]. intros a d _ _. unfold filled, within, whole. lia.
Qed.
Lemma frame_ok b g x1 y1 x2 y2 c : pictured b g -> okr pictured (draw_frame b x1 y1 x2 y2 c) (finished (cmd_gbox g x1 y1 x2 y2 c)).
Proof.
  intros Pc. pose proof Pc as (W & _ & _ & X & _). unfold draw_frame. apply inked_ok with (g := g); [exact Pc| |].
  - intros v -> Bad. apply (C29_colour_range g x1 y1 x2 y2 v Bad).
  - intros k C K. destruct (_ && _) eqn:O; [|exact I]. rewrite X in O. destruct (C29_gbox_partial g x1 y1 x2 y2 c k W) as (h & E & D); try assumption; [destruct (drawmode g); [discriminate|reflexivity]|unfold whole; lia|unfold whole; lia|].
    apply (done_ok _ _ h E). eapply pictured_paint; [exact Pc|exact (well_gbox _ _ _ _ _ _ _ W E)|exact D|]. intros a d _ _. unfold framed, filled, within, outline, whole. lia.
Qed.

(** *** straight lines *)
Lemma minor_zero k : minor 0 k = 0. Proof. unfold minor, FP_TO_INT. rewrite Z.mul_0_l. reflexivity. Qed.
Lemma minor_one k : minor 4096 k = k. Proof. unfold minor, FP_TO_INT. lia. Qed.
Lemma minor_less k : minor (-4096) k = - k. Proof. unfold minor, FP_TO_INT. lia. Qed.
Lemma slope_level n : n <> 0 -> slope 0 n = 0.
Proof. intros N. unfold slope. rewrite Z.mul_0_l, Z.quot_0_l by exact N. reflexivity. Qed.
Lemma slope_up n : n <> 0 -> slope n n = 4096.
Proof. intros N. unfold slope. rewrite Z.mul_comm, Z.quot_mul by exact N. reflexivity. Qed.
Lemma slope_down n : n <> 0 -> slope (- n) n = -4096.
Proof. intros N. unfold slope. replace (- n * 2 ^ 32) with ((- 2 ^ 32) * n) by ring. rewrite Z.quot_mul by exact N. reflexivity. Qed.
Lemma nodup_wide (f : Z -> Z) a c : NoDup (map (fun x => (x, f x)) (zrange a c)).
Proof. apply FinFun.Injective_map_NoDup; [intros i j E; injection E; trivial|apply nodup_zrange]. Qed.
Lemma nodup_high (f : Z -> Z) a c : NoDup (map (fun y => (f y, y)) (zrange a c)).
Proof. apply FinFun.Injective_map_NoDup; [intros i j E; injection E; trivial|apply nodup_zrange]. Qed.
(** the points in question, rightwards *)
Lemma wide_pts x1 y1 x2 y2 : x1 < x2 -> x2 - x1 < 524288 -> y1 = y2 \/ Z.abs (y2 - y1) = x2 - x1 ->
  exists pts, line_points x1 y1 x2 y2 = Ok pts /\ line_points x2 y2 x1 y1 = Ok pts /\ NoDup pts /\ forall x y, In (x, y) pts <-> x1 <= x <= x2 /\ (x - x1) * (y2 - y1) = (y - y1) * (x2 - x1).
Proof.
  intros H L D. destruct (wide_line x1 y1 x2 y2 H L ltac:(lia)) as (E & E'). rewrite E in E'. eexists. split; [exact E|]. split; [exact E'|]. split; [apply nodup_wide|].
  intros x y. rewrite in_map_iff. assert (R : exists d, (d = 0 \/ d = 1 \/ d = -1) /\ y2 - y1 = d * (x2 - x1) /\ forall u, run (y2 - y1) (x2 - x1) x1 y1 u = y1 + d * (u - x1)).
  { unfold run. destruct D as [->|D].
    - exists 0. split; [auto|]. split; [ring|]. intros u. rewrite Z.sub_diag, slope_level, minor_zero by lia. ring.
    - destruct (Z.abs_spec (y2 - y1)) as [[_ A]|[_ A]].
      + exists 1. split; [auto|]. split; [lia|]. intros u. replace (y2 - y1) with (x2 - x1) by lia. rewrite slope_up, minor_one by lia. ring.
      + exists (-1). split; [auto|]. split; [lia|]. intros u. replace (y2 - y1) with (- (x2 - x1)) by lia. rewrite slope_down, minor_less by lia. ring. }
  destruct R as (d & _ & R1 & R2). split.
  - intros (u & Q & I). apply in_zrange in I. injection Q as <- Q. rewrite R2 in Q. split; [exact I|]. rewrite <- Q, R1. ring.
  - intros (I & Q). exists x. split; [|apply in_zrange; exact I]. f_equal. rewrite R2. rewrite R1 in Q. assert (Q' : (y - y1 - d * (x - x1)) * (x2 - x1) = 0) by lia. apply Z.mul_eq_0 in Q'. lia.
Qed.
Lemma upright_pts x1 y1 y2 : y1 < y2 -> y2 - y1 < 524288 ->
  exists pts, line_points x1 y1 x1 y2 = Ok pts /\ line_points x1 y2 x1 y1 = Ok pts /\ NoDup pts /\ forall x y, In (x, y) pts <-> x = x1 /\ y1 <= y <= y2.
Proof.
  intros H L. destruct (high_line x1 y1 x1 y2 H L ltac:(lia)) as (E & E'). rewrite E in E'. eexists. split; [exact E|]. split; [exact E'|]. split; [apply nodup_high|].
  intros x y. rewrite in_map_iff. unfold run. rewrite Z.sub_diag, slope_level by lia. split.
  - intros (u & Q & I). rewrite minor_zero in Q. injection Q as <- <-. apply in_zrange in I. lia.
  - intros (-> & I). exists y. rewrite minor_zero. split; [reflexivity|apply in_zrange; exact I].
Qed.
Lemma line_pts x1 y1 x2 y2 : straight x1 y1 x2 y2 = true ->
  exists pts, line_points x1 y1 x2 y2 = Ok pts /\ NoDup pts /\ forall x y, In (x, y) pts <-> lined x1 y1 x2 y2 x y = true.
Proof.
  intros St. unfold straight in St. destruct (Z.lt_total x1 x2) as [L|[->|L]].
  - destruct (Z_le_dec (Z.abs (y2 - y1)) (x2 - x1)) as [W|W].
    + destruct (wide_pts x1 y1 x2 y2 L ltac:(lia) ltac:(lia)) as (pts & E & _ & N & Q). exists pts. split; [exact E|]. split; [exact N|]. intros x y. rewrite Q. unfold lined, within. rewrite !Bool.andb_true_iff, !Z.leb_le, Z.eqb_eq.
      rewrite Z.min_l, Z.max_r by lia. split; [|tauto]. intros (I & J). split; [|exact J]. split; [lia|]. destruct (Z.eq_dec y1 y2) as [->|NE]; [assert (Z0 : (y - y2) * (x2 - x1) = 0) by lia; apply Z.mul_eq_0 in Z0; lia|].
      assert (A : y2 - y1 = x2 - x1 \/ y2 - y1 = - (x2 - x1)) by lia. destruct A as [A|A]; rewrite A in J.
      * assert (Z0 : (x - x1 - (y - y1)) * (x2 - x1) = 0) by lia. apply Z.mul_eq_0 in Z0. lia.
      * assert (Z0 : (x - x1 + (y - y1)) * (x2 - x1) = 0) by lia. apply Z.mul_eq_0 in Z0. lia.
    + exfalso. lia.
  - destruct (Z.lt_total y1 y2) as [M|[->|M]].
    + destruct (upright_pts x2 y1 y2 M ltac:(lia)) as (pts & E & _ & N & Q). exists pts. split; [exact E|]. split; [exact N|]. intros x y. rewrite Q. unfold lined, within. rewrite Z.sub_diag, Z.mul_0_r. split; [intros (-> & I)|]; [|].
      * rewrite Z.sub_diag. lia.
      * intros G. lia.
    + exists [(x2, y2)]. split; [unfold line_points; replace (Z.abs (x2 - x2) >=? Z.abs (y2 - y2)) with true by lia; rewrite !Z.eqb_refl; reflexivity|]. split; [repeat constructor; intros []|].
      intros x y. unfold lined, within. rewrite !Z.sub_diag, !Z.mul_0_r. cbn [In]. split; [intros [G|[]]; injection G as <- <-; lia|intros G; left; f_equal; lia].
    + destruct (upright_pts x2 y2 y1 M ltac:(lia)) as (pts & _ & E & N & Q). exists pts. split; [exact E|]. split; [exact N|]. intros x y. rewrite Q. unfold lined, within. rewrite Z.sub_diag, Z.mul_0_r. split; [intros (-> & I)|].
      * rewrite Z.sub_diag. lia.
      * intros G. lia.
  - destruct (Z_le_dec (Z.abs (y2 - y1)) (x1 - x2)) as [W|W].
    + destruct (wide_pts x2 y2 x1 y1 L ltac:(lia) ltac:(lia)) as (pts & _ & E & N & Q). exists pts. split; [exact E|]. split; [exact N|]. intros x y. rewrite Q. unfold lined, within. rewrite !Bool.andb_true_iff, !Z.leb_le, Z.eqb_eq.
      rewrite Z.min_r, Z.max_l by lia. split.
      * intros (I & J). assert (J2 : (x - x1) * (y2 - y1) = (y - y1) * (x2 - x1)) by lia.
        split; [|exact J2]. split; [lia|]. destruct (Z.eq_dec y1 y2) as [->|NE]; [assert (Z0 : (y - y2) * (x1 - x2) = 0) by lia; apply Z.mul_eq_0 in Z0; lia|].
        assert (A : y1 - y2 = x1 - x2 \/ y1 - y2 = - (x1 - x2)) by lia. destruct A as [A|A]; rewrite A in J.
        -- assert (Z0 : (x - x2 - (y - y2)) * (x1 - x2) = 0) by lia. apply Z.mul_eq_0 in Z0. lia.
        -- assert (Z0 : (x - x2 + (y - y2)) * (x1 - x2) = 0) by lia. apply Z.mul_eq_0 in Z0. lia.
      * intros ((I & _) & J). split; [exact I|]. lia.
    + exfalso. lia.
Qed.
Lemma line_ok b g x1 y1 x2 y2 c : pictured b g -> okr pictured (draw_line b x1 y1 x2 y2 c) (finished (cmd_gline g x1 y1 x2 y2 c)).
Proof.
  intros Pc. pose proof Pc as (W & _). unfold draw_line. apply inked_ok with (g := g); [exact Pc| |].
  - intros v -> Bad. apply (C29_colour_range g x1 y1 x2 y2 v Bad).
  - intros k C K. destruct (straight _ _ _ _) eqn:St; [|exact I]. destruct (line_pts _ _ _ _ St) as (pts & E0 & N & Q).
    destruct (gline_pts g x1 y1 x2 y2 c k pts W C K N E0) as (h & E & D).
    apply (done_ok _ _ h E). eapply pictured_paint; [exact Pc|exact (well_gline _ _ _ _ _ _ _ W E)|exact D|]. intros a d _ _. apply Q.
Qed.

(** *** copies *)
Lemma well_gcopy g sp x1 y1 x2 y2 x3 y3 m h : well g -> 0 <= match sp with None => target g | Some p => whole p end <= 3 -> cmd_gcopy g sp x1 y1 x2 y2 x3 y3 m = (h, Done) -> well h.
Proof.
  intros W Hs E. change h with (fst (h, Done)). rewrite <- E.
  assert (K : forall u1 u2 v1 v2 src, 0 <= src <= 3 -> well (fst (mkG (screen g) (color g) (drawmode g) (drawpage g) (displaypage g) (prio g)
    (fold_left (copy_one src (draw_no g) (negb (FP_TO_INT m =? 0)) u1 v1 (FP_TO_INT x3) (FP_TO_INT y3)) (copy_order u1 v1 u2 v2 (FP_TO_INT x3) (FP_TO_INT y3)) (pages g)), Done))).
  { intros u1 u2 v1 v2 src Ks. destruct W as (S & C & P & B). split; [exact S|]. split; [exact C|]. split; [exact P|].
    intros n i Hn Hi. cbn [fst pages]. apply (bytes_copy src _ _ _ _ _ _ Ks _ (pages g)); [|exact Hn|exact Hi]. intros q Hq j Hj. apply B; assumption. }
  assert (D := well_draw g W). unfold cmd_gcopy. cbv zeta.
  destruct (FP_TO_INT x1 >? FP_TO_INT x2), (FP_TO_INT y1 >? FP_TO_INT y2);
    (destruct sp as [v|]; [apply well_in_range; [exact W|intros src Ks; apply K; exact Ks]|apply K; exact D]).
Qed.
Lemma copy_ok b g sp n x1 y1 x2 y2 x3 y3 m : pictured b g -> n = match sp with None => target g | Some p => whole p end -> 0 <= n <= 3 ->
  okr pictured (draw_copy b n x1 y1 x2 y2 x3 y3 m) (finished (cmd_gcopy g sp x1 y1 x2 y2 x3 y3 m)).
Proof.
  intros Pc En Hn. pose proof Pc as (W & _ & _ & _ & _ & Q). destruct (C57_gcopy g sp x1 y1 x2 y2 x3 y3 m W ltac:(rewrite <- En; exact Hn)) as (h & E & Ss & D).
  apply (done_ok _ _ h E). unfold copied. apply pictured_dots with (g := g); [exact Pc|exact (well_gcopy _ _ _ _ _ _ _ _ _ _ W ltac:(rewrite <- En; exact Hn) E)|exact Ss|].
  intros d x y Hd Hx Hy. specialize (D d x y Hd Hx Hy). cbv zeta in D. rewrite <- En in D. rewrite (on_target _ _ Pc).
  change (x1 / 4096) with (whole x1). change (x2 / 4096) with (whole x2). change (x3 / 4096) with (whole x3).
  change (y1 / 4096) with (whole y1). change (y2 / 4096) with (whole y2). change (y3 / 4096) with (whole y3). change (m / 4096) with (whole m).
  set (u := x - whole x3 + Z.min (whole x1) (whole x2)) in *. set (v := y - whole y3 + Z.min (whole y1) (whole y2)) in *.
  cbv zeta. set (k := if within 0 u 255 && within 0 v 191 then b_dot b n u v else 0).
  assert (K : Z.max 0 (colour_at g n u v) = k).
  { unfold k. destruct (within 0 u 255 && within 0 v 191) eqn:O.
    - apply andb_prop in O. destruct O as [O1 O2]. apply within_iff in O1. apply within_iff in O2. pose proof (well_px g n u v W Hn ltac:(lia) ltac:(lia)) as B.
      rewrite Q by lia. rewrite colour_on by (try exact Hn; try lia; exact B). lia.
    - apply Bool.andb_false_iff in O. rewrite !within_not in O. rewrite colour_off by (try exact Hn; lia). reflexivity. }
  clearbody k. rewrite K in D. destruct D as [D1 D2]. match goal with |- (if ?c then _ else _) = _ => destruct c eqn:C end.
  - symmetry. apply D1. unfold within in C. apply andb_prop in C. destruct C as [C C3]. split; [lia|]. split; [lia|]. split; [unfold u in *; lia|]. split; [lia|]. split; [unfold v in *; lia|].
    intros Z0. rewrite Z0 in C3. lia.
  - rewrite (Q d x y Hd Hx Hy). symmetry. apply D2. intros (E1 & E2 & E3 & E4 & E5 & E6). apply Bool.not_true_iff_false in C. apply C. unfold within.
    destruct (whole m =? 0) eqn:M; cbn [negb orb]; [specialize (E6 ltac:(lia))|]; unfold u, v in *; lia.
Qed.

(** *** settings *)
Lemma wipe_ok b g c : pictured b g -> okr pictured (inked b c (fun k => Ok (wipe b k))) (finished (cmd_gcls g c)).
Proof.
  intros Pc. pose proof Pc as (W & _ & _ & _ & _ & Q). apply inked_ok with (g := g); [exact Pc| |].
  - intros v -> Bad. apply C60_gcls_range, Bad.
  - intros k C K. destruct (C60_gcls g c k W C K) as (h & E & Ss & D). apply (done_ok _ _ h E). unfold wipe. apply pictured_dots with (g := g); [exact Pc|exact (well_gcls _ _ _ W E)|exact Ss|].
    intros n x y Hn Hx Hy. rewrite (on_target _ _ Pc), D, Q by assumption. reflexivity.
Qed.
Lemma colours_same g h n x y : same_pages g h -> colour_at h n x y = colour_at g n x y.
Proof. intros S. apply colour_congr. intros _ _. unfold px. apply (S n). Qed.
Lemma ranged_ok (g : gfx) lo hi v (kb : Z -> outcome board) (km : Z -> gfx * fin) :
  (lo <= v / 4096 <= hi -> okr pictured (kb (v / 4096)) (finished (km (v / 4096)))) -> okr pictured (ranged lo hi v kb) (finished (in_range g v lo hi km)).
Proof.
  intros G. unfold ranged. destruct (within lo (v / 4096) hi) eqn:E.
  - apply within_iff in E. rewrite (in_range_ok g v lo hi km E). apply G, E.
  - apply within_not in E. rewrite (in_range_bad g v lo hi km E). reflexivity.
Qed.
Lemma well_set g h : well g -> same_pages g h -> 0 <= screen h <= 1 -> 0 <= color h <= 255 ->
  (forall s, 0 <= s <= 1 -> 0 <= drawpage h s <= 3 /\ 0 <= displaypage h s <= 3 /\ 0 <= prio h s <= 3) -> well h.
Proof. intros (_ & _ & _ & B) S A1 A2 A3. split; [exact A1|]. split; [exact A2|]. split; [exact A3|]. intros n i Hn Hi. rewrite (S n i : pages h n i = pages g n i). apply B; assumption. Qed.
Lemma do_ok c vs b g : pictured b g -> okr pictured (draw_ido c vs b) (draw_do c vs g).
Proof.
  intros Pc. pose proof Pc as (W & A & B & C & P & Q). pose proof W as (W1 & W2 & W3 & W4). unfold draw_ido, draw_do.
  change Draw.CMD_GPAGE with CMD_GPAGE. change Draw.CMD_GCOLOR with CMD_GCOLOR. change Draw.CMD_GDRAWMD with CMD_GDRAWMD. change Draw.CMD_GPRIO with CMD_GPRIO. change Draw.CMD_GCLS with CMD_GCLS.
  change Draw.CMD_GPSET with CMD_GPSET. change Draw.CMD_GFILL with CMD_GFILL. change Draw.CMD_GBOX with CMD_GBOX. change Draw.CMD_GCOPY with CMD_GCOPY.
  assert (Keep : forall h, same_pages g h -> forall n x y, 0 <= n <= 3 -> 0 <= x < 256 -> 0 <= y < 192 -> b_dot b n x y = colour_at h n x y).
  { intros h S n x y Hn Hx Hy. rewrite (colours_same g h n x y S). apply Q; assumption. }
  destruct (c =? CMD_GPAGE).
  { destruct vs as [|s [|d [|v [|? ?]]]]; try exact I; unfold cmd_gpage.
    - apply ranged_ok. intros Hs. cbv beta zeta; eapply done_ok; [reflexivity|]. unfold pictured. cbn [choose set_screen screen color drawmode drawpage displaypage prio pages b_screen b_colour b_xor b_draw b_show b_prio b_dot].
      split; [apply (well_set g); [exact W|intros ? ?; reflexivity|exact Hs|exact W2|exact W3]|]. split; [reflexivity|]. split; [exact B|]. split; [exact C|]. split; [exact P|]. apply Keep. intros ? ?; reflexivity.
    - apply ranged_ok. intros Hs. cbv zeta. apply ranged_ok. intros Hd. apply ranged_ok. intros Hv. cbv beta zeta; eapply done_ok; [reflexivity|].
      unfold pictured, turn, choose. cbn [set_displaypage set_drawpage set_screen screen color drawmode drawpage displaypage prio pages b_screen b_colour b_xor b_draw b_show b_prio b_dot].
      split; [apply (well_set g); [exact W|intros ? ?; reflexivity|exact Hs|exact W2|]|].
      + intros t Ht. cbn [set_displaypage set_drawpage set_screen screen drawpage displaypage prio]. unfold upd2. specialize (W3 t Ht). destruct (t =? s / 4096); tauto.
      + split; [reflexivity|]. split; [exact B|]. split; [exact C|]. split; [|apply Keep; intros ? ?; reflexivity]. intros t Ht. unfold at_place, upd2. specialize (P t Ht). destruct (t =? s / 4096); tauto. }
  destruct (c =? CMD_GCOLOR).
  { destruct vs as [|k [|? ?]]; try exact I. apply ranged_ok. intros Hk. cbv beta zeta; eapply done_ok; [reflexivity|]. unfold pictured. cbn [take_ink set_color screen color drawmode drawpage displaypage prio pages b_screen b_colour b_xor b_draw b_show b_prio b_dot].
    split; [apply (well_set g); [exact W|intros ? ?; reflexivity|exact W1|exact Hk|exact W3]|]. split; [exact A|]. split; [reflexivity|]. split; [exact C|]. split; [exact P|]. apply Keep. intros ? ?; reflexivity. }
  destruct (c =? CMD_GDRAWMD).
  { destruct vs as [|k [|? ?]]; try exact I. apply ranged_ok. intros Hk. cbv beta zeta; eapply done_ok; [reflexivity|]. unfold pictured. cbn [take_mode set_drawmode screen color drawmode drawpage displaypage prio pages b_screen b_colour b_xor b_draw b_show b_prio b_dot].
    split; [apply (well_set g); [exact W|intros ? ?; reflexivity|exact W1|exact W2|exact W3]|]. split; [exact A|]. split; [exact B|]. split; [destruct (k / 4096 =? 0) eqn:E; cbn [negb]; lia|]. split; [exact P|]. apply Keep. intros ? ?; reflexivity. }
  destruct (c =? CMD_GPRIO).
  { destruct vs as [|k [|? ?]]; try exact I. apply ranged_ok. intros Hk. cbv beta zeta; eapply done_ok; [reflexivity|]. unfold pictured. cbn [lay set_prio screen color drawmode drawpage displaypage prio pages b_screen b_colour b_xor b_draw b_show b_prio b_dot].
    split; [apply (well_set g); [exact W|intros ? ?; reflexivity|exact W1|exact W2|]|].
    - intros t Ht. cbn [set_prio screen drawpage displaypage prio]. unfold upd2. specialize (W3 t Ht). destruct (t =? screen g); tauto.
    - split; [exact A|]. split; [exact B|]. split; [exact C|]. split; [|apply Keep; intros ? ?; reflexivity]. intros t Ht. unfold at_place, upd2. rewrite A. specialize (P t Ht). destruct (t =? screen g); tauto. }
  destruct (c =? CMD_GCLS).
  { destruct vs as [|k [|? ?]]; try exact I; apply wipe_ok, Pc. }
  destruct (c =? CMD_GPSET).
  { destruct vs as [|x [|y [|k [|? ?]]]]; try exact I; apply dot_ok, Pc. }
  destruct (c =? CMD_GFILL).
  { destruct vs as [|x [|y [|u [|v [|k [|? ?]]]]]]; try exact I; apply fill_ok, Pc. }
  destruct (c =? CMD_GBOX).
  { destruct vs as [|x [|y [|u [|v [|k [|? ?]]]]]]; try exact I; apply frame_ok, Pc. }
  destruct (c =? CMD_GCOPY).
  { destruct vs as [|x [|y [|u [|v [|s [|t [|m [|q [|? ?]]]]]]]]]; try exact I.
    - apply copy_ok; [exact Pc|apply on_target, Pc|]. rewrite (on_target _ _ Pc). apply well_draw, W.
    - unfold ranged. fold (whole x). destruct (within 0 (whole x) 3) eqn:R.
      + apply within_iff in R. apply copy_ok; [exact Pc|reflexivity|exact R].
      + apply within_not in R. rewrite C57_page_range by exact R. reflexivity. }
  destruct vs as [|x [|y [|u [|v [|k [|? ?]]]]]]; try exact I; apply line_ok, Pc.
Qed.
(** *** GSPOIT *)
Lemma seen_ok b g n x y : pictured b g -> 0 <= n <= 3 -> 4096 * colour_at g n (whole x) (whole y) = seen b n x y.
Proof.
  intros (W & _ & _ & _ & _ & Q) Hn. unfold seen. destruct (within 0 (x / 4096) 255 && within 0 (y / 4096) 191) eqn:E.
  - apply andb_prop in E. destruct E as [E1 E2]. apply within_iff in E1. apply within_iff in E2. rewrite Q by lia. reflexivity.
  - apply Bool.andb_false_iff in E. rewrite !within_not in E. rewrite colour_off; [reflexivity|exact Hn|]. unfold whole. lia.
Qed.
Lemma look_ok vs b g : pictured b g -> okr eq (look_ido vs b) (look_do vs g).
Proof.
  intros Pc. pose proof Pc as (W & _). unfold look_ido, look_do. destruct vs as [|p [|x [|y [|? ?]]]]; try exact I.
  - destruct (C28_gspoit g None p x W) as (E & _). rewrite E, (seen_ok b g) by (try exact Pc; apply well_draw, W). rewrite (on_target _ _ Pc). apply okr_ok. reflexivity.
  - destruct (C28_gspoit g (Some p) x y W) as (E & _). fold (whole p). unfold within. destruct ((0 <=? whole p) && (whole p <=? 3)) eqn:R; rewrite E; [|reflexivity].
    rewrite (seen_ok b g) by (try exact Pc; lia). apply okr_ok. reflexivity.
Qed.
