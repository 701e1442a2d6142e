(** C60: the settings, GCLS, and what no sequence of graphics commands can do. *)
From Verif Require Import Base BaseLemmas Memory Resources Graphics GraphicsSpec GraphicsProofs GraphicsProps.
Ltac Zify.zify_post_hook ::= Z.div_mod_to_equations.
Open Scope Z_scope.

(** the pages are untouched *)
Definition same_pages (g h : gfx) : Prop := forall n i, pages h n i = pages g n i.

Lemma in_range_ok g v lo hi k : lo <= whole v <= hi -> in_range g v lo hi k = k (whole v).
Proof. intros H. unfold in_range. rewrite (proj2 (int_range_some v lo hi (whole v)) (conj eq_refl H)). reflexivity. Qed.
Lemma in_range_bad g v lo hi k : ~ (lo <= whole v <= hi) -> in_range g v lo hi k = (g, Raised ERR_OUT_OF_RANGE).
Proof. intros H. unfold in_range. rewrite (proj2 (int_range_none v lo hi) H). reflexivity. Qed.
Lemma upd2_same {A} (f : Z -> A) i v : upd2 f i v i = v.
Proof. unfold upd2. rewrite Z.eqb_refl. reflexivity. Qed.
Lemma upd2_other {A} (f : Z -> A) i v j : j <> i -> upd2 f i v j = f j.
Proof. intros H. unfold upd2. apply Z.eqb_neq in H. rewrite H. reflexivity. Qed.

Theorem C60_gcolor : forall g c,
  (0 <= whole c <= 255 -> exists h, cmd_gcolor g c = (h, Done) /\ color h = whole c /\
     screen h = screen g /\ drawmode h = drawmode g /\ (forall s, drawpage h s = drawpage g s) /\
     (forall s, displaypage h s = displaypage g s) /\ (forall s, prio h s = prio g s) /\ same_pages g h) /\
  (~ 0 <= whole c <= 255 -> cmd_gcolor g c = (g, Raised ERR_OUT_OF_RANGE)).
Proof.
  intros g c. unfold cmd_gcolor. split; intros H; [rewrite in_range_ok by exact H|apply in_range_bad; exact H].
  eexists. split; [reflexivity|]. unfold same_pages. cbn [set_color screen color drawmode drawpage displaypage prio pages]. repeat split.
Qed.
Theorem C60_gdrawmd : forall g m,
  (0 <= whole m <= 1 -> exists h, cmd_gdrawmd g m = (h, Done) /\ (drawmode h = true <-> whole m = 1) /\
     screen h = screen g /\ color h = color g /\ (forall s, drawpage h s = drawpage g s) /\
     (forall s, displaypage h s = displaypage g s) /\ (forall s, prio h s = prio g s) /\ same_pages g h) /\
  (~ 0 <= whole m <= 1 -> cmd_gdrawmd g m = (g, Raised ERR_OUT_OF_RANGE)).
Proof.
  intros g m. unfold cmd_gdrawmd. split; intros H; [rewrite in_range_ok by exact H|apply in_range_bad; exact H].
  eexists. split; [reflexivity|]. unfold same_pages. cbn [set_drawmode screen color drawmode drawpage displaypage prio pages].
  split; [destruct (whole m =? 0) eqn:E; cbn [negb]; split; intros K; try discriminate K; try reflexivity; lia|]. repeat split.
Qed.
(** only of the selected screen *)
Theorem C60_gprio : forall g v,
  (0 <= whole v <= 3 -> exists h, cmd_gprio g v = (h, Done) /\ prio h (screen g) = whole v /\
     (forall s, s <> screen g -> prio h s = prio g s) /\
     screen h = screen g /\ color h = color g /\ drawmode h = drawmode g /\ (forall s, drawpage h s = drawpage g s) /\
     (forall s, displaypage h s = displaypage g s) /\ same_pages g h) /\
  (~ 0 <= whole v <= 3 -> cmd_gprio g v = (g, Raised ERR_OUT_OF_RANGE)).
Proof.
  intros g v. unfold cmd_gprio. split; intros H; [rewrite in_range_ok by exact H|apply in_range_bad; exact H].
  eexists. split; [reflexivity|]. unfold same_pages. cbn [set_prio screen color drawmode drawpage displaypage prio pages].
  split; [apply upd2_same|]. split; [intros s N; apply upd2_other; exact N|]. repeat split.
Qed.
(** GPAGE s and GPAGE s,d,v *)
Theorem C60_gpage_screen : forall g s,
  (0 <= whole s <= 1 -> exists h, cmd_gpage g s None = (h, Done) /\ screen h = whole s /\
     color h = color g /\ drawmode h = drawmode g /\ (forall t, drawpage h t = drawpage g t) /\
     (forall t, displaypage h t = displaypage g t) /\ (forall t, prio h t = prio g t) /\ same_pages g h) /\
  (forall pgs, ~ 0 <= whole s <= 1 -> cmd_gpage g s pgs = (g, Raised ERR_OUT_OF_RANGE)).
Proof.
  intros g s. unfold cmd_gpage. split; [intros H; rewrite in_range_ok by exact H|intros pgs H; apply in_range_bad; exact H].
  eexists. split; [reflexivity|]. unfold same_pages. cbn [set_screen screen color drawmode drawpage displaypage prio pages]. repeat split.
Qed.
Theorem C60_gpage_pages : forall g s d v, 0 <= whole s <= 1 -> 0 <= whole d <= 3 -> 0 <= whole v <= 3 ->
  exists h, cmd_gpage g s (Some (d, v)) = (h, Done) /\ screen h = whole s /\
    drawpage h (whole s) = whole d /\ displaypage h (whole s) = whole v /\
    (forall t, t <> whole s -> drawpage h t = drawpage g t /\ displaypage h t = displaypage g t) /\
    color h = color g /\ drawmode h = drawmode g /\ (forall t, prio h t = prio g t) /\ same_pages g h.
Proof.
  intros g s d v Hs Hd Hv. unfold cmd_gpage. rewrite in_range_ok by exact Hs. cbv zeta. rewrite in_range_ok by exact Hd. rewrite in_range_ok by exact Hv.
  eexists. split; [reflexivity|]. unfold same_pages. cbn [set_screen set_drawpage set_displaypage screen color drawmode drawpage displaypage prio pages].
  split; [reflexivity|]. split; [apply upd2_same|]. split; [apply upd2_same|].
  split; [intros t N; split; apply upd2_other; exact N|]. repeat split.
Qed.
(** a page out of range is reported, but the arguments before it have taken effect already *)
Theorem C60_gpage_refuted : forall g s d v, 0 <= whole s <= 1 ->
  (~ 0 <= whole d <= 3 -> exists h, cmd_gpage g s (Some (d, v)) = (h, Raised ERR_OUT_OF_RANGE) /\ screen h = whole s /\ drawpage h (whole s) = drawpage g (whole s)) /\
  (0 <= whole d <= 3 -> ~ 0 <= whole v <= 3 -> exists h, cmd_gpage g s (Some (d, v)) = (h, Raised ERR_OUT_OF_RANGE) /\ screen h = whole s /\ drawpage h (whole s) = whole d).
Proof.
  intros g s d v Hs. unfold cmd_gpage. rewrite in_range_ok by exact Hs. cbv zeta. split; intros Hd.
  - rewrite in_range_bad by exact Hd. eexists. split; [reflexivity|]. cbn. split; reflexivity.
  - intros Hv. rewrite in_range_ok by exact Hd. rewrite in_range_bad by exact Hv. eexists. split; [reflexivity|]. cbn. split; [reflexivity|apply upd2_same].
Qed.
Example C60_gpage_refuted_ok : exists h, cmd_gpage g0 4096 (Some (9 * 4096, 0)) = (h, Raised ERR_OUT_OF_RANGE) /\ screen g0 = 0 /\ screen h = 1.
Proof. eexists. split; [reflexivity|]. split; reflexivity. Qed.

(** GCLS: whatever the drawing mode *)
Theorem C60_gcls : forall g c k, well g -> colour_arg g c k -> 0 <= k <= 255 ->
  exists h, cmd_gcls g c = (h, Done) /\ same_settings g h /\
    forall n x y, 0 <= n <= 3 -> 0 <= x < 256 -> 0 <= y < 192 ->
      colour_at h n x y = if n =? target g then k else colour_at g n x y.
Proof.
  intros g c k W C K. unfold cmd_gcls. rewrite (with_color_ok g c k) by assumption. eexists. split; [reflexivity|]. split; [apply settings_canvas|].
  intros n x y Hn Hx Hy. set (p := fun i => if (0 <=? i) && (i <? GRP_SIZE) then k else canvas g i).
  assert (P : px p x y = k).
  { unfold px, p, GRP_SIZE. assert (R := grp_index_range x y Hx Hy). replace ((0 <=? grp_index x y) && (grp_index x y <? 49152)) with true by lia. reflexivity. }
  destruct (n =? target g) eqn:E.
  - apply Z.eqb_eq in E. subst n.
    assert (Q : px (pages (set_canvas g p) (target g)) x y = k) by (rewrite canvas_px; unfold draw_no, target; rewrite Z.eqb_refl; exact P).
    rewrite colour_on; [exact Q|exact Hn|exact Hx|exact Hy|rewrite Q; exact K].
  - apply colour_congr. intros _ _. rewrite canvas_px. unfold draw_no. fold (target g). rewrite E. reflexivity.
Qed.
Theorem C60_gcls_range : forall g v, ~ 0 <= whole v <= 255 -> cmd_gcls g (Some v) = (g, Raised ERR_OUT_OF_RANGE).
Proof. intros g v H. apply with_color_bad. exact H. Qed.
Example C60_gcls_ok : well g0x /\ drawmode g0x = true /\ colour_arg g0x (Some (5 * 4096)) 5.
Proof. split; [apply g0_well|]. split; reflexivity. Qed.

(** ** All sequences of commands *)
Section Reach.
(** the character banks and the pages selected: whatever they are when GPUTCHR is used *)
Inductive reach : gfx -> Prop :=
| r_start c ps : 0 <= c <= 255 -> (forall n i, 0 <= n <= 3 -> 0 <= i < 49152 -> 0 <= ps n i <= 255) -> reach (init_graphics c ps)
| r_gpage g s pgs : reach g -> reach (fst (cmd_gpage g s pgs))
| r_gcolor g c : reach g -> reach (fst (cmd_gcolor g c))
| r_gdrawmd g m : reach g -> reach (fst (cmd_gdrawmd g m))
| r_gprio g v : reach g -> reach (fst (cmd_gprio g v))
| r_gcls g c : reach g -> reach (fst (cmd_gcls g c))
| r_gfill g x1 y1 x2 y2 c : reach g -> reach (fst (cmd_gfill g x1 y1 x2 y2 c))
| r_gbox g x1 y1 x2 y2 c : reach g -> reach (fst (cmd_gbox g x1 y1 x2 y2 c))
| r_gline g x1 y1 x2 y2 c : reach g -> reach (fst (cmd_gline g x1 y1 x2 y2 c))
| r_gpset g x y c : reach g -> reach (fst (cmd_gpset g x y c))
| r_gcopy g sp x1 y1 x2 y2 x3 y3 m : reach g -> reach (fst (cmd_gcopy g sp x1 y1 x2 y2 x3 y3 m))
| r_gpaint g fuel x y c b h f : reach g -> cmd_gpaint fuel g x y c b = Some (h, f) -> reach h
| r_gputchr g pg chr col rg x y res ch pal size :
    (forall b, Forall (fun v => 0 <= v <= 255) (chr b)) -> reach g ->
    reach (gg (fst (cmd_gputchr pg chr (mkGG g col rg) x y res ch pal size))).
End Reach.

Definition bytes (p : page) : Prop := forall i, 0 <= i < 49152 -> 0 <= p i <= 255.
Lemma bytes_set p i v : bytes p -> 0 <= v <= 255 -> bytes (set_byte p i v).
Proof. intros B V j J. unfold set_byte. destruct (j =? i); [exact V|apply B; exact J]. Qed.
Lemma bytes_pixel p x y c m : bytes p -> 0 <= c <= 255 -> bytes (grp_pixel p x y c m).
Proof.
  intros B C. unfold grp_pixel. destruct (on_page x y) eqn:O; [|exact B]. apply on_page_iff in O. apply bytes_set; [exact B|].
  apply (blend_byte m (p (grp_index x y)) c); [|exact C]. apply B, grp_index_range; tauto.
Qed.
Lemma bytes_plot c m : 0 <= c <= 255 -> forall pts p, bytes p -> bytes (plot p c m pts).
Proof.
  intros C pts. unfold plot. induction pts as [|q l IH]; intros p B; [exact B|]. cbn [fold_left]. apply IH, bytes_pixel; assumption.
Qed.
Lemma well_canvas g p : well g -> bytes p -> well (set_canvas g p).
Proof.
  intros (S & C & P & B) Bp. split; [exact S|]. split; [exact C|]. split; [exact P|].
  intros n i Hn Hi. unfold set_canvas, upd2. cbn [pages]. destruct (n =? draw_no g); [apply Bp; exact Hi|apply B; assumption].
Qed.
Lemma bytes_canvas g : well g -> bytes (canvas g).
Proof. intros W i Hi. assert (D := well_draw g W). destruct W as (_ & _ & _ & B). apply B; [exact D|exact Hi]. Qed.
Lemma well_in_range g v lo hi k : well g -> (forall n, lo <= n <= hi -> well (fst (k n))) -> well (fst (in_range g v lo hi k)).
Proof.
  intros W H. unfold in_range. destruct (int_range v lo hi) as [n|] eqn:E; [|exact W]. apply int_range_some in E. apply H. lia.
Qed.
Lemma well_with_color g c k : well g -> (forall n, 0 <= n <= 255 -> well (fst (k n))) -> well (fst (with_color g c k)).
Proof.
  intros W H. unfold with_color. destruct c as [v|]; [apply well_in_range; assumption|]. apply H. apply W.
Qed.
Lemma bytes_copy src dest m x1 y1 x3 y3 : 0 <= src <= 3 -> forall l ps, (forall n, 0 <= n <= 3 -> bytes (ps n)) ->
  forall n, 0 <= n <= 3 -> bytes (fold_left (copy_one src dest m x1 y1 x3 y3) l ps n).
Proof.
  intros Hs l. induction l as [|[x y] l IH]; intros ps B n Hn; [apply B; exact Hn|]. cbn [fold_left]. apply IH; [|exact Hn].
  intros k Hk. unfold copy_one. set (v := if on_page x y then _ else _).
  assert (V : 0 <= v <= 255).
  { unfold v. destruct (on_page x y) eqn:O; [|lia]. apply on_page_iff in O. apply (B src Hs). apply grp_index_range; tauto. }
  destruct (_ && _); [|apply B; exact Hk]. unfold upd2. destruct (k =? dest) eqn:E; [|apply B; exact Hk].
  apply Z.eqb_eq in E. subst k. apply bytes_set; [apply B; exact Hk|exact V].
Qed.
Definition st_bytes (st : painted) : Prop := match st with Painting p _ => bytes p | Overflow p => bytes p end.
Lemma st_push st a b c d : st_bytes st -> st_bytes (push_span st a b c d).
Proof. destruct st as [p s|p]; cbn [push_span]; [|trivial]. destruct (256 <=? length s)%nat; trivial. Qed.
Lemma bytes_right y m c : 0 <= c <= 255 -> forall n p x, bytes p -> bytes (fst (paint_right n p x y m c)).
Proof.
  intros C n. induction n as [|n IH]; intros p x B; [exact B|]. cbn [paint_right]. destruct (inside p x y m); [|exact B]. apply IH, bytes_set; assumption.
Qed.
Lemma bytes_left y m c : 0 <= c <= 255 -> forall n p x, bytes p -> bytes (fst (paint_left n p x y m c)).
Proof.
  intros C n. induction n as [|n IH]; intros p x B; [exact B|]. cbn [paint_left]. destruct (inside p (x - 1) y m); [|exact B]. apply IH, bytes_set; assumption.
Qed.
Lemma bytes_span x2 y dy m c : 0 <= c <= 255 -> forall n st x x1, st_bytes st -> st_bytes (paint_span n st x x1 x2 y dy m c).
Proof.
  intros C n. induction n as [|n IH]; intros st x x1 B; [destruct st; exact B|]. destruct st as [p s|p]; [|exact B].
  cbn [paint_span]. destruct (x1 <=? x2); [|exact B].
  match goal with |- context [paint_right ?k p x1 y m c] => assert (R := bytes_right y m c C k p x1 B); destruct (paint_right k p x1 y m c) as [p' x1'] end.
  cbn [fst] in R. apply IH.
  destruct (x1' >? x), (x1' - 1 >? x2); repeat apply st_push; exact R.
Qed.
Lemma bytes_turn n st m c : 0 <= c <= 255 -> st_bytes st -> st_bytes (paint_turn_within n st m c).
Proof.
  intros C B. destruct st as [p [|v s]|p]; [exact B| |exact B]. unfold paint_turn_within. destruct (unpack4 v) as [[[x1 x2] y] dy].
  destruct (inside p x1 y m); [|apply bytes_span; assumption].
  assert (L := bytes_left y m c C n p x1 B). destruct (paint_left n p x1 y m c) as [p' x']. cbn [fst] in L.
  apply bytes_span; [exact C|]. destruct (x' <? x1); [apply st_push|]; exact L.
Qed.
Lemma bytes_loop m c : 0 <= c <= 255 -> forall fuel st p f, st_bytes st -> paint_loop fuel st m c = Some (p, f) -> bytes p.
Proof.
  intros C fuel. induction fuel as [|fuel IH]; intros st p f B E; destruct st as [q [|v s]|q]; cbn [paint_loop] in E;
    try (injection E as <- _; exact B); try discriminate E.
  apply (IH _ p f) in E; [exact E|]. apply bytes_turn; assumption.
Qed.
Lemma chr_pixel_range src x y : Forall (fun v => 0 <= v <= 255) src -> 0 <= chr_pixel src x y <= 15.
Proof.
  intros F. unfold chr_pixel. set (k := Z.to_nat _).
  assert (V : 0 <= nth k src 0 <= 255).
  { destruct (nth_in_or_default k src 0) as [I|E]; [rewrite Forall_forall in F; apply F; exact I|rewrite E; lia]. }
  destruct (x mod 2 =? 0).
  - assert (E := Z.land_ones (nth k src 0) 4 ltac:(lia)). change (Z.ones 4) with 15 in E. change (2 ^ 4) with 16 in E. lia.
  - rewrite Z.shiftr_div_pow2 by lia. change (2 ^ 4) with 16. lia.
Qed.
Lemma bytes_chr src xs ys size pal m p : Forall (fun v => 0 <= v <= 255) src -> 0 <= pal <= 15 -> bytes p -> bytes (put_chr src xs ys size pal m p).
Proof.
  intros F P. unfold put_chr. generalize chr_cells as l. intros l. revert p. induction l as [|[x y] l IH]; intros p B; [exact B|].
  cbn [fold_left]. apply IH. clear IH. unfold put_cell. assert (C := chr_pixel_range src x y F). set (c := chr_pixel src x y) in *.
  generalize (cell_points xs ys size x y) as r. intros r. revert p B. induction r as [|[a b] r IH]; intros p B; [exact B|].
  cbn [fold_left]. apply IH. destruct (_ && _); [|exact B]. apply bytes_pixel; [exact B|lia].
Qed.

(** no setting ever out of range, no pixel ever anything but a colour 0..255 *)
Theorem C60_reachable : forall g, reach g -> well g.
Proof.
  intros g R. induction R.
  - split; [cbn; lia|]. split; [exact H|]. split; [cbn; lia|]. exact H0.
  - unfold cmd_gpage. apply well_in_range; [exact IHR|]. intros k Hk.
    assert (W : well (set_screen g k)) by (destruct IHR as (S & C & P & B); split; [exact Hk|split; [exact C|split; [exact P|exact B]]]).
    destruct pgs as [[d v]|]; [|exact W]. cbv zeta. apply well_in_range; [exact W|]. intros d' Hd.
    assert (W2 : well (set_drawpage (set_screen g k) d')).
    { destruct W as (S & C & P & B). split; [exact S|]. split; [exact C|]. split; [|exact B]. intros t Ht.
      cbn [set_drawpage drawpage displaypage prio]. specialize (P t Ht). cbn [set_screen screen drawpage displaypage prio] in *.
      unfold upd2. destruct (t =? k); tauto. }
    apply well_in_range; [exact W2|]. intros v' Hv. destruct W2 as (S & C & P & B). split; [exact S|]. split; [exact C|]. split; [|exact B]. intros t Ht.
    specialize (P t Ht). cbn [fst set_displaypage set_drawpage set_screen screen drawpage displaypage prio] in *.
    split; [apply P|]. split; [|apply P]. unfold upd2. destruct (t =? k); [exact Hv|apply P].
  - unfold cmd_gcolor. apply well_in_range; [exact IHR|]. intros k Hk. destruct IHR as (S & C & P & B). split; [exact S|]. split; [exact Hk|]. split; [exact P|exact B].
  - unfold cmd_gdrawmd. apply well_in_range; [exact IHR|]. intros k Hk. exact IHR.
  - unfold cmd_gprio. apply well_in_range; [exact IHR|]. intros k Hk. destruct IHR as (S & C & P & B). split; [exact S|]. split; [exact C|]. split; [|exact B].
    intros t Ht. specialize (P t Ht). cbn [fst set_prio drawpage displaypage prio]. split; [apply P|]. split; [apply P|]. unfold upd2. destruct (t =? screen g); [exact Hk|apply P].
  - unfold cmd_gcls. apply well_with_color; [exact IHR|]. intros k Hk. apply well_canvas; [exact IHR|]. intros i Hi.
    unfold GRP_SIZE. replace ((0 <=? i) && (i <? 49152)) with true by lia. exact Hk.
  - unfold cmd_gfill. apply well_with_color; [exact IHR|]. intros k Hk. apply well_canvas; [exact IHR|]. apply bytes_plot; [exact Hk|apply bytes_canvas; exact IHR].
  - unfold cmd_gbox. apply well_with_color; [exact IHR|]. intros k Hk. apply well_canvas; [exact IHR|]. apply bytes_plot; [exact Hk|apply bytes_canvas; exact IHR].
  - unfold cmd_gline. apply well_with_color; [exact IHR|]. intros k Hk. destruct (line_points _ _ _ _) as [pts|e|]; [|exact IHR|exact IHR].
    apply well_canvas; [exact IHR|]. apply bytes_plot; [exact Hk|apply bytes_canvas; exact IHR].
  - unfold cmd_gpset. destruct (_ || _); [exact IHR|]. destruct (_ || _); [exact IHR|]. apply well_with_color; [exact IHR|]. intros k Hk.
    apply well_canvas; [exact IHR|]. apply bytes_pixel; [apply bytes_canvas; exact IHR|exact Hk].
  - assert (K : forall u1 u2 v1 v2 src, 0 <= src <= 3 -> well (fst (mkG (screen g) (color g) (drawmode g) (drawpage g) (displaypage g) (prio g)
      (fold_left (copy_one src (draw_no g) (negb (FP_TO_INT m =? 0)) u1 v1 (FP_TO_INT x3) (FP_TO_INT y3)) (copy_order u1 v1 u2 v2 (FP_TO_INT x3) (FP_TO_INT y3)) (pages g)), Done))).
    { intros u1 u2 v1 v2 src Hs. destruct IHR as (S & C & P & B). split; [exact S|]. split; [exact C|]. split; [exact P|].
      intros n i Hn Hi. cbn [fst pages]. apply (bytes_copy src _ _ _ _ _ _ Hs _ (pages g)); [|exact Hn|exact Hi]. intros q Hq j Hj. apply B; assumption. }
    assert (D := well_draw g IHR). unfold cmd_gcopy. cbv zeta.
    destruct (FP_TO_INT x1 >? FP_TO_INT x2), (FP_TO_INT y1 >? FP_TO_INT y2);
      (destruct sp as [v|]; [apply well_in_range; [exact IHR|intros src Hs; apply K; exact Hs]|apply K; exact D]).
  - revert H. unfold cmd_gpaint. set (X := FP_TO_INT x). set (Y := FP_TO_INT y).
    set (cc := match c with None => Some (color g) | Some c => int_range c 0 255 end).
    assert (CC : forall k, cc = Some k -> 0 <= k <= 255).
    { intros k. unfold cc. destruct c as [v|]; intros E; [apply int_range_some in E; lia|injection E as <-; apply IHR]. }
    destruct cc as [k|] eqn:Ec; [|intros E; injection E as <- _; exact IHR]. specialize (CC k eq_refl).
    assert (G : forall m, match paint_loop fuel (push_span (push_span (Painting (canvas g) []) X X Y 1) X X (Y - 1) (-1)) m k with
                          | Some (p, f) => Some (set_canvas g p, f) | None => None end = Some (h, f) -> well h).
    { intros m. destruct (paint_loop fuel _ m k) as [[p f']|] eqn:E; [|discriminate]. intros I. injection I as <- _.
      apply well_canvas; [exact IHR|]. apply (bytes_loop m k CC fuel _ p f') in E; [exact E|]. repeat apply st_push. apply bytes_canvas. exact IHR. }
    destruct b as [b|].
    + destruct (int_range b 0 255); [apply G|]. intros E. injection E as <- _. exact IHR.
    + destruct (_ >=? _); [intros E; injection E as <- _; exact IHR|apply G].
  - unfold cmd_gputchr. destruct (int_range ch 0 255) as [k|]; [|exact IHR]. destruct (int_range pal 0 15) as [q|] eqn:Eq; [|exact IHR].
    apply int_range_some in Eq.
    destruct (_ || _); [|exact IHR]. destruct (get_resource_ptr pg (palette_name res)) as [[]| |]; try exact IHR.
    destruct (get_resource_ptr pg _) as [[]| |]; try exact IHR.
    destruct (get_verified_resource_type pg (Strs.SBc res)) as [inf|e|]; try exact IHR. destruct (i_data inf) as [bk| | | | | ]; try exact IHR.
    cbn [fst gg]. apply well_canvas; [exact IHR|]. apply bytes_chr; [|lia|apply bytes_canvas; exact IHR].
    specialize (H bk). rewrite Forall_forall in H. apply Forall_forall. intros v I. apply H.
    rewrite <- (firstn_skipn (Z.to_nat (32 * k)) (chr bk)). apply in_or_app. right.
    rewrite <- (firstn_skipn 32 (skipn (Z.to_nat (32 * k)) (chr bk))). apply in_or_app. left. exact I.
Qed.
Example C60_reachable_ok : reach (fst (cmd_gcopy (fst (cmd_gfill (fst (cmd_gpage g0 4096 (Some (2 * 4096, 3 * 4096)))) 0 0 4096 4096 (Some (7 * 4096)))) None 0 0 (9 * 4096) 4096 4096 0 0)).
Proof. apply r_gcopy, r_gfill, r_gpage. apply r_start; [lia|intros; lia]. Qed.

Print Assumptions C60_gcolor.
Print Assumptions C60_gdrawmd.
Print Assumptions C60_gprio.
Print Assumptions C60_gpage_screen.
Print Assumptions C60_gpage_pages.
Print Assumptions C60_gpage_refuted.
Print Assumptions C60_gcls.
Print Assumptions C60_gcls_range.
Print Assumptions C60_reachable.
