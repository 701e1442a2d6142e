(** C57: GCOPY. *)
From Coq Require Import Sorted.
From Verif Require Import Base BaseLemmas Memory Graphics GraphicsSpec GraphicsProofs GraphicsProps.
Ltac Zify.zify_post_hook ::= Z.div_mod_to_equations.
Open Scope Z_scope.

Section Copy.
Variables (src dest : Z) (mode : bool) (x1 y1 x3 y3 : Z).
Let moved (q : Z * Z) : Z * Z := (fst q - x1 + x3, snd q - y1 + y3).
Definition source_value (ps : Z -> page) (q : Z * Z) : Z := if on_page (fst q) (snd q) then px (ps src) (fst q) (snd q) else 0.
Let one := copy_one src dest mode x1 y1 x3 y3.

Lemma one_px ps q n a b : 0 <= a < 256 -> 0 <= b < 192 ->
  px (one ps q n) a b = if (n =? dest) && (a =? fst (moved q)) && (b =? snd (moved q)) && (mode || negb (source_value ps q =? 0)) then source_value ps q else px (ps n) a b.
Proof.
  intros Ha Hb. destruct q as [x y]. unfold one, copy_one, moved, source_value. cbn [fst snd]. fold (px (ps src) x y).
  set (v := if on_page x y then px (ps src) x y else 0). set (u := x - x1 + x3). set (w := y - y1 + y3).
  destruct (mode || negb (v =? 0)) eqn:M; [|rewrite !andb_false_r; reflexivity]. rewrite andb_true_r. cbn [andb].
  destruct (on_page u w) eqn:O.
  - apply on_page_iff in O. unfold upd2. destruct (n =? dest) eqn:E; [|reflexivity]. cbn [andb]. rewrite px_set by tauto. apply Z.eqb_eq in E. subst n. reflexivity.
  - apply on_page_not in O. destruct ((n =? dest) && (a =? u) && (b =? w)) eqn:E; [exfalso; apply O; lia|reflexivity].
Qed.
(** no point is read after it has been written *)
Definition in_time (l : list (Z * Z)) : Prop := forall a q b q', l = a ++ q :: b -> In q' a -> moved q' <> q.
Lemma fold_px : forall l ps n a b, NoDup l -> (src = dest -> in_time l) -> 0 <= a < 256 -> 0 <= b < 192 ->
  let q := (a - x3 + x1, b - y3 + y1) in
  (n = dest /\ In q l /\ (mode = true \/ source_value ps q <> 0) -> px (fold_left one l ps n) a b = source_value ps q) /\
  (~ (n = dest /\ In q l /\ (mode = true \/ source_value ps q <> 0)) -> px (fold_left one l ps n) a b = px (ps n) a b).
Proof.
  induction l as [|r l IH] using rev_ind; intros ps n a b N T Ha Hb q.
  - cbn [fold_left In]. split; [tauto|reflexivity].
  - rewrite fold_left_app. cbn [fold_left].
    assert (N' : NoDup l) by (apply NoDup_remove_1 in N; rewrite app_nil_r in N; exact N).
    assert (NR : ~ In r l) by (intros I; apply NoDup_remove_2 in N; apply N; rewrite app_nil_r; exact I).
    assert (T' : src = dest -> in_time l).
    { intros E c s d s' L I. apply (T E c s (d ++ [r]) s'); [rewrite L, <- app_assoc; reflexivity|exact I]. }
    assert (SV : source_value (fold_left one l ps) r = source_value ps r).
    { unfold source_value. destruct (on_page (fst r) (snd r)) eqn:O; [|reflexivity]. apply on_page_iff in O.
      apply (proj2 (IH ps src (fst r) (snd r) N' T' (proj1 O) (proj2 O))). intros (E & I & _).
      apply (T E l r [] (fst r - x3 + x1, snd r - y3 + y1) eq_refl I). unfold moved. cbn [fst snd]. destruct r as [rx ry]. cbn [fst snd]. f_equal; lia. }
    rewrite one_px by assumption. rewrite SV. destruct (IH ps n a b N' T' Ha Hb) as (I1 & I2). fold q in I1, I2.
    assert (QR : (a =? fst (moved r)) && (b =? snd (moved r)) = true <-> q = r).
    { unfold moved, q. destruct r as [rx ry]. cbn [fst snd]. split; [intros H; f_equal; lia|intros H; injection H as <- <-; lia]. }
    rewrite <- (andb_assoc (n =? dest)).
    destruct ((a =? fst (moved r)) && (b =? snd (moved r))) eqn:E.
    + assert (QE : q = r) by (apply QR; reflexivity). rewrite <- QE in *. clear QR E. rewrite andb_true_r.
      destruct (n =? dest) eqn:D; [apply Z.eqb_eq in D|apply Z.eqb_neq in D]; cbn [andb].
      * destruct (mode || negb (source_value ps q =? 0)) eqn:M.
        -- split; [reflexivity|]. intros H. exfalso. apply H. split; [exact D|]. split; [apply in_or_app; right; left; reflexivity|]. destruct mode; [left; reflexivity|right; cbn [orb] in M; lia].
        -- split; [intros (_ & _ & [X|X]); exfalso; [rewrite X in M; discriminate M|]|].
           ++ destruct mode; [discriminate M|]. cbn [orb] in M. lia.
           ++ intros _. apply I2. intros (_ & I & _). exact (NR I).
      * split; [intros (X & _); contradiction|]. intros _. apply I2. intros (X & _). contradiction.
    + assert (NQ : q <> r) by (intros X; apply QR in X; discriminate X). rewrite andb_false_r. cbn [andb].
      split; intros H; [apply I1|apply I2].
      * destruct H as (H1 & H2 & H3). split; [exact H1|]. split; [|exact H3]. apply in_app_or in H2. destruct H2 as [H2|[H2|[]]]; [exact H2|]. exfalso. apply NQ. symmetry. exact H2.
      * intros (H1 & H2 & H3). apply H. split; [exact H1|]. split; [apply in_or_app; left; exact H2|exact H3].
Qed.
End Copy.

(** row by row *)
Definition before (p q : Z * Z) : Prop := snd p < snd q \/ (snd p = snd q /\ fst p < fst q).
Lemma sorted_app {A} (R : A -> A -> Prop) : forall l m, StronglySorted R l -> StronglySorted R m -> (forall a b, In a l -> In b m -> R a b) -> StronglySorted R (l ++ m).
Proof.
  induction l as [|x l IH]; intros m L M H; [exact M|]. inversion L as [|x' l' L' F]; subst. cbn [app]. constructor.
  - apply IH; [exact L'|exact M|]. intros a b I J. apply H; [right; exact I|exact J].
  - apply Forall_forall. intros y I. apply in_app_or in I. destruct I as [I|I]; [rewrite Forall_forall in F; apply F, I|apply H; [left; reflexivity|exact I]].
Qed.
Lemma sorted_split {A} (R : A -> A -> Prop) : forall a q b q', StronglySorted R (a ++ q :: b) -> In q' a -> R q' q.
Proof.
  induction a as [|x a IH]; intros q b q' S I; [destruct I|]. cbn [app] in S. inversion S as [|x' l' S' F]; subst. destruct I as [<-|I].
  - rewrite Forall_forall in F. apply F, in_or_app. right. left. reflexivity.
  - apply (IH q b q' S' I).
Qed.
Lemma sorted_range : forall n a, StronglySorted Z.lt (map (fun k => a + Z.of_nat k) (seq n 0)) /\ forall m n, StronglySorted Z.lt (map (fun k => a + Z.of_nat k) (seq n m)).
Proof.
  intros n a. split; [constructor|]. clear n. induction m as [|m IH]; intros n; [constructor|]. cbn [seq map]. constructor; [apply IH|].
  apply Forall_forall. intros z I. apply in_map_iff in I. destruct I as (k & <- & I). apply in_seq in I. lia.
Qed.
Definition rect (x1 y1 x2 y2 : Z) : list (Z * Z) := flat_map (fun y => map (fun x => (x, y)) (zrange x1 x2)) (zrange y1 y2).
Lemma sorted_rect x1 y1 x2 y2 : StronglySorted before (rect x1 y1 x2 y2).
Proof.
  unfold rect. assert (S := proj2 (sorted_range 0 y1) (Z.to_nat (y2 - y1 + 1)) 0%nat). fold (zrange y1 y2) in S.
  induction S as [|y l S IH F]; [constructor|]. cbn [flat_map]. apply sorted_app; [|exact IH|].
  - assert (X := proj2 (sorted_range 0 x1) (Z.to_nat (x2 - x1 + 1)) 0%nat). fold (zrange x1 x2) in X. clear - X.
    induction X as [|x l X IH F]; [constructor|]. cbn [map]. constructor; [exact IH|]. apply Forall_forall. intros q I. apply in_map_iff in I. destruct I as (z & <- & I).
    rewrite Forall_forall in F. right. cbn [fst snd]. split; [reflexivity|apply F, I].
  - intros a b I J. apply in_map_iff in I. destruct I as (x & <- & I). apply in_flat_map in J. destruct J as (z & J & K). apply in_map_iff in K. destruct K as (w & <- & K).
    rewrite Forall_forall in F. left. cbn [snd]. apply F, J.
Qed.
Lemma in_rect x1 y1 x2 y2 x y : In (x, y) (rect x1 y1 x2 y2) <-> x1 <= x <= x2 /\ y1 <= y <= y2.
Proof.
  unfold rect. rewrite in_flat_map. split.
  - intros (z & I & J). apply in_map_iff in J. destruct J as (w & E & J). injection E as <- <-. apply in_zrange in I. apply in_zrange in J. tauto.
  - intros (H1 & H2). exists y. split; [apply in_zrange; exact H2|]. apply in_map_iff. exists x. split; [reflexivity|apply in_zrange; exact H1].
Qed.
Lemma sorted_nodup l : StronglySorted before l -> NoDup l.
Proof.
  intros S. induction S as [|q l S IH F]; [constructor|]. constructor; [|exact IH]. intros I. rewrite Forall_forall in F. destruct (F q I) as [H|H]; lia.
Qed.
Lemma order_ok x1 y1 x2 y2 x3 y3 : NoDup (copy_order x1 y1 x2 y2 x3 y3) /\ in_time x1 y1 x3 y3 (copy_order x1 y1 x2 y2 x3 y3) /\
  forall x y, In (x, y) (copy_order x1 y1 x2 y2 x3 y3) <-> x1 <= x <= x2 /\ y1 <= y <= y2.
Proof.
  unfold copy_order. fold (rect x1 y1 x2 y2). assert (S := sorted_rect x1 y1 x2 y2). assert (N := sorted_nodup _ S).
  destruct ((y3 <? y1) || ((y3 =? y1) && (x3 <? x1))) eqn:O.
  - split; [exact N|]. split; [|intros; apply in_rect]. intros a q b q' E I. rewrite E in S. assert (B := sorted_split before a q b q' S I).
    destruct q as [u v], q' as [u' v']. unfold before in B. cbn [fst snd] in *. intros M. injection M as M1 M2. lia.
  - split; [apply NoDup_rev; exact N|]. split; [|intros; rewrite <- in_rev; apply in_rect].
    intros a q b q' E I. assert (E' : rect x1 y1 x2 y2 = rev b ++ q :: rev a).
    { rewrite <- (rev_involutive (rect x1 y1 x2 y2)), E, rev_app_distr. cbn [rev]. rewrite <- app_assoc. reflexivity. }
    rewrite E' in S. replace (q :: rev a) with ([q] ++ rev a) in S by reflexivity. rewrite app_assoc in S.
    assert (B : before q q').
    { apply in_rev in I. destruct (in_split _ _ I) as (c & d & CD). rewrite CD in S. rewrite app_assoc in S. apply (sorted_split before _ q' d q S).
      apply in_or_app. left. apply in_or_app. right. left. reflexivity. }
    destruct q as [u v], q' as [u' v']. unfold before in B. cbn [fst snd] in *. intros M. injection M as M1 M2. lia.
Qed.

(** GCOPY puts the old colours of the source rectangle (0 outside the page) on the rectangle that starts at
    (x3, y3), whatever the overlap; colour 0 is left out when the mode is 0; nothing else changes. *)
Theorem C57_gcopy : forall g sp x1 y1 x2 y2 x3 y3 mode, well g ->
  let src := match sp with None => target g | Some p => whole p end in
  0 <= src <= 3 ->
  exists h, cmd_gcopy g sp x1 y1 x2 y2 x3 y3 mode = (h, Done) /\ same_settings g h /\
  forall n x y, 0 <= n <= 3 -> 0 <= x < 256 -> 0 <= y < 192 ->
    let sx := x - whole x3 + Z.min (whole x1) (whole x2) in
    let sy := y - whole y3 + Z.min (whole y1) (whole y2) in
    let v := Z.max 0 (colour_at g src sx sy) in
    let copied := n = target g /\ sx <= Z.max (whole x1) (whole x2) /\ whole x3 <= x /\ sy <= Z.max (whole y1) (whole y2) /\ whole y3 <= y /\
                  (whole mode = 0 -> v <> 0) in
    (copied -> colour_at h n x y = v) /\ (~ copied -> colour_at h n x y = colour_at g n x y).
Proof.
  intros g sp x1 y1 x2 y2 x3 y3 mode W src HS.
  assert (D := well_draw g W).
  set (a := Z.min (whole x1) (whole x2)). set (b := Z.max (whole x1) (whole x2)). set (c := Z.min (whole y1) (whole y2)). set (d := Z.max (whole y1) (whole y2)).
  set (l := copy_order a c b d (whole x3) (whole y3)). set (m := negb (whole mode =? 0)).
  assert (E : cmd_gcopy g sp x1 y1 x2 y2 x3 y3 mode = (mkG (screen g) (color g) (drawmode g) (drawpage g) (displaypage g) (prio g)
      (fold_left (copy_one src (target g) m a c (whole x3) (whole y3)) l (pages g)), Done)).
  { unfold cmd_gcopy. change (FP_TO_INT x1) with (whole x1). change (FP_TO_INT x2) with (whole x2). change (FP_TO_INT y1) with (whole y1). change (FP_TO_INT y2) with (whole y2).
    change (FP_TO_INT x3) with (whole x3). change (FP_TO_INT y3) with (whole y3). change (FP_TO_INT mode) with (whole mode).
    replace (if whole x1 >? whole x2 then (whole x2, whole x1) else (whole x1, whole x2)) with (a, b) by (unfold a, b; destruct (whole x1 >? whole x2) eqn:X; f_equal; lia).
    replace (if whole y1 >? whole y2 then (whole y2, whole y1) else (whole y1, whole y2)) with (c, d) by (unfold c, d; destruct (whole y1 >? whole y2) eqn:X; f_equal; lia).
    unfold src. destruct sp as [p|]; [|reflexivity]. unfold in_range. cbn [src] in HS. rewrite (proj2 (int_range_some p 0 3 (whole p))) by (split; [reflexivity|exact HS]). reflexivity. }
  eexists. split; [exact E|]. split; [repeat split; reflexivity|].
  intros n x y Hn Hx Hy sx sy v copied.
  destruct (order_ok a c b d (whole x3) (whole y3)) as (N & T & I). fold l in N, T, I.
  destruct (fold_px src (target g) m a c (whole x3) (whole y3) l (pages g) n x y N (fun _ => T) Hx Hy) as (F1 & F2).
  fold sx sy in F1, F2.
  assert (V : source_value src (pages g) (sx, sy) = v).
  { unfold source_value, v. cbn [fst snd]. destruct (on_page sx sy) eqn:O.
    - apply on_page_iff in O. assert (B := well_px g src sx sy W HS (proj1 O) (proj2 O)). rewrite colour_on by tauto. lia.
    - apply on_page_not in O. rewrite colour_off by assumption. reflexivity. }
  assert (VB : 0 <= v <= 255).
  { unfold v. destruct (on_page sx sy) eqn:O.
    - apply on_page_iff in O. assert (B := well_px g src sx sy W HS (proj1 O) (proj2 O)). rewrite colour_on by tauto. lia.
    - apply on_page_not in O. rewrite colour_off by assumption. lia. }
  assert (EQ : n = target g /\ In (sx, sy) l /\ (m = true \/ source_value src (pages g) (sx, sy) <> 0) <-> copied).
  { rewrite I, V. unfold copied, m, sx, sy. fold a b c d. split.
    - intros (H1 & H2 & H3). split; [exact H1|]. split; [lia|]. split; [lia|]. split; [lia|]. split; [lia|]. intros H4. destruct H3 as [H3|H3]; [exfalso; lia|exact H3].
    - intros (H1 & H2 & H3 & H4 & H5 & H6). split; [exact H1|]. split; [lia|]. destruct (Z.eq_dec (whole mode) 0) as [Z0|Z0]; [right; apply H6, Z0|left; lia]. }
  split; intros H.
  - apply EQ in H. apply F1 in H. rewrite V in H. rewrite colour_on; [exact H|assumption..|]. cbn [pages]. rewrite H. exact VB.
  - apply colour_congr. intros _ _. cbn [pages]. apply F2. intros X. apply H, EQ, X.
Qed.
Theorem C57_page_range : forall g p x1 y1 x2 y2 x3 y3 mode, ~ (0 <= whole p <= 3) -> cmd_gcopy g (Some p) x1 y1 x2 y2 x3 y3 mode = (g, Raised ERR_OUT_OF_RANGE).
Proof. intros. unfold cmd_gcopy, in_range. rewrite (proj2 (int_range_none p 0 3)) by assumption. reflexivity. Qed.
(** overlapping copies, one to the right *)
Example C57_gcopy_ok :
  let g := mkG 0 15 false (fun s => s) (fun s => s) (fun _ => 3) (fun _ i => if i <? 8 then i + 1 else 0) in
  well g /\ exists h, cmd_gcopy g None 0 0 (5 * 4096) 0 (1 * 4096) 0 0 = (h, Done) /\
  map (fun x => colour_at g 0 x 0) [0; 1; 2; 3; 4; 5; 6; 7] = [1; 2; 3; 4; 5; 6; 7; 8] /\
  map (fun x => colour_at h 0 x 0) [0; 1; 2; 3; 4; 5; 6; 7] = [1; 1; 2; 3; 4; 5; 6; 8].
Proof.
  split.
  - repeat split; cbn [screen color drawpage displaypage prio pages]; try lia; destruct (i <? 8) eqn:E; lia.
  - eexists. split; [reflexivity|]. split; vm_compute; reflexivity.
Qed.

Print Assumptions C57_gcopy.
Print Assumptions C57_page_range.
