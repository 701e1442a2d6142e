From Coq Require Import Sorted.
From Verif Require Import Base BaseLemmas Strs NumText NumTextSpec NumTextProofs Background.
Open Scope Z_scope.
Ltac Zify.zify_post_hook ::= Z.div_mod_to_equations.

Definition wf (s : bg) : Prop :=
  (page s = 0 \/ page s = 1) /\ length (scr s) = 8%nat /\ Forall (fun l => length l = Z.to_nat 4096) (scr s) /\ length (ofs s) = 4%nat.
Definition layer_ok (l : Z) : Prop := l = 0 \/ l = 1.
Definition tile_xy (x y : Z) : Prop := 0 <= x < 64 /\ 0 <= y < 64.

Lemma bg_index_range x y : tile_xy x y -> 0 <= bg_index x y < 4096.
Proof. unfold tile_xy, bg_index, BG_WIDTH. change (64 / 32) with 2. lia. Qed.
Lemma bg_index_inj x y x' y' : tile_xy x y -> tile_xy x' y' -> bg_index x y = bg_index x' y' -> x = x' /\ y = y'.
Proof. unfold tile_xy, bg_index, BG_WIDTH. change (64 / 32) with 2. lia. Qed.
Lemma bg_index_onto i : 0 <= i < 4096 -> exists x y, tile_xy x y /\ bg_index x y = i.
Proof.
  intros H. exists ((i / 1024) mod 2 * 32 + i mod 32), (i / 2048 * 32 + (i / 32) mod 32).
  unfold tile_xy, bg_index, BG_WIDTH. change (64 / 32) with 2. lia.
Qed.

Lemma bank_length s l : wf s -> layer_ok l -> length (bank s l) = Z.to_nat 4096.
Proof.
  intros (P & L & F & _) Hl. unfold bank. rewrite Forall_forall in F. apply F. apply nth_In.
  unfold bg_page, SCR_BANKS. destruct P as [-> | ->], Hl as [-> | ->]; rewrite L; cbn; lia.
Qed.
Lemma bg_page_lt s l : wf s -> layer_ok l -> (bg_page s l < length (scr s))%nat.
Proof. intros (P & L & F & _) Hl. unfold bg_page, SCR_BANKS. destruct P as [-> | ->], Hl as [-> | ->]; rewrite L; cbn; lia. Qed.
Lemma bank_set s l l' v : wf s -> layer_ok l -> layer_ok l' -> bank (set_bank s l v) l' = if l =? l' then v else bank s l'.
Proof.
  intros Ws Hl Hl'. unfold bank, set_bank. cbn [scr]. unfold bg_page at 1. cbn [page]. fold (bg_page s l').
  destruct (l =? l') eqn:E.
  - replace l' with l by lia. apply nth_upd_same. apply bg_page_lt; auto.
  - apply nth_upd_other. unfold bg_page, SCR_BANKS. destruct Ws as ([-> | ->] & _), Hl as [-> | ->], Hl' as [-> | ->]; cbn; lia.
Qed.
Lemma Forall_upd'' {A} (P : A -> Prop) l i x : Forall P l -> P x -> Forall P (upd l i x).
Proof. intros H Hx. revert i. induction H; intros [|i]; simpl; constructor; auto. Qed.
Lemma wf_set s l v : wf s -> length v = Z.to_nat 4096 -> wf (set_bank s l v).
Proof.
  intros (P & L & F & O) Hv. unfold wf, set_bank. cbn [page scr ofs]. rewrite upd_length. repeat split; auto. apply Forall_upd''; auto.
Qed.
Lemma bad_layer_ok l : layer_ok l -> bad_layer l = false.
Proof. intros [-> | ->]; reflexivity. Qed.

(** the tile at a cell *)
Definition cell (s : bg) (layer x y : Z) : Z := nth (Z.to_nat (bg_index x y)) (bank s layer) 0.
Lemma read_cell s layer x y : layer_ok layer -> bgread_word s layer x y = Ok (cell s layer (x mod 64) (y mod 64)).
Proof.
  intros Hl. unfold bgread_word. rewrite bad_layer_ok by exact Hl. unfold peek, cell.
  pose proof (bg_index_range (x mod 64) (y mod 64) ltac:(unfold tile_xy; lia)). replace (_ && _) with true by lia. reflexivity.
Qed.

Lemma poke_cell l x y v : length l = Z.to_nat 4096 -> tile_xy x y ->
  exists l', poke l (bg_index x y) v = Ok l' /\ length l' = Z.to_nat 4096 /\
    forall x' y', tile_xy x' y' -> nth (Z.to_nat (bg_index x' y')) l' 0 = if (x' =? x) && (y' =? y) then v else nth (Z.to_nat (bg_index x' y')) l 0.
Proof.
  intros L T. pose proof (bg_index_range x y T). unfold poke. replace (_ && _) with true by lia. eexists. split; [reflexivity|].
  rewrite upd_length. split; [exact L|]. intros x' y' T'. pose proof (bg_index_range x' y' T').
  destruct ((x' =? x) && (y' =? y)) eqn:E.
  - replace x' with x by lia. replace y' with y by lia. apply nth_upd_same. rewrite L. lia.
  - apply nth_upd_other. intros Q. assert (Q' : bg_index x y = bg_index x' y') by lia. apply bg_index_inj in Q'; auto. lia.
Qed.

Lemma zrange_in a b z : In z (zrange a b) <-> a <= z <= b.
Proof.
  unfold zrange. rewrite in_map_iff. split.
  - intros (i & <- & I). apply in_seq in I. lia.
  - intros Hz. exists (Z.to_nat (z - a)). rewrite in_seq. lia.
Qed.
Lemma coords_in x1 y1 x2 y2 x y : In (x, y) (coords x1 y1 x2 y2) <-> x1 <= x <= x2 /\ y1 <= y <= y2.
Proof.
  unfold coords. rewrite in_flat_map. split.
  - intros (y' & Y & I). apply in_map_iff in I. destruct I as (x' & E & X). injection E as <- <-. rewrite zrange_in in *. auto.
  - intros [X Y]. exists y. rewrite zrange_in. split; [exact Y|]. apply in_map_iff. exists x. split; [reflexivity|apply zrange_in; exact X].
Qed.

Lemma fill_loop_spec cs td : forall l, length l = Z.to_nat 4096 -> (forall x y, In (x, y) cs -> tile_xy x y) ->
  exists l', fill_loop l cs td = Ok l' /\ length l' = Z.to_nat 4096 /\
    forall x y, tile_xy x y -> (In (x, y) cs -> nth (Z.to_nat (bg_index x y)) l' 0 = td) /\
      (~ In (x, y) cs -> nth (Z.to_nat (bg_index x y)) l' 0 = nth (Z.to_nat (bg_index x y)) l 0).
Proof.
  induction cs as [|[x0 y0] t IH]; intros l L C.
  - exists l. split; [reflexivity|]. split; [exact L|]. intros x y _. split; [intros []|reflexivity].
  - cbn [fill_loop]. destruct (poke_cell l x0 y0 td L (C x0 y0 (or_introl eq_refl))) as (l1 & -> & L1 & P1). cbn [bind].
    destruct (IH l1 L1 ltac:(intros; apply C; right; assumption)) as (l' & E & L' & P'). exists l'. split; [exact E|]. split; [exact L'|].
    intros x y T. destruct (P' x y T) as [Q1 Q2].
    assert (D : In (x, y) t \/ ~ In (x, y) t).
    { destruct (in_dec (fun a b : Z * Z => ltac:(decide equality; apply Z.eq_dec)) (x, y) t); auto. }
    split.
    + intros I. destruct D as [D|D]; [auto|]. rewrite Q2 by exact D. rewrite P1 by exact T.
      destruct I as [I|I]; [|tauto]. injection I as -> ->. rewrite !Z.eqb_refl. reflexivity.
    + intros I. rewrite Q2 by (intro; apply I; right; assumption). rewrite P1 by exact T.
      destruct ((x =? x0) && (y =? y0)) eqn:E0; [|reflexivity]. exfalso. apply I. left. f_equal; lia.
Qed.

(** copying in an order in which no source is overwritten before it is read *)
Lemma copy_loop_spec cs dx dy : forall l, length l = Z.to_nat 4096 ->
  (forall x y, In (x, y) cs -> tile_xy x y /\ tile_xy (x + dx) (y + dy)) ->
  ForallOrdPairs (fun a b => (fst b, snd b) <> (fst a + dx, snd a + dy)) cs -> NoDup cs ->
  exists l', copy_loop l cs dx dy = Ok l' /\ length l' = Z.to_nat 4096 /\
    forall x y, tile_xy x y ->
      (In (x - dx, y - dy) cs -> nth (Z.to_nat (bg_index x y)) l' 0 = nth (Z.to_nat (bg_index (x - dx) (y - dy))) l 0) /\
      (~ In (x - dx, y - dy) cs -> nth (Z.to_nat (bg_index x y)) l' 0 = nth (Z.to_nat (bg_index x y)) l 0).
Proof.
  induction cs as [|[x0 y0] t IH]; intros l L C O N.
  - exists l. split; [reflexivity|]. split; [exact L|]. intros x y _. split; [intros []|reflexivity].
  - cbn [copy_loop]. destruct (C x0 y0 (or_introl eq_refl)) as [T0 T1].
    inversion O as [|? ? O1 O2]; subst. inversion N as [|? ? N1 N2]; subst. rewrite Forall_forall in O1.
    unfold peek at 1. pose proof (bg_index_range x0 y0 T0). replace ((0 <=? bg_index x0 y0) && (bg_index x0 y0 <? 4096)) with true by lia. cbn [bind].
    destruct (poke_cell l (x0 + dx) (y0 + dy) (nth (Z.to_nat (bg_index x0 y0)) l 0) L T1) as (l1 & -> & L1 & P1). cbn [bind].
    destruct (IH l1 L1 ltac:(intros; apply C; right; assumption) O2 N2) as (l' & E & L' & P'). exists l'. split; [exact E|]. split; [exact L'|].
    intros x y T. destruct (P' x y T) as [Q1 Q2].
    assert (D : In (x - dx, y - dy) t \/ ~ In (x - dx, y - dy) t).
    { destruct (in_dec (fun a b : Z * Z => ltac:(decide equality; apply Z.eq_dec)) (x - dx, y - dy) t); auto. }
    split.
    + intros I. destruct D as [D|D].
      * rewrite Q1 by exact D. destruct (C _ _ (or_intror D)) as [Ts _]. rewrite P1 by exact Ts.
        destruct ((x - dx =? x0 + dx) && (y - dy =? y0 + dy)) eqn:E0; [|reflexivity].
        exfalso. apply (O1 _ D). cbn [fst snd]. f_equal; lia.
      * rewrite Q2 by exact D. rewrite P1 by exact T. destruct I as [I|I]; [|tauto]. injection I as Ex Ey.
        replace ((x =? x0 + dx) && (y =? y0 + dy)) with true by lia. replace (x - dx) with x0 by lia. replace (y - dy) with y0 by lia. reflexivity.
    + intros I. rewrite Q2 by (intro; apply I; right; assumption). rewrite P1 by exact T.
      destruct ((x =? x0 + dx) && (y =? y0 + dy)) eqn:E0; [|reflexivity]. exfalso. apply I. left. f_equal; lia.
Qed.

(** order of the nested loops *)
Definition before (a b : Z * Z) : Prop := snd a < snd b \/ snd a = snd b /\ fst a < fst b.
Lemma OrdPairs_app {A} (R : A -> A -> Prop) l1 l2 : ForallOrdPairs R l1 -> ForallOrdPairs R l2 ->
  (forall a b, In a l1 -> In b l2 -> R a b) -> ForallOrdPairs R (l1 ++ l2).
Proof.
  induction 1 as [|a l F O IH]; intros H2 H; [exact H2|]. cbn. constructor.
  - apply Forall_app. split; [exact F|]. apply Forall_forall. intros b B. apply H; [left; reflexivity|exact B].
  - apply IH; [exact H2|]. intros x y X Y. apply H; [right; exact X|exact Y].
Qed.
Lemma OrdPairs_map {A B} (f : A -> B) (R : B -> B -> Prop) l : ForallOrdPairs (fun a b => R (f a) (f b)) l -> ForallOrdPairs R (map f l).
Proof. induction 1; cbn; constructor; auto. apply Forall_forall. intros b I. apply in_map_iff in I. destruct I as (x & <- & X). rewrite Forall_forall in H. auto. Qed.
Lemma seq_ord n : forall k, ForallOrdPairs lt (seq k n).
Proof. induction n; intros k; cbn; constructor; auto. apply Forall_forall. intros b I. apply in_seq in I. lia. Qed.
Lemma OrdPairs_impl {A} (R S : A -> A -> Prop) l : (forall a b, In a l -> In b l -> R a b -> S a b) -> ForallOrdPairs R l -> ForallOrdPairs S l.
Proof.
  induction 2 as [|a l F O IH]; constructor.
  - rewrite Forall_forall in *. intros b B. apply H; auto; [left; reflexivity|right; exact B].
  - apply IH. intros x y X Y. apply H; right; assumption.
Qed.
Lemma zrange_ord a b : ForallOrdPairs Z.lt (zrange a b).
Proof. unfold zrange. apply OrdPairs_map. eapply OrdPairs_impl; [|apply seq_ord]. cbn. lia. Qed.
Lemma coords_ord x1 y1 x2 y2 : ForallOrdPairs before (coords x1 y1 x2 y2).
Proof.
  unfold coords. generalize (zrange_ord y1 y2). induction (zrange y1 y2) as [|y t IH]; intros O; [constructor|].
  inversion O as [|? ? O1 O2]; subst. cbn [flat_map]. apply OrdPairs_app.
  - apply OrdPairs_map. eapply OrdPairs_impl; [|apply zrange_ord]. intros a b _ _ L. right. cbn. split; [reflexivity|exact L].
  - apply IH. exact O2.
  - intros a b A B. apply in_map_iff in A. destruct A as (xa & <- & _). apply in_flat_map in B. destruct B as (yb & Yb & B).
    apply in_map_iff in B. destruct B as (xb & <- & _). rewrite Forall_forall in O1. left. cbn. apply O1. exact Yb.
Qed.
Lemma OrdPairs_rev {A} (R : A -> A -> Prop) l : ForallOrdPairs R l -> ForallOrdPairs (fun a b => R b a) (rev l).
Proof.
  induction 1 as [|a l F O IH]; cbn; [constructor|]. apply OrdPairs_app; [exact IH|repeat constructor|].
  intros x y X Y. cbn in Y. destruct Y as [<-|[]]. rewrite Forall_forall in F. apply F. apply in_rev. exact X.
Qed.
Lemma OrdPairs_nodup {A} (R : A -> A -> Prop) l : (forall a, ~ R a a) -> ForallOrdPairs R l -> NoDup l.
Proof. intros I. induction 1 as [|a l F O IH]; constructor; auto. intros X. rewrite Forall_forall in F. apply (I a). apply F. exact X. Qed.
Lemma before_irrefl a : ~ before a a.
Proof. unfold before. lia. Qed.

(** * commands *)
Lemma put_read s layer x y t td : wf s -> layer_ok layer -> tiledata t = Ok td ->
  exists s', cmd_bgput s layer x y t = Ok s' /\ wf s' /\ page s' = page s /\
    forall layer' x' y', layer_ok layer' ->
      bgread_word s' layer' x' y' = if (layer' =? layer) && (x' mod 64 =? x mod 64) && (y' mod 64 =? y mod 64) then Ok td else bgread_word s layer' x' y'.
Proof.
  intros Ws Hl Ht. unfold cmd_bgput. rewrite bad_layer_ok by exact Hl. rewrite Ht. cbn [bind].
  destruct (poke_cell (bank s layer) (x mod 64) (y mod 64) td (bank_length _ _ Ws Hl) ltac:(unfold tile_xy; lia)) as (l' & -> & L' & P).
  cbn [bind]. eexists. split; [reflexivity|]. split; [apply wf_set; auto|]. split; [reflexivity|].
  intros layer' x' y' Hl'. rewrite !read_cell by exact Hl'. unfold cell. rewrite bank_set by auto.
  destruct (layer =? layer') eqn:E.
  - replace layer' with layer by lia. rewrite Z.eqb_refl. rewrite P by (unfold tile_xy; lia). cbn [andb].
    destruct (_ && _); reflexivity.
  - replace (layer' =? layer) with false by lia. reflexivity.
Qed.

Lemma tiledata_parts c p h v : 0 <= c <= 1023 -> 0 <= p <= 15 -> 0 <= h <= 1 -> 0 <= v <= 1 ->
  tiledata (TParts c p h v) = Ok (to_tiledata c p h v) /\ 0 <= to_tiledata c p h v < 65536.
Proof. intros. unfold tiledata, to_tiledata. replace (_ || _) with false by lia. split; [reflexivity|lia]. Qed.

Lemma clamp63_range v : 0 <= clamp63 v <= 63.
Proof. unfold clamp63. destruct (v <? 0) eqn:A; [cbn; lia|]. destruct (v >? 63) eqn:B; lia. Qed.

Lemma fill_read s layer x1 y1 x2 y2 t td : wf s -> layer_ok layer -> tiledata t = Ok td ->
  exists s', cmd_bgfill s layer x1 y1 x2 y2 t = Ok s' /\ wf s' /\ page s' = page s /\
    forall layer' x y, layer_ok layer' -> 0 <= x < 64 -> 0 <= y < 64 ->
      bgread_word s' layer' x y =
        if (layer' =? layer) && (Z.min (clamp63 x1) (clamp63 x2) <=? x) && (x <=? Z.max (clamp63 x1) (clamp63 x2))
           && (Z.min (clamp63 y1) (clamp63 y2) <=? y) && (y <=? Z.max (clamp63 y1) (clamp63 y2))
        then Ok td else bgread_word s layer' x y.
Proof.
  intros Ws Hl Ht. unfold cmd_bgfill. rewrite bad_layer_ok by exact Hl. rewrite Ht. cbn [bind].
  pose proof (clamp63_range x1). pose proof (clamp63_range x2). pose proof (clamp63_range y1). pose proof (clamp63_range y2).
  set (a := clamp63 x1) in *. set (b := clamp63 x2) in *. set (c := clamp63 y1) in *. set (d := clamp63 y2) in *.
  replace (if a >? b then (b, a) else (a, b)) with (Z.min a b, Z.max a b) by (destruct (a >? b) eqn:E; f_equal; lia).
  replace (if c >? d then (d, c) else (c, d)) with (Z.min c d, Z.max c d) by (destruct (c >? d) eqn:E; f_equal; lia).
  destruct (fill_loop_spec (coords (Z.min a b) (Z.min c d) (Z.max a b) (Z.max c d)) td (bank s layer) (bank_length _ _ Ws Hl)) as (l' & -> & L' & P).
  { intros x y I. apply coords_in in I. unfold tile_xy. lia. }
  cbn [bind]. eexists. split; [reflexivity|]. split; [apply wf_set; auto|]. split; [reflexivity|].
  intros layer' x y Hl' Hx Hy. rewrite !read_cell by exact Hl'. unfold cell. rewrite bank_set by auto.
  rewrite !(Z.mod_small x), !(Z.mod_small y) by lia.
  destruct (layer =? layer') eqn:E.
  - replace layer' with layer by lia. rewrite Z.eqb_refl. destruct (P x y ltac:(unfold tile_xy; lia)) as [P1 P2]. rewrite coords_in in P1, P2.
    cbn [andb]. destruct (_ && _) eqn:Q; f_equal; [apply P1; lia|apply P2; lia].
  - replace (layer' =? layer) with false by lia. reflexivity.
Qed.

Lemma copy_read s layer x1 y1 x2 y2 x3 y3 : wf s -> layer_ok layer ->
  let a := Z.min (clamp63 x1) (clamp63 x2) in let b := Z.max (clamp63 x1) (clamp63 x2) in
  let c := Z.min (clamp63 y1) (clamp63 y2) in let d := Z.max (clamp63 y1) (clamp63 y2) in
  let u := clamp63 x3 in let v := clamp63 y3 in
  u + (b - a) <= 63 -> v + (d - c) <= 63 ->
  exists s', cmd_bgcopy s layer x1 y1 x2 y2 x3 y3 = Ok s' /\ wf s' /\ page s' = page s /\
    forall layer' x y, layer_ok layer' -> 0 <= x < 64 -> 0 <= y < 64 ->
      bgread_word s' layer' x y =
        if (layer' =? layer) && (u <=? x) && (x <=? u + (b - a)) && (v <=? y) && (y <=? v + (d - c))
        then bgread_word s layer' (x - u + a) (y - v + c) else bgread_word s layer' x y.
Proof.
  intros Ws Hl a b c d u v Hu Hv. unfold cmd_bgcopy. rewrite bad_layer_ok by exact Hl.
  pose proof (clamp63_range x1). pose proof (clamp63_range x2). pose proof (clamp63_range y1). pose proof (clamp63_range y2).
  pose proof (clamp63_range x3). pose proof (clamp63_range y3). fold u v in H3, H4 |- *.
  replace (if clamp63 x1 >? clamp63 x2 then (clamp63 x2, clamp63 x1) else (clamp63 x1, clamp63 x2)) with (a, b) by (unfold a, b; destruct (_ >? _) eqn:E; f_equal; lia).
  replace (if clamp63 y1 >? clamp63 y2 then (clamp63 y2, clamp63 y1) else (clamp63 y1, clamp63 y2)) with (c, d) by (unfold c, d; destruct (_ >? _) eqn:E; f_equal; lia).
  assert (0 <= a /\ b <= 63 /\ 0 <= c /\ d <= 63 /\ a <= b /\ c <= d) by (unfold a, b, c, d; lia).
  set (cs := if (v <? c) || (v =? c) && (u <? a) then coords a c b d else rev (coords a c b d)).
  assert (Cin : forall x y, In (x, y) cs <-> a <= x <= b /\ c <= y <= d).
  { intros x y. unfold cs. destruct (_ || _); [apply coords_in|]. rewrite <- in_rev. apply coords_in. }
  pose proof (coords_ord a c b d) as CO.
  destruct (copy_loop_spec cs (u - a) (v - c) (bank s layer) (bank_length _ _ Ws Hl)) as (l' & -> & L' & P).
  { intros x y I. apply Cin in I. unfold tile_xy. lia. }
  { unfold cs. destruct ((v <? c) || (v =? c) && (u <? a)) eqn:E.
    - eapply OrdPairs_impl; [|exact CO]. intros [p q] [p' q'] _ _ B Q. unfold before in B. cbn in *. injection Q as Q1 Q2. lia.
    - eapply OrdPairs_impl; [|apply OrdPairs_rev; exact CO]. intros [p q] [p' q'] _ _ B Q. unfold before in B. cbn in *. injection Q as Q1 Q2. lia. }
  { unfold cs. destruct (_ || _).
    - eapply OrdPairs_nodup; [|exact CO]. apply before_irrefl.
    - eapply OrdPairs_nodup; [|apply OrdPairs_rev; exact CO]. cbn. intros q. apply before_irrefl. }
  clearbody cs. cbn [bind]. eexists. split; [reflexivity|]. split; [apply wf_set; auto|]. split; [reflexivity|].
  intros layer' x y Hl' Hx Hy. rewrite !read_cell by exact Hl'. unfold cell. rewrite bank_set by auto.
  destruct (layer =? layer') eqn:E.
  - replace layer' with layer by lia. rewrite Z.eqb_refl. cbn [andb]. rewrite !(Z.mod_small x), !(Z.mod_small y) by lia.
    destruct (P x y ltac:(unfold tile_xy; lia)) as [P1 P2]. rewrite Cin in P1, P2.
    destruct (_ && _) eqn:Q.
    + rewrite P1 by lia. rewrite !Z.mod_small by lia. f_equal. f_equal. f_equal. f_equal; lia.
    + rewrite P2 by lia. reflexivity.
  - replace (layer' =? layer) with false by lia. cbn [andb]. reflexivity.
Qed.

(** * reading back in the other forms *)
From Verif Require NumTextSpec NumTextProofs.
Lemma hex_word w : 0 <= w < 65536 ->
  tiledata (TStr (map to_wide [hex_digit (w / 4096); hex_digit ((w / 256) mod 16); hex_digit ((w / 16) mod 16); hex_digit (w mod 16)])) = Ok w.
Proof.
  intros R. unfold tiledata. set (ds := [w / 4096; (w / 256) mod 16; (w / 16) mod 16; w mod 16]).
  change (map to_wide _) with (map to_wide (map NumTextSpec.digit_char ds)).
  assert (N : NumTextSpec.numeral 16 ds = w) by (unfold NumTextSpec.numeral, ds; cbn [NumTextSpec.num_of]; lia).
  pose proof (NumTextProofs.read_based 16 ds [] ltac:(lia)) as G. rewrite app_nil_r in G. unfold u8_to_number in G.
  rewrite G.
  - rewrite N. cbn [bind]. unfold FP_TO_INT. f_equal. lia.
  - unfold NumTextSpec.digits, ds. repeat constructor; lia.
  - lia.
  - exact I.
Qed.

Lemma parts_of c p h v : 0 <= c <= 1023 -> 0 <= p <= 15 -> 0 <= h <= 1 -> 0 <= v <= 1 ->
  let w := to_tiledata c p h v in w mod 1024 = c /\ w / 4096 = p /\ (w / 1024) mod 2 = h /\ (w / 2048) mod 2 = v.
Proof. intros. unfold w, to_tiledata. lia. Qed.

Lemma cell_range_put s layer x y t s' : cmd_bgput s layer x y t = Ok s' -> exists td, tiledata t = Ok td.
Proof. unfold cmd_bgput. destruct (bad_layer layer); [intro W; discriminate W|]. destruct (tiledata t); [eauto| |]; intro W; discriminate W. Qed.

(** * scrolling offsets *)
Lemma step_ofs_n n : forall b, 0 <= time b -> Z.of_nat n <= time b ->
  let b' := Nat.iter n step_ofs b in
  ox b' = ox b + Z.of_nat n * step_x b /\ oy b' = oy b + Z.of_nat n * step_y b /\ time b' = time b - Z.of_nat n /\
  step_x b' = step_x b /\ step_y b' = step_y b.
Proof.
  induction n as [|n IH]; intros b T N; [cbn; lia|].
  destruct (IH b T ltac:(lia)) as (A & B & C & D & F). change (Nat.iter (S n) step_ofs b) with (step_ofs (Nat.iter n step_ofs b)). cbv zeta.
  unfold step_ofs at 1 3 5 7 9. rewrite C. replace (time b - Z.of_nat n >? 0) with true by lia. cbn [ox oy step_x step_y time].
  rewrite A, B, D, F. lia.
Qed.
Lemma clamp63_spec v : clamp63 v = Z.max 0 (Z.min v 63).
Proof. unfold clamp63. destruct (v <? 0) eqn:A; [cbn; lia|]. destruct (v >? 63) eqn:B; lia. Qed.
Lemma wf_init : wf init_bg.
Proof. unfold wf. split; [cbn; lia|]. split; [reflexivity|]. split; [|reflexivity]. cbn [init_bg scr]. apply Forall_forall. intros l I. apply repeat_spec in I. subst. apply repeat_length. Qed.
Lemma iter_add {A} (f : A -> A) n m x : Nat.iter (n + m) f x = Nat.iter n f (Nat.iter m f x).
Proof. induction n as [|n IH]; [reflexivity|]. cbn. f_equal. exact IH. Qed.
Lemma ofs_index s l : wf s -> layer_ok l -> (Z.to_nat (2 * page s + l) < 4)%nat.
Proof. unfold wf, layer_ok. lia. Qed.
Lemma iter_page n s : page (Nat.iter n step_background s) = page s.
Proof. induction n as [|n IH]; [reflexivity|]. cbn. exact IH. Qed.
Lemma iter_ofs n s layer : get_ofs (Nat.iter n step_background s) layer = Nat.iter n step_ofs (get_ofs s layer).
Proof.
  induction n as [|n IH]; [reflexivity|].
  change (Nat.iter (S n) step_background s) with (step_background (Nat.iter n step_background s)).
  change (Nat.iter (S n) step_ofs (get_ofs s layer)) with (step_ofs (Nat.iter n step_ofs (get_ofs s layer))). rewrite <- IH.
  unfold get_ofs at 1. cbn [step_background ofs page]. unfold get_ofs.
  set (d := {| ox := 0; oy := 0; step_x := 0; step_y := 0; time := 0 |}). change d with (step_ofs d) at 1. apply map_nth.
Qed.
Lemma step_ofs_stop n b : time b = 0 -> Nat.iter n step_ofs b = b.
Proof.
  intros T. induction n as [|n IH]; [reflexivity|]. change (Nat.iter (S n) step_ofs b) with (step_ofs (Nat.iter n step_ofs b)).
  rewrite IH. unfold step_ofs. rewrite T. reflexivity.
Qed.

Lemma get_set_ofs s l l' o : wf s -> layer_ok l -> layer_ok l' -> get_ofs (set_ofs s l o) l' = if l =? l' then o else get_ofs s l'.
Proof.
  intros Ws Hl Hl'. unfold get_ofs, set_ofs. cbn [page ofs]. destruct (l =? l') eqn:E.
  - replace l' with l by lia. apply nth_upd_same. destruct Ws as (P & _ & _ & L). unfold layer_ok in *. lia.
  - apply nth_upd_other. destruct Ws as (P & _). unfold layer_ok in *. lia.
Qed.
Lemma bgofs_path : forall s layer x y t s', wf s -> layer = 0 \/ layer = 1 -> 0 < t ->
  cmd_bgofs s layer x y (Some t) = Ok s' ->
  forall n, Z.of_nat n <= t ->
  let b := get_ofs s layer in let b' := get_ofs (Nat.iter n step_background s') layer in
  ox b' = ox b + Z.of_nat n * Z.quot (x - ox b) t /\ oy b' = oy b + Z.of_nat n * Z.quot (y - oy b) t /\ time b' = t - Z.of_nat n /\
  (n = Z.to_nat t -> Z.abs (x - ox b') < t /\ Z.abs (y - oy b') < t).
Proof.
  intros s layer x y t s' Ws Hl Ht E n Hn b b'. unfold cmd_bgofs in E. rewrite bad_layer_ok in E by exact Hl.
  replace (t <? 0) with false in E by lia. replace (t =? 0) with false in E by lia. fold b in E.
  destruct (s32b (x - ox b) && s32b (y - oy b)); [|discriminate E]. injection E as <-.
  unfold b'. rewrite iter_ofs. rewrite get_set_ofs, Z.eqb_refl by auto. clear b'.
  destruct (step_ofs_n n {| ox := ox b; oy := oy b; step_x := Z.quot (x - ox b) t; step_y := Z.quot (y - oy b) t; time := t |}) as (A & B & C & _ & _); cbn [time ox oy step_x step_y] in *; try lia.
  rewrite A, B, C. split; [reflexivity|]. split; [reflexivity|]. split; [reflexivity|].
  intros ->. rewrite Z2Nat.id by lia.
  pose proof (Z.quot_rem' (x - ox b) t). pose proof (Z.rem_bound_abs (x - ox b) t ltac:(lia)).
  pose proof (Z.quot_rem' (y - oy b) t). pose proof (Z.rem_bound_abs (y - oy b) t ltac:(lia)). lia.
Qed.
Lemma bgofs_exact : forall s layer x y t s', wf s -> layer = 0 \/ layer = 1 -> 0 < t ->
  cmd_bgofs s layer x y (Some t) = Ok s' -> (x - ox (get_ofs s layer)) mod t = 0 -> (y - oy (get_ofs s layer)) mod t = 0 ->
  forall n, (Z.to_nat t <= n)%nat -> let b' := get_ofs (Nat.iter n step_background s') layer in ox b' = x /\ oy b' = y /\ time b' = 0.
Proof.
  intros s layer x y t s' Ws Hl Ht E Dx Dy n Hn b'. unfold b'. replace n with ((n - Z.to_nat t) + Z.to_nat t)%nat by lia.
  rewrite iter_add. rewrite iter_ofs.
  destruct (bgofs_path s layer x y t s' Ws Hl Ht E (Z.to_nat t) ltac:(lia)) as (A & B & C & _).
  rewrite step_ofs_stop by lia. rewrite A, B, C. rewrite Z2Nat.id by lia.
  assert (G : forall v, v mod t = 0 -> t * Z.quot v t = v).
  { intros v D. apply Z.mod_divide in D; [|lia]. destruct D as [k ->]. rewrite Z.quot_mul by lia. lia. }
  rewrite !G by assumption. lia.
Qed.
Lemma bgofs_now : forall s layer x y t s', wf s -> layer = 0 \/ layer = 1 -> t = None \/ t = Some 0 ->
  cmd_bgofs s layer x y t = Ok s' -> ox (get_ofs s' layer) = x /\ oy (get_ofs s' layer) = y /\ func_bgchk s' layer = Ok 0 /\
  scr s' = scr s /\ forall l', l' = 0 \/ l' = 1 -> l' <> layer -> get_ofs s' l' = get_ofs s l'.
Proof.
  intros s layer x y t s' Ws Hl Ht E. unfold cmd_bgofs in E. rewrite bad_layer_ok in E by exact Hl.
  destruct Ht as [-> | ->]; cbn [Z.ltb Z.compare Z.eqb] in E; injection E as <-; unfold func_bgchk; rewrite bad_layer_ok by exact Hl;
    rewrite get_set_ofs, Z.eqb_refl by auto; cbn [ox oy time]; (split; [reflexivity|]); (split; [reflexivity|]); (split; [reflexivity|]); (split; [reflexivity|]);
    intros l' Hl' N; rewrite get_set_ofs by auto; replace (layer =? l') with false by lia; reflexivity.
Qed.

(** * every command keeps the state well formed *)
Definition words (s : bg) := Forall (Forall (fun w => 0 <= w < 65536)) (scr s).
Lemma words_init : words init_bg.
Proof. unfold words. cbn [init_bg scr]. apply Forall_forall. intros l I. apply repeat_spec in I. subst. apply Forall_forall. intros w J. apply repeat_spec in J. lia. Qed.
Lemma tiledata_range t td : tiledata t = Ok td -> 0 <= td < 65536.
Proof.
  destruct t as [n|ws|c p h v]; unfold tiledata.
  - intros E. injection E as <-. lia.
  - destruct (str_to_number ws 16 false) as [n| |]; cbn [bind]; intro W; try discriminate W. injection W as <-. lia.
  - destruct (_ || _) eqn:G; intro W; [discriminate W|]. injection W as <-. unfold to_tiledata. lia.
Qed.
Definition okb (l : list Z) := length l = Z.to_nat 4096 /\ Forall (fun w => 0 <= w < 65536) l.
Lemma poke_ok l i v l' : okb l -> 0 <= v < 65536 -> poke l i v = Ok l' -> okb l'.
Proof.
  intros [L F] V. unfold poke. destruct (_ && _); intro W; [|discriminate W]. injection W as <-. split; [rewrite upd_length; exact L|].
  apply Forall_upd''; auto.
Qed.
Lemma peek_ok l i v : okb l -> peek l i = Ok v -> 0 <= v < 65536.
Proof.
  intros [L F]. unfold peek. destruct (_ && _) eqn:G; intro W; [|discriminate W]. injection W as <-.
  rewrite Forall_forall in F. apply F. apply nth_In. rewrite L. lia.
Qed.
Lemma fill_ok cs td : 0 <= td < 65536 -> forall l l', okb l -> fill_loop l cs td = Ok l' -> okb l'.
Proof.
  intros V. induction cs as [|[x y] t IH]; intros l l' O E; cbn [fill_loop] in E; [injection E as <-; exact O|].
  destruct (poke l (bg_index x y) td) as [l1| |] eqn:P; try discriminate E. cbn [bind] in E. eapply IH; [|exact E]. eapply poke_ok; eauto.
Qed.
Lemma copy_ok cs dx dy : forall l l', okb l -> copy_loop l cs dx dy = Ok l' -> okb l'.
Proof.
  induction cs as [|[x y] t IH]; intros l l' O E; cbn [copy_loop] in E; [injection E as <-; exact O|].
  destruct (peek l (bg_index x y)) as [v| |] eqn:Q; try discriminate E. cbn [bind] in E.
  destruct (poke l _ v) as [l1| |] eqn:P; try discriminate E. cbn [bind] in E. eapply IH; [|exact E]. eapply poke_ok; eauto. eapply peek_ok; eauto.
Qed.
Lemma bad_layer_inv l : bad_layer l = false -> layer_ok l.
Proof. unfold bad_layer, layer_ok. lia. Qed.
Lemma bank_okb s l : wf s -> words s -> layer_ok l -> okb (bank s l).
Proof.
  intros Ws V Hl. split; [apply bank_length; auto|]. unfold bank. unfold words in V. rewrite Forall_forall in V. apply V. apply nth_In. apply bg_page_lt; auto.
Qed.
Lemma set_okb s l b : wf s -> words s -> okb b -> wf (set_bank s l b) /\ words (set_bank s l b).
Proof. intros Ws V [L F]. split; [apply wf_set; auto|]. unfold words, set_bank. cbn [scr]. apply Forall_upd''; auto. Qed.
Lemma bg_do_wf s c s' : wf s /\ words s -> bg_do s c = Ok s' -> wf s' /\ words s'.
Proof.
  intros [Ws V]. assert (Z0 : okb (repeat 0 (Z.to_nat 4096))).
  { split; [apply repeat_length|]. apply Forall_forall. intros w J. apply repeat_spec in J. lia. }
  destruct c; cbn [bg_do].
  - unfold cmd_bgpage. destruct (_ || _) eqn:G; intro W; [discriminate W|]. injection W as <-. unfold wf, words in *. cbn [page scr ofs]. intuition lia.
  - unfold cmd_bgclr. destruct l as [l|].
    + destruct (bad_layer l) eqn:G; intro W; [discriminate W|]. injection W as <-. apply set_okb; auto.
    + intro W. injection W as <-. destruct (set_okb s 0 _ Ws V Z0) as [W1 V1]. apply set_okb; auto.
  - unfold cmd_bgput. destruct (bad_layer l) eqn:G; [intro W; discriminate W|]. apply bad_layer_inv in G.
    destruct (tiledata t) as [td| |] eqn:T; try (intro W; discriminate W). cbn [bind].
    destruct (poke _ _ td) as [b| |] eqn:P; intro W; try discriminate W. cbn [bind] in W. injection W as <-.
    apply set_okb; auto. eapply poke_ok; [apply bank_okb; eauto| |exact P]. eapply tiledata_range; eauto.
  - unfold cmd_bgfill. destruct (bad_layer l) eqn:G; [intro W; discriminate W|]. apply bad_layer_inv in G.
    destruct (tiledata t) as [td| |] eqn:T; try (intro W; discriminate W). cbn [bind].
    destruct (if clamp63 x1 >? clamp63 x2 then _ else _) as [a b]. destruct (if clamp63 y1 >? clamp63 y2 then _ else _) as [c d].
    destruct (fill_loop _ _ td) as [bb| |] eqn:P; intro W; try discriminate W. cbn [bind] in W. injection W as <-.
    apply set_okb; auto. eapply fill_ok; [eapply tiledata_range; eauto|apply bank_okb; eauto|exact P].
  - unfold cmd_bgcopy. destruct (bad_layer l) eqn:G; [intro W; discriminate W|]. apply bad_layer_inv in G.
    destruct (if clamp63 x1 >? clamp63 x2 then _ else _) as [a b]. destruct (if clamp63 y1 >? clamp63 y2 then _ else _) as [c d].
    destruct (copy_loop _ _ _ _) as [bb| |] eqn:P; intro W; try discriminate W. cbn [bind] in W. injection W as <-.
    apply set_okb; auto. eapply copy_ok; [apply bank_okb; eauto|exact P].
  - assert (So : forall o, wf (set_ofs s l o) /\ words (set_ofs s l o)).
    { intros o. unfold wf, words, set_ofs in *. cbn [page scr ofs]. rewrite upd_length. tauto. }
    unfold cmd_bgofs. destruct (bad_layer l); [intro W; discriminate W|]. destruct t as [t|]; [|intro W; injection W as <-; apply So].
    destruct (t <? 0); [intro W; discriminate W|]. destruct (t =? 0); [intro W; injection W as <-; apply So|].
    destruct (_ && _); intro W; [injection W as <-; apply So|discriminate W].
  - intro W. injection W as <-. unfold wf, words, step_background in *. cbn [page scr ofs]. rewrite map_length. tauto.
Qed.
Lemma bg_run_wf cs : forall s s', wf s /\ words s -> bg_run s cs = Ok s' -> wf s' /\ words s'.
Proof.
  induction cs as [|c t IH]; intros s s' I E; cbn [bg_run] in E; [injection E as <-; exact I|].
  destruct (bg_do s c) as [s1| |] eqn:D; try discriminate E. cbn [bind] in E. eapply IH; [|exact E]. eapply bg_do_wf; eauto.
Qed.
