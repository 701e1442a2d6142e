(** C26, C27, C51: the background layers. *)
From Verif Require Import Base BaseLemmas Strs NumText Background BackgroundProofs.

(** BGPUT changes exactly one cell (coordinates wrap at 64) of one layer, to the given tile. *)
Theorem C26_put_read : forall s layer x y t td, wf s -> layer = 0 \/ layer = 1 -> tiledata t = Ok td ->
  exists s', cmd_bgput s layer x y t = Ok s' /\ wf s' /\ page s' = page s /\
    forall layer' x' y', layer' = 0 \/ layer' = 1 ->
      bgread_word s' layer' x' y' =
        if (layer' =? layer) && (x' mod 64 =? x mod 64) && (y' mod 64 =? y mod 64) then Ok td else bgread_word s layer' x' y'.
Proof. exact put_read. Qed.
(** The same tile given as character, palette and flips reads back as these. *)
Theorem C26_parts_round_trip : forall s layer x y c p h v, wf s -> layer = 0 \/ layer = 1 ->
  0 <= c <= 1023 -> 0 <= p <= 15 -> 0 <= h <= 1 -> 0 <= v <= 1 ->
  exists s', cmd_bgput s layer x y (TParts c p h v) = Ok s' /\
    bgread_parts s' layer x y = Ok (c * 4096, p * 4096, h * 4096, v * 4096).
Proof.
  intros s layer x y c p h v Ws Hl Hc Hp Hh Hv. destruct (tiledata_parts c p h v Hc Hp Hh Hv) as [T R].
  destruct (put_read s layer x y _ _ Ws Hl T) as (s' & E & _ & _ & P). exists s'. split; [exact E|].
  unfold bgread_parts. rewrite P by exact Hl. rewrite !Z.eqb_refl. cbn [andb bind].
  destruct (parts_of c p h v Hc Hp Hh Hv) as (-> & -> & -> & ->).
  rewrite !INT_TO_FP_exact by (change (2 ^ 19) with 524288; lia). reflexivity.
Qed.
(** A tile read as text and put back as text, on any layer and page, is the same tile; same for numbers. *)
Theorem C26_text_round_trip : forall s layer x y ds w s2 layer2 x2 y2, bgread_word s layer x y = Ok w -> 0 <= w < 65536 ->
  bgread_str s layer x y = Ok ds -> wf s2 -> layer2 = 0 \/ layer2 = 1 ->
  (exists s', cmd_bgput s2 layer2 x2 y2 (TStr (map to_wide ds)) = Ok s' /\ bgread_word s' layer2 x2 y2 = Ok w) /\
  (exists s', cmd_bgput s2 layer2 x2 y2 (TNum (FP_TO_INT (INT_TO_FP w))) = Ok s' /\ bgread_num s' layer2 x2 y2 = Ok (w * 4096)) /\
  bgread_num s layer x y = Ok (w * 4096).
Proof.
  intros s layer x y ds w s2 layer2 x2 y2 E R D Ws Hl. unfold bgread_str in D. rewrite E in D. cbn [bind] in D. injection D as <-.
  pose proof (INT_TO_FP_exact w ltac:(change (2 ^ 19) with 524288; lia)) as F.
  split; [|split].
  - destruct (put_read s2 layer2 x2 y2 _ _ Ws Hl (hex_word w R)) as (s' & E' & _ & _ & P). exists s'. split; [exact E'|].
    rewrite P by exact Hl. rewrite !Z.eqb_refl. reflexivity.
  - destruct (put_read s2 layer2 x2 y2 (TNum (FP_TO_INT (INT_TO_FP w))) w Ws Hl) as (s' & E' & _ & _ & P).
    { unfold tiledata. rewrite F. unfold FP_TO_INT. f_equal. lia. }
    exists s'. split; [exact E'|]. unfold bgread_num. rewrite P by exact Hl. rewrite !Z.eqb_refl. cbn [andb bind]. rewrite F. reflexivity.
  - unfold bgread_num. rewrite E. cbn [bind]. rewrite F. reflexivity.
Qed.
(** The 64x64 coordinates and the 4096 words of a layer correspond one to one. *)
Theorem C26_one_to_one :
  (forall x y, 0 <= x < 64 -> 0 <= y < 64 -> 0 <= bg_index x y < 4096) /\
  (forall x y x' y', 0 <= x < 64 -> 0 <= y < 64 -> 0 <= x' < 64 -> 0 <= y' < 64 -> bg_index x y = bg_index x' y' -> x = x' /\ y = y') /\
  (forall i, 0 <= i < 4096 -> exists x y, 0 <= x < 64 /\ 0 <= y < 64 /\ bg_index x y = i).
Proof.
  split; [intros; apply bg_index_range; split; lia|]. split.
  - intros x y x' y' A B C D. apply bg_index_inj; split; lia.
  - intros i R. destruct (bg_index_onto i R) as (x & y & [A B] & G). eauto.
Qed.
(** The two pages and two layers are four distinct banks; BGPAGE only switches. *)
Theorem C26_layers_distinct : forall s p1 p2 l1 l2 s1 s2, wf s -> (l1 = 0 \/ l1 = 1) -> (l2 = 0 \/ l2 = 1) ->
  cmd_bgpage s p1 = Ok s1 -> cmd_bgpage s p2 = Ok s2 ->
  scr s1 = scr s /\ wf s1 /\ (bg_page s1 l1 < 8)%nat /\ (bg_page s1 l1 = bg_page s2 l2 -> p1 = p2 /\ l1 = l2).
Proof.
  intros s p1 p2 l1 l2 s1 s2 Ws H1 H2 E1 E2. unfold cmd_bgpage in *.
  destruct ((p1 <? 0) || (1 <? p1)) eqn:A1; [discriminate E1|]. destruct ((p2 <? 0) || (1 <? p2)) eqn:A2; [discriminate E2|].
  injection E1 as <-. injection E2 as <-. split; [reflexivity|]. unfold wf in *. cbn [page scr]. unfold bg_page, SCR_BANKS. cbn [page].
  split; [intuition lia|]. split; [lia|]. intros Q. lia.
Qed.
(** Arguments out of range are an error (and an error changes nothing). *)
Theorem C26_bad_arguments : forall s layer x y c p h v, 
  (~ (layer = 0 \/ layer = 1) -> forall t, cmd_bgput s layer x y t = Err ERR_OUT_OF_RANGE /\ bgread_word s layer x y = Err ERR_OUT_OF_RANGE) /\
  (~ (0 <= c <= 1023 /\ 0 <= p <= 15 /\ 0 <= h <= 1 /\ 0 <= v <= 1) -> cmd_bgput s layer x y (TParts c p h v) = Err ERR_OUT_OF_RANGE).
Proof.
  intros. unfold cmd_bgput, bgread_word, tiledata. split; intros G; [|].
  - replace (bad_layer layer) with true by (unfold bad_layer; lia). auto.
  - destruct (bad_layer layer); [reflexivity|]. replace (_ || _) with true by lia. reflexivity.
Qed.

(** BGFILL: exactly the rectangle between the two (clamped) corners, in any order. *)
Theorem C27_fill : forall s layer x1 y1 x2 y2 t td, wf s -> layer = 0 \/ layer = 1 -> tiledata t = Ok td ->
  let cl v := Z.max 0 (Z.min v 63) in
  exists s', cmd_bgfill s layer x1 y1 x2 y2 t = Ok s' /\ wf s' /\ page s' = page s /\
    forall layer' x y, layer' = 0 \/ layer' = 1 -> 0 <= x < 64 -> 0 <= y < 64 ->
      bgread_word s' layer' x y =
        if (layer' =? layer) && (Z.min (cl x1) (cl x2) <=? x) && (x <=? Z.max (cl x1) (cl x2))
           && (Z.min (cl y1) (cl y2) <=? y) && (y <=? Z.max (cl y1) (cl y2))
        then Ok td else bgread_word s layer' x y.
Proof.
  intros s layer x1 y1 x2 y2 t td Ws Hl Ht cl. destruct (fill_read s layer x1 y1 x2 y2 t td Ws Hl Ht) as (s' & E & W' & Q & P).
  exists s'. split; [exact E|]. split; [exact W'|]. split; [exact Q|]. intros layer' x y A B C. rewrite P by auto. rewrite !clamp63_spec. reflexivity.
Qed.
(** BGCOPY when the destination rectangle lies inside the 64x64 layer: the source as it was before,
    also when the two overlap. Missing: destinations that stick out (see the refutation). *)
Theorem C27_copy_partial : forall s layer x1 y1 x2 y2 x3 y3, wf s -> layer = 0 \/ layer = 1 ->
  let cl v := Z.max 0 (Z.min v 63) in
  let a := Z.min (cl x1) (cl x2) in let b := Z.max (cl x1) (cl x2) in
  let c := Z.min (cl y1) (cl y2) in let d := Z.max (cl y1) (cl y2) in
  let u := cl x3 in let v := cl y3 in
  u + (b - a) <= 63 -> v + (d - c) <= 63 ->
  exists s', cmd_bgcopy s layer x1 y1 x2 y2 x3 y3 = Ok s' /\ wf s' /\ page s' = page s /\
    forall layer' x y, layer' = 0 \/ layer' = 1 -> 0 <= x < 64 -> 0 <= y < 64 ->
      bgread_word s' layer' x y =
        if (layer' =? layer) && (u <=? x) && (x <=? u + (b - a)) && (v <=? y) && (y <=? v + (d - c))
        then bgread_word s layer' (x - u + a) (y - v + c) else bgread_word s layer' x y.
Proof.
  intros s layer x1 y1 x2 y2 x3 y3 Ws Hl cl. pose proof (copy_read s layer x1 y1 x2 y2 x3 y3 Ws Hl) as G. cbv zeta in G. rewrite !clamp63_spec in G. exact G.
Qed.
(** Otherwise BGCOPY changes cells outside the destination columns, or writes outside the layer's memory. *)
Theorem C27_copy_outside_refuted :
  (exists s s', wf s /\ cmd_bgcopy s 0 0 0 10 0 60 0 = Ok s' /\ bgread_word s 0 0 32 = Ok 0 /\ bgread_word s' 0 0 32 = Ok 7) /\
  (exists s, wf s /\ cmd_bgcopy s 0 0 0 10 0 60 63 = UB).
Proof.
  split.
  - assert (E : exists s, cmd_bgput init_bg 0 4 0 (TNum 7) = Ok s /\ wf s).
    { destruct (put_read init_bg 0 4 0 (TNum 7) 7 wf_init (or_introl eq_refl) eq_refl) as (s & G & Q & _). eauto. }
    destruct E as (s & E & Q). exists s. 
    assert (G : match cmd_bgput init_bg 0 4 0 (TNum 7) with Ok s => match cmd_bgcopy s 0 0 0 10 0 60 0 with Ok s' =>
        match bgread_word s 0 0 32, bgread_word s' 0 0 32 with Ok a, Ok b => (a =? 0) && (b =? 7) | _, _ => false end | _ => false end | _ => false end = true)
      by (vm_compute; reflexivity).
    rewrite E in G. destruct (cmd_bgcopy s 0 0 0 10 0 60 0) as [s'| |]; try discriminate G. exists s'.
    destruct (bgread_word s 0 0 32) as [n| |]; try discriminate G. destruct (bgread_word s' 0 0 32) as [m| |]; try discriminate G.
    split; [exact Q|]. split; [reflexivity|]. split; f_equal; lia.
  - exists init_bg. split; [exact wf_init|vm_compute; reflexivity].
Qed.

(** BGOFS with a time: the layer moves by the same step every frame, and the motion ends after t frames;
    every frame is at most t-1 units of 1/4096 behind the exact linear path. *)
Theorem C51_bgofs_partial : forall s layer x y t s', wf s -> layer = 0 \/ layer = 1 -> 0 < t ->
  cmd_bgofs s layer x y (Some t) = Ok s' ->
  forall n, Z.of_nat n <= t ->
  let b := get_ofs s layer in let b' := get_ofs (Nat.iter n step_background s') layer in
  ox b' = ox b + Z.of_nat n * Z.quot (x - ox b) t /\ oy b' = oy b + Z.of_nat n * Z.quot (y - oy b) t /\ time b' = t - Z.of_nat n /\
  (n = Z.to_nat t -> Z.abs (x - ox b') < t /\ Z.abs (y - oy b') < t).
Proof. exact bgofs_path. Qed.
(** It arrives exactly when t divides the distance. *)
Theorem C51_bgofs_exact_partial : forall s layer x y t s', wf s -> layer = 0 \/ layer = 1 -> 0 < t ->
  cmd_bgofs s layer x y (Some t) = Ok s' -> (x - ox (get_ofs s layer)) mod t = 0 -> (y - oy (get_ofs s layer)) mod t = 0 ->
  forall n, (Z.to_nat t <= n)%nat -> let b' := get_ofs (Nat.iter n step_background s') layer in ox b' = x /\ oy b' = y /\ time b' = 0.
Proof. exact bgofs_exact. Qed.
(** Not otherwise: BGOFS 0,1,0,3 from the origin stops at 4095/4096 for ever. *)
Theorem C51_bgofs_exact_refuted : exists s', cmd_bgofs init_bg 0 4096 0 (Some 3) = Ok s' /\
  forall n, (3 <= n)%nat -> ox (get_ofs (Nat.iter n step_background s') 0) = 4095.
Proof.
  eexists. split; [reflexivity|]. intros n Hn. replace n with ((n - 3) + 3)%nat by lia. rewrite iter_add. cbn [Nat.iter nat_rect].
  rewrite iter_ofs. rewrite step_ofs_stop by reflexivity. reflexivity.
Qed.
(** Without a time (or with 0) the offset is set at once. *)
Theorem C51_bgofs_now : forall s layer x y t s', wf s -> layer = 0 \/ layer = 1 -> t = None \/ t = Some 0 ->
  cmd_bgofs s layer x y t = Ok s' -> ox (get_ofs s' layer) = x /\ oy (get_ofs s' layer) = y /\ func_bgchk s' layer = Ok 0 /\
  scr s' = scr s /\ forall l', l' = 0 \/ l' = 1 -> l' <> layer -> get_ofs s' l' = get_ofs s l'.
Proof. exact bgofs_now. Qed.

(** Every state reached by any sequence of background commands from the start is well formed, so the
    theorems above apply to it. *)
Theorem C26_reachable : forall cs s, bg_run init_bg cs = Ok s -> wf s /\ Forall (Forall (fun w => 0 <= w < 65536)) (scr s).
Proof. intros cs s E. eapply bg_run_wf; [|exact E]. split; [exact wf_init|]. apply words_init. Qed.

Example C26_example : wf init_bg /\ tiledata (TParts 1023 15 1 0) = Ok 63487 /\ tiledata (TStr (map to_wide [65;66;67;68])) = Ok 43981.
Proof. split; [exact wf_init|]. split; vm_compute; reflexivity. Qed.
Example C27_copy_example : (* an overlapping copy *)
  let cl v := Z.max 0 (Z.min v 63) in cl 5 + (cl 20 - cl 3) <= 63 /\ cl 1 + (cl 9 - cl 0) <= 63.
Proof. cbn. lia. Qed.
Example C51_example : exists s', cmd_bgofs init_bg 1 40960 (-4096) (Some 8) = Ok s' /\ (40960 - ox (get_ofs init_bg 1)) mod 8 = 0.
Proof. eexists. split; reflexivity. Qed.
Print Assumptions C26_put_read.
Print Assumptions C26_parts_round_trip.
Print Assumptions C26_text_round_trip.
Print Assumptions C26_one_to_one.
Print Assumptions C26_layers_distinct.
Print Assumptions C26_bad_arguments.
Print Assumptions C27_fill.
Print Assumptions C27_copy_partial.
Print Assumptions C27_copy_outside_refuted.
Print Assumptions C51_bgofs_partial.
Print Assumptions C51_bgofs_exact_partial.
Print Assumptions C51_bgofs_now.
Print Assumptions C26_reachable.
