From Coq Require Import String Ascii.
From Verif Require Import Base BaseLemmas Strs StrSpec StrProofs Memory Resources ResourcesSpec ResourcesProofs ResourcesProps Background Console Graphics Sprites ChrCol ChrColProps
  Display DisplaySpec DisplayProofs.
Open Scope Z_scope.
Ltac Zify.zify_post_hook ::= Z.div_mod_to_equations.

(* ---------- C75: VISIBLE ---------- *)
(** the six switches are 0, 1 or left out *)
Definition switch (a : vis_arg) : Prop := match a with VNum n => 0 <= FP_TO_INT n <= 1 | VOmitted => True | _ => False end.
Definition chosen (old : Z) (i : nat) (a : vis_arg) : bool :=
  match a with VNum n => FP_TO_INT n =? 1 | _ => Z.testbit old (Z.of_nat i) end.
Lemma visible_loop_ok : forall args i old flags, Forall switch args -> 0 <= i -> i + Z.of_nat (length args) <= 6 -> 0 <= flags < 2 ^ i ->
  exists v, visible_loop args i old flags = (v, None) /\ 0 <= v < 2 ^ (i + Z.of_nat (length args)) /\
    (forall k, 0 <= k < i -> Z.testbit v k = Z.testbit flags k) /\
    (forall k, (k < length args)%nat -> Z.testbit v (i + Z.of_nat k) = chosen old (Z.to_nat i + k) (nth k args VOther)).
Proof.
  induction args as [|a args IH]; intros i old flags F Hi Hl Hf.
  - exists flags. cbn [visible_loop length Z.of_nat]. rewrite Z.add_0_r. repeat split; try lia.
  - inversion F as [|? ? Ha F']; subst. cbn [length] in *.
    assert (Low : forall k, i <= k -> Z.testbit flags k = false).
    { intros k Hk. destruct (Z.eq_dec flags 0) as [->|N]; [apply Z.bits_0|]. apply Z.bits_above_log2; [lia|].
      apply Z.log2_lt_pow2; [lia|]. apply Z.lt_le_trans with (2 ^ i); [lia|]. apply Z.pow_le_mono_r; lia. }
    assert (G : exists fl, visible_loop (a :: args) i old flags = visible_loop args (i + 1) old fl /\ 0 <= fl < 2 ^ (i + 1) /\
              (forall k, 0 <= k < i -> Z.testbit fl k = Z.testbit flags k) /\ Z.testbit fl i = chosen old (Z.to_nat i) a).
    { assert (P : 2 ^ (i + 1) = 2 * 2 ^ i) by (rewrite Z.pow_add_r by lia; lia).
      assert (LB : forall b : bool, Z.lor flags (if b then 2 ^ i else 0) = flags + (if b then 2 ^ i else 0)).
      { intro b. assert (L : Z.land flags (if b then 2 ^ i else 0) = 0).
        { destruct b; [|apply Z.land_0_r]. apply Z.bits_inj'. intros m Hm. rewrite Z.land_spec, Z.bits_0.
          destruct (Z.ltb_spec m i); [rewrite Z.pow2_bits_false by lia; apply andb_false_r|rewrite Low by lia; reflexivity]. }
        rewrite <- Z.lxor_lor by exact L. symmetry. apply Z.add_nocarry_lxor. exact L. }
      assert (Set_ : forall b : bool, exists fl, Z.lor flags (if b then 2 ^ i else 0) = fl /\ 0 <= fl < 2 ^ (i + 1) /\
              (forall k, 0 <= k < i -> Z.testbit fl k = Z.testbit flags k) /\ Z.testbit fl i = b).
      { intro b. eexists. split; [reflexivity|]. split; [rewrite LB; destruct b; lia|]. split.
        - intros k Hk. rewrite Z.lor_spec. destruct b; [rewrite Z.pow2_bits_false by lia|rewrite Z.bits_0]; apply orb_false_r.
        - rewrite Z.lor_spec, Low by lia. destruct b; [apply Z.pow2_bits_true; lia|apply Z.bits_0]. }
      destruct a as [n| | |]; cbn [switch] in Ha; try contradiction.
      - cbn [visible_loop]. unfold int_range. cbv zeta. replace ((FP_TO_INT n <? 0) || (FP_TO_INT n >? 1)) with false by lia.
        cbn [chosen]. destruct (Z.eqb_spec (FP_TO_INT n) 0) as [E|E].
        + destruct (Set_ false) as (fl & E1 & R & K & T). exists fl. rewrite E. change (0 =? 1) with false. repeat split; try assumption; try lia.
          rewrite <- E1. f_equal. rewrite Z.lor_0_r. apply Z.bits_inj'. intros m Hm. rewrite !Z.land_spec.
          destruct (Z.ltb_spec m i).
          * rewrite Z.lnot_spec, Z.shiftl_mul_pow2, Z.mul_1_l, Z.pow2_bits_false by lia.
            change 63 with (Z.ones 6). rewrite Z.ones_spec_low by lia. now rewrite andb_true_r.
          * rewrite Low by lia. reflexivity.
        + assert (E1 : FP_TO_INT n = 1) by lia. rewrite E1. change (1 =? 1) with true.
          destruct (Set_ true) as (fl & E2 & R & K & T). exists fl. repeat split; try assumption; try lia.
          rewrite <- E2. f_equal. now rewrite Z.shiftl_mul_pow2, Z.mul_1_l by lia.
      - cbn [visible_loop chosen]. rewrite Z2Nat.id by lia.
        destruct (Set_ (Z.testbit old i)) as (fl & E2 & R & K & T). exists fl. repeat split; try assumption; try lia.
        rewrite <- E2. f_equal. rewrite Z.shiftl_mul_pow2, Z.mul_1_l by lia. f_equal.
        apply Z.bits_inj'. intros m Hm. rewrite Z.land_spec. rewrite Z.pow2_bits_eqb by lia.
        destruct (Z.eqb_spec i m) as [<-|N]; [rewrite andb_true_r|rewrite andb_false_r].
        + destruct (Z.testbit old i); [now rewrite Z.pow2_bits_true by lia|now rewrite Z.bits_0].
        + destruct (Z.testbit old i); [now rewrite Z.pow2_bits_false by lia|now rewrite Z.bits_0]. }
    destruct G as (fl & E & R & K & T). rewrite E.
    destruct (IH (i + 1) old fl F' ltac:(lia) ltac:(lia) R) as (v & Ev & Rv & Kv & Tv). exists v. split; [exact Ev|].
    split; [replace (i + Z.of_nat (S (length args))) with (i + 1 + Z.of_nat (length args)) by lia; exact Rv|]. split.
    + intros k Hk. rewrite Kv by lia. apply K. lia.
    + intros [|k] Hk.
      * rewrite Z.add_0_r, Nat.add_0_r. rewrite Kv by lia. exact T.
      * cbn [nth]. replace (i + Z.of_nat (S k)) with (i + 1 + Z.of_nat k) by lia. rewrite Tv by lia. f_equal. lia.
Qed.
Theorem C75_visible_sets : forall old args, length args = 6%nat -> Forall switch args ->
  exists v, cmd_visible old args = (v, None) /\ 0 <= v < 64 /\
    forall i, (i < 6)%nat -> Z.testbit v (Z.of_nat i) = chosen old i (nth i args VOther).
Proof.
  intros old args L F. unfold cmd_visible. rewrite L. change (negb (Z.of_nat 6 =? 6)) with false. cbv iota.
  destruct (visible_loop_ok args 0 old 0 F ltac:(lia) ltac:(rewrite L; lia) ltac:(lia)) as (v & E & R & _ & T).
  exists v. rewrite L in R, T. split; [exact E|]. split; [exact R|]. intros i Hi. exact (T i Hi).
Qed.
(** anything else is refused, and nothing changes: not six arguments, a number that is not 0 or 1, a string *)
Fixpoint first_bad (args : list vis_arg) : option err :=
  match args with
  | [] => None
  | VNum n :: t => if (FP_TO_INT n =? 0) || (FP_TO_INT n =? 1) then first_bad t else Some ERR_OUT_OF_RANGE
  | VOmitted :: t => first_bad t
  | VStr :: _ => Some ERR_TYPE_MISMATCH
  | VOther :: _ => Some ERR_SYNTAX
  end.
Theorem C75_visible_refuses : forall old args, ~ (length args = 6%nat /\ Forall switch args) ->
  cmd_visible old args = (old, Some (if Nat.eqb (length args) 6 then match first_bad args with Some e => e | None => ERR_SYNTAX end else ERR_SYNTAX))
  /\ (length args = 6%nat -> exists e, first_bad args = Some e).
Proof.
  intros old args H. unfold cmd_visible. destruct (Nat.eqb_spec (length args) 6) as [L|L].
  - rewrite L. change (negb (Z.of_nat 6 =? 6)) with false. cbv iota.
    assert (N : ~ Forall switch args) by tauto. clear H L.
    assert (G : forall i flags, exists e, visible_loop args i old flags = (old, Some e) /\ first_bad args = Some e).
    { induction args as [|a args IH]; [exfalso; apply N; constructor|]. intros i flags.
      destruct a as [n| | |]; cbn [visible_loop first_bad].
      - unfold int_range. cbv zeta. destruct ((FP_TO_INT n <? 0) || (FP_TO_INT n >? 1)) eqn:E.
        + replace ((FP_TO_INT n =? 0) || (FP_TO_INT n =? 1)) with false by lia. eexists; split; reflexivity.
        + replace ((FP_TO_INT n =? 0) || (FP_TO_INT n =? 1)) with true by lia. apply IH. intro F. apply N. constructor; [cbn; lia|exact F].
      - apply IH. intro F. apply N. constructor; [exact I|exact F].
      - eexists; split; reflexivity.
      - eexists; split; reflexivity. }
    destruct (G 0 0) as (e & E & B). rewrite E, B. split; [reflexivity|]. intros _. eexists; reflexivity.
  - replace (negb (Z.of_nat (length args) =? 6)) with true by lia. split; [reflexivity|]. intro; contradiction.
Qed.
Example C75_visible_ok : cmd_visible 63 [VNum 0; VOmitted; VNum 4096; VNum 0; VOmitted; VNum 4096] = (54, None) /\
  Forall switch [VNum 0; VOmitted; VNum 4096; VNum 0; VOmitted; VNum 4096] /\ cmd_visible 63 [VNum 0; VNum 8192; VStr; VNum 0; VNum 0; VNum 0] = (63, Some ERR_OUT_OF_RANGE).
Proof. split; [reflexivity|]. split; [|reflexivity]. unfold switch, FP_TO_INT. repeat constructor; discriminate. Qed.

(** what is switched off cannot be seen, whatever it contains; the rest of the picture stays as it is *)
Definition with_text (s : scene) (t : list Z) : scene :=
  let c := sc_con s in
  mkScene {| cx := cx c; cy := cy c; tabstep := tabstep c; sys_tabstep := sys_tabstep c; Console.col := Console.col c; Console.text := t; Console.color := Console.color c |}
    (sc_cursor s) (sc_bg s) (sc_grp s) (sc_spr s) (sc_res s) (sc_visible s) (sc_panel s) (sc_stale s).
Definition with_bg (s : scene) (b : bg) : scene :=
  mkScene (sc_con s) (sc_cursor s) b (sc_grp s) (sc_spr s) (sc_res s) (sc_visible s) (sc_panel s) (sc_stale s).
Definition with_sprites (s : scene) (x : sprites) : scene :=
  mkScene (sc_con s) (sc_cursor s) (sc_bg s) (sc_grp s) x (sc_res s) (sc_visible s) (sc_panel s) (sc_stale s).
Definition with_graphics (s : scene) (g : gfx) : scene :=
  mkScene (sc_con s) (sc_cursor s) (sc_bg s) g (sc_spr s) (sc_res s) (sc_visible s) (sc_panel s) (sc_stale s).
(** two backgrounds with the same layer [l] of the upper screen *)
Definition same_layer (a b : bg) (l : Z) : Prop :=
  bg_ofs a 0 l = bg_ofs b 0 l /\ forall x y, bg_word a 0 l x y = bg_word b 0 l x y.
Lemma and_then_ext : forall m m' f f', m = m' -> (forall c, f c = f' c) -> and_then m f = and_then m' f'.
Proof. intros m m' f f' -> H. destruct m'; [apply H|reflexivity]. Qed.
Lemma draw_upper_ext : forall s s' X Y,
  (forall p c, display_graphics s 0 p X Y c = display_graphics s' 0 p X Y c) ->
  (forall p c, display_sprite s 0 p X Y c = display_sprite s' 0 p X Y c) ->
  (forall c, display_background s 0 0 X Y c = display_background s' 0 0 X Y c) ->
  (forall c, display_background s 0 1 X Y c = display_background s' 0 1 X Y c) ->
  (forall c, display_console s X Y c = display_console s' X Y c) ->
  (forall c, display_cursor s X Y c = display_cursor s' X Y c) ->
  draw_upper s X Y = draw_upper s' X Y.
Proof.
  intros s s' X Y G S B0 B1 C K. unfold draw_upper. cbv zeta.
  apply and_then_ext; [|intro c; exact (K c)].
  apply and_then_ext; [|intro c; exact (S 0 c)].
  apply and_then_ext; [|intro c; exact (f_equal Some (G 0 c))].
  apply and_then_ext; [|intro c; exact (f_equal Some (C c))].
  apply and_then_ext; [|intro c; exact (S 1 c)].
  apply and_then_ext; [|intro c; exact (f_equal Some (G 1 c))].
  apply and_then_ext; [|intro c; exact (f_equal Some (B0 c))].
  apply and_then_ext; [|intro c; exact (S 2 c)].
  apply and_then_ext; [|intro c; exact (f_equal Some (G 2 c))].
  apply and_then_ext; [|intro c; exact (f_equal Some (B1 c))].
  apply and_then_ext; [|intro c; exact (S 3 c)].
  apply and_then_ext; [|intro c; exact (f_equal Some (G 3 c))].
  reflexivity.
Qed.
Theorem C75_hidden_is_not_seen : forall s X Y,
  (vis s 0 = false -> forall t, draw_upper (with_text s t) X Y = draw_upper s X Y) /\
  (vis s 2 = false -> forall b, same_layer b (sc_bg s) 1 -> draw_upper (with_bg s b) X Y = draw_upper s X Y) /\
  (vis s 3 = false -> forall b, same_layer b (sc_bg s) 0 -> draw_upper (with_bg s b) X Y = draw_upper s X Y) /\
  (vis s 4 = false -> forall x, draw_upper (with_sprites s x) X Y = draw_upper s X Y) /\
  (vis s 5 = false -> forall g, draw_upper (with_graphics s g) X Y = draw_upper s X Y).
Proof.
  intros s X Y. unfold vis.
  assert (BG : forall b l below, 0 <= l <= 1 -> same_layer b (sc_bg s) l -> display_background (with_bg s b) 0 l X Y below = display_background s 0 l X Y below).
  { intros b l below Hl (E1 & E2). unfold display_background, with_bg. cbn [sc_visible sc_bg sc_res sc_stale]. rewrite E1. cbv zeta.
    destruct (_ && _); [reflexivity|]. destruct (_ && _); [reflexivity|]. unfold map_quads, draw_va. rewrite !fold_map.
    generalize (seq 0 (Z.to_nat (64 * 64))). intro ks. revert below. induction ks as [|k ks IH]; intro below; [reflexivity|]. cbn [fold_left]. rewrite IH.
    f_equal. rewrite E2. reflexivity. }
  repeat split; intros V.
  - intro t. apply draw_upper_ext; try (intros; reflexivity).
    intro c. unfold display_console, with_text. cbn [sc_visible sc_con sc_res]. rewrite V. reflexivity.
  - intros b E. apply draw_upper_ext; try (intros; reflexivity).
    + intro c. unfold display_background, with_bg. cbn [sc_visible]. rewrite V. reflexivity.
    + intro c. apply BG; [lia|exact E].
  - intros b E. apply draw_upper_ext; try (intros; reflexivity).
    + intro c. apply BG; [lia|exact E].
    + intro c. unfold display_background, with_bg. cbn [sc_visible]. rewrite V. change (1 =? 1) with true. change (1 =? 0) with false. rewrite !andb_false_r. reflexivity.
  - intro x. apply draw_upper_ext; try (intros; reflexivity).
    intros p c. unfold display_sprite, with_sprites. cbn [sc_visible]. rewrite V. reflexivity.
  - intro g. apply draw_upper_ext; try (intros; reflexivity).
    intros p c. unfold display_graphics, with_graphics. cbn [sc_visible]. rewrite V. reflexivity.
Qed.

(* ---------- C76: the picture ---------- *)
(** Missing: negative scroll offsets that are not a whole number of characters are shown wrong (next theorem); BGCLIP has no effect on the picture;
    turned sprites and sprites enlarged by a fraction are left out, and so are the panel and the icons of the lower screen. *)
Theorem C76_upper_screen_partial : forall s X Y, scene_ok s -> on_screen X Y -> draw_upper s X Y = Some (upper_pixel s X Y).
Proof.
  intros s X Y (Ht & Hx & Hy & Ho & Hs) P. unfold draw_upper. cbv zeta.
  assert (SP : forall p c, display_sprite s 0 p X Y c = Some (over c (when (vis s 4) (sprites_picture s 0 p X Y)))).
  { intros p c. rewrite display_sprite_ok; [|lia|exact Hs]. change (0 =? 0) with true. cbn [orb]. rewrite andb_true_r. reflexivity. }
  assert (GR : forall p c, display_graphics s 0 p X Y c = over c (when (vis s 5 && (prio (sc_grp s) 0 =? p)) (grp_picture s 0 X Y))).
  { intros p c. rewrite display_graphics_ok by (lia || exact P). change (0 =? 0) with true. cbn [orb]. rewrite andb_true_r. reflexivity. }
  destruct (Ho 0 ltac:(lia)) as [O1 O2]. destruct (Ho 1 ltac:(lia)) as [O3 O4].
  cbn [and_then]. rewrite GR, SP. cbn [and_then]. rewrite (display_background_ok s 0 1) by (lia || assumption).
  rewrite GR, SP. cbn [and_then]. rewrite (display_background_ok s 0 0) by (lia || assumption).
  rewrite GR, SP. cbn [and_then]. rewrite display_console_ok by assumption. rewrite GR, SP. cbn [and_then].
  rewrite display_cursor_ok by assumption. f_equal.
  assert (R : forall l, over black (first_shown (rev l)) = fold_left over l black) by (intro l; symmetry; apply over_first).
  unfold upper_pixel. change (match first_shown (upper_layers s X Y) with Some c => c | None => black end) with (over black (first_shown (upper_layers s X Y))).
  rewrite <- (rev_involutive (upper_layers s X Y)). rewrite R. reflexivity.
Qed.

(** a scene with something on every layer: text in the upper left corner, tiles, a drawn page, a mirrored sprite of double size *)
Definition demo_chars : banks :=
  mkBanks (fun b => if b =? 0 then List.concat (map (fun n => repeat (Z.of_nat n mod 7 + 16 * (Z.of_nat n mod 5)) 32) (seq 0 256))
                    else List.concat (map (fun n => repeat (33 + Z.of_nat n mod 3) 32) (seq 0 256)))
          (fun b => map (fun i => 1000 * b + 17 * Z.of_nat i) (seq 0 256)).
Definition demo_bg (o : Z) : bg :=
  {| Background.page := 0; scr := map (fun k => map (fun i => if Nat.eqb i (k + 1055) then 4096 + 3 else 0) (seq 0 4096)) (seq 0 8);
     ofs := repeat {| ox := o; oy := 0; step_x := 0; step_y := 0; time := 0 |} 4 |}.
Definition demo_sprite : sprite :=
  set_pos (mkMotion 409700 204800 0 0 0) (set_scale (mkChange 8192 0 0) (set_home 3 2 (init_sprite_info 5 17 4 true false 1 32 16))).
Definition demo_scene (o : Z) : scene :=
  mkScene {| cx := 4; cy := 1; tabstep := 4; sys_tabstep := 16384; Console.col := 0;
             Console.text := map (fun i => if Nat.leb i 40 then to_wide 65 else 0) (seq 0 768); Console.color := map (fun i => if Nat.leb i 20 then 35 else 2) (seq 0 768) |}
    true (demo_bg o) (init_graphics 0 (fun _ k => if k <? 9000 then 7 else 0))
    (mkS 0 (fun scr i => if (scr =? 0) && (i =? 5) then demo_sprite else no_sprite) 0 0 0 0)
    demo_chars 63 PNL_OFF (fun _ _ => mkC 9 false false 9).
Lemma demo_ok : forall o, offset_ok o -> scene_ok (demo_scene o).
Proof.
  intros o Ho. unfold scene_ok. split; [|split; [cbn; lia|split; [cbn; lia|split]]].
  - assert (A : Forall (fun w => 0 <= to_char w < 512) (Console.text (sc_con (demo_scene 0)))).
    { apply Forall_forall. intros w Hw. assert (B : forallb (fun w => (0 <=? to_char w) && (to_char w <? 512)) (Console.text (sc_con (demo_scene 0))) = true) by (vm_compute; reflexivity).
      rewrite forallb_forall in B. specialize (B w Hw). lia. }
    intros i Hi. apply (proj1 (Forall_nth _ _) A). exact Hi.
  - intros l Hl. assert (C : l = 0 \/ l = 1) by lia. destruct C as [-> | ->]; (split; [exact Ho|left; split; [vm_compute; congruence|vm_compute; reflexivity]]).
  - assert (B : forall q, In q (sprite_list (sc_spr (demo_scene o)) 0) -> q = demo_sprite \/ q = no_sprite).
    { intros q Hq. unfold sprite_list in Hq. apply in_map_iff in Hq. destruct Hq as (k & <- & _). cbn [sc_spr demo_scene info].
      destruct (_ && _); [now left|now right]. }
    intros q Hq Ha. destruct (B q Hq) as [-> | ->]; [|discriminate].
    unfold natural. repeat split; vm_compute; congruence.
Qed.
Example C76_demo : scene_ok (demo_scene 4096) /\ on_screen 247 0 /\
  upper_pixel (demo_scene 4096) 35 8 <> upper_pixel (demo_scene 4096) 3 3 /\
  upper_pixel (demo_scene 4096) 120 60 <> black /\ upper_pixel (demo_scene 4096) 200 190 = mkRGB 136 0 0.
Proof.
  split; [apply demo_ok; left; split; [vm_compute; congruence|reflexivity]|]. split; [unfold on_screen; lia|].
  split; [vm_compute; congruence|]. split; [vm_compute; congruence|vm_compute; reflexivity].
Qed.

(** after BGOFS with an offset of -1 the layer is drawn 8 pixels off: the first of the two terms truncates toward zero, the other rounds down *)
Theorem C76_negative_offset_refuted : exists s X Y, on_screen X Y /\ FP_TO_INT (ox (bg_ofs (sc_bg s) 0 0)) = -1 /\
  draw_upper s X Y <> Some (upper_pixel s X Y) /\
  (forall c, draw_upper s X Y = Some c -> c = black) /\ upper_pixel s X Y <> black.
Proof.
  exists (mkScene (sc_con (demo_scene 0)) false
    {| Background.page := 0; scr := map (fun k => map (fun i => if Nat.eqb i 1055 then 4096 + 3 else 0) (seq 0 4096)) (seq 0 8);
       ofs := repeat {| ox := -4096; oy := 0; step_x := 0; step_y := 0; time := 0 |} 4 |}
    (init_graphics 0 (fun _ _ => 0)) init_sprites
    (mkBanks (fun b => if b =? 8 then repeat 0 96 ++ repeat 17 32 else []) (fun b => repeat 1000 256)) 63 PNL_OFF (fun _ _ => mkC 0 false false 0)), 0, 0.
  split; [unfold on_screen; lia|]. split; [vm_compute; reflexivity|]. split; [vm_compute; congruence|].
  split; [intros c; vm_compute; congruence|vm_compute; congruence].
Qed.

(** the layers of either screen by themselves *)
(** Missing: other negative offsets (C76_negative_offset_refuted), BGCLIP. *)
Theorem C76_background_partial : forall s screen l X Y below,
  0 <= screen <= 1 -> 0 <= l <= 1 -> on_screen X Y ->
  offset_ok (ox (bg_ofs (sc_bg s) screen l)) -> offset_ok (oy (bg_ofs (sc_bg s) screen l)) ->
  display_background s screen l X Y below = over below (when (vis s (2 + l)) (bg_picture s screen l X Y)).
Proof. exact display_background_ok. Qed.
Theorem C76_graphics : forall s screen p X Y below, 0 <= screen <= 1 -> on_screen X Y ->
  display_graphics s screen p X Y below =
  over below (when (vis s 5 && (prio (sc_grp s) screen =? p)
                    && ((screen =? 0) || vis s 1 && ((sc_panel s =? PNL_OFF) || (sc_panel s =? PNL_PNL)))) (grp_picture s screen X Y)).
Proof. exact display_graphics_ok. Qed.
(** Missing: turned sprites, and sprites enlarged by a fraction (where they reach is C76_sprite_extent). *)
Theorem C76_sprites_partial : forall s screen p X Y below, 0 <= screen <= 1 ->
  (forall q, In q (sprite_list (sc_spr s) screen) -> active q = true -> natural (if screen =? 1 then 512 else 2048) q) ->
  display_sprite s screen p X Y below =
  Some (over below (when (vis s 4 && ((screen =? 0) || vis s 1 && (sc_panel s =? PNL_OFF))) (sprites_picture s screen p X Y))).
Proof. exact display_sprite_ok. Qed.

(** a sprite of any size that is not turned fills exactly its rectangle, each pixel once: its pieces neither overlap nor leave gaps *)
Definition touched (qs : list quad) (X Y : Z) : nat := length (filter (fun q => covers q X Y) qs).
Definition b2n (b : bool) : nat := if b then 1%nat else 0%nat.
Lemma touched_row : forall X Y n xc yc sx sy chr red, (0 <= sx \/ sx <= 0) ->
  touched (piece_row n xc yc sx sy chr red) X Y
  = b2n (inside (FP_TO_INT xc) (FP_TO_INT (xc + Z.of_nat n * sx)) X && inside (FP_TO_INT yc) (FP_TO_INT (yc + sy)) Y).
Proof.
  intros X Y n. induction n as [|n IH]; intros xc yc sx sy chr red Hs.
  - cbn [piece_row Z.of_nat]. rewrite Z.mul_0_l, Z.add_0_r. unfold touched. cbn [filter length].
    rewrite inside_up by lia. replace (_ && _) with false; [reflexivity|]. symmetry. lia.
  - cbn [piece_row]. unfold touched in *. cbn [filter]. unfold covers at 1. cbn [q1 q2 q4 vx vy].
    specialize (IH (xc + sx) yc sx sy (chr + 1) red Hs).
    replace (xc + sx + Z.of_nat n * sx) with (xc + Z.of_nat (S n) * sx) in IH by lia.
    assert (M : forall a b, a <= b -> FP_TO_INT a <= FP_TO_INT b) by (intros; unfold FP_TO_INT; apply Z.div_le_mono; lia).
    destruct (inside (FP_TO_INT yc) (FP_TO_INT (yc + sy)) Y); rewrite ?andb_true_r, ?andb_false_r in *; [|exact IH].
    destruct Hs as [Hs|Hs].
    + assert (A1 := M xc (xc + sx) ltac:(lia)). assert (A2 := M (xc + sx) (xc + Z.of_nat (S n) * sx) ltac:(nia)).
      rewrite !inside_up by lia. rewrite inside_up in IH by lia.
      set (a := FP_TO_INT xc) in *. set (b := FP_TO_INT (xc + sx)) in *. set (c := FP_TO_INT (xc + Z.of_nat (S n) * sx)) in *. clearbody a b c.
      destruct ((a <=? X) && (X <? b)) eqn:E1; cbn [length]; rewrite IH; unfold b2n;
        destruct ((b <=? X) && (X <? c)) eqn:E2; destruct ((a <=? X) && (X <? c)) eqn:E3; lia.
    + assert (A1 := M (xc + sx) xc ltac:(lia)). assert (A2 := M (xc + Z.of_nat (S n) * sx) (xc + sx) ltac:(nia)).
      rewrite !inside_down by lia. rewrite inside_down in IH by lia.
      set (a := FP_TO_INT xc) in *. set (b := FP_TO_INT (xc + sx)) in *. set (c := FP_TO_INT (xc + Z.of_nat (S n) * sx)) in *. clearbody a b c.
      destruct ((b <=? X) && (X <? a)) eqn:E1; cbn [length]; rewrite IH; unfold b2n;
        destruct ((c <=? X) && (X <? b)) eqn:E2; destruct ((c <=? X) && (X <? a)) eqn:E3; lia.
Qed.
Lemma touched_app : forall l1 l2 X Y, touched (l1 ++ l2) X Y = (touched l1 X Y + touched l2 X Y)%nat.
Proof. intros. unfold touched. rewrite filter_app, app_length. reflexivity. Qed.
Lemma touched_rows : forall X Y n m xc yc sx sy chr red,
  touched (piece_rows m n xc yc sx sy chr red) X Y
  = b2n (inside (FP_TO_INT xc) (FP_TO_INT (xc + Z.of_nat n * sx)) X && inside (FP_TO_INT yc) (FP_TO_INT (yc + Z.of_nat m * sy)) Y).
Proof.
  intros X Y n m. induction m as [|m IH]; intros xc yc sx sy chr red.
  - cbn [piece_rows Z.of_nat]. rewrite Z.mul_0_l, Z.add_0_r. unfold touched. cbn [filter length].
    rewrite (inside_up (FP_TO_INT yc)) by lia. replace (_ && _) with false; [reflexivity|]. symmetry. lia.
  - cbn [piece_rows]. rewrite touched_app, touched_row, IH by lia.
    replace (yc + sy + Z.of_nat m * sy) with (yc + Z.of_nat (S m) * sy) by lia.
    destruct (inside (FP_TO_INT xc) (FP_TO_INT (xc + Z.of_nat n * sx)) X); [cbn [andb]|reflexivity].
    assert (M : forall a b, a <= b -> FP_TO_INT a <= FP_TO_INT b) by (intros; unfold FP_TO_INT; apply Z.div_le_mono; lia).
    assert (Hs : 0 <= sy \/ sy <= 0) by lia. destruct Hs as [Hs|Hs].
    + assert (A1 := M yc (yc + sy) ltac:(lia)). assert (A2 := M (yc + sy) (yc + Z.of_nat (S m) * sy) ltac:(nia)).
      rewrite !inside_up by lia.
      set (a := FP_TO_INT yc) in *. set (b := FP_TO_INT (yc + sy)) in *. set (c := FP_TO_INT (yc + Z.of_nat (S m) * sy)) in *. clearbody a b c.
      unfold b2n. destruct ((a <=? Y) && (Y <? b)) eqn:E1; destruct ((b <=? Y) && (Y <? c)) eqn:E2; destruct ((a <=? Y) && (Y <? c)) eqn:E3; lia.
    + assert (A1 := M (yc + sy) yc ltac:(lia)). assert (A2 := M (yc + Z.of_nat (S m) * sy) (yc + sy) ltac:(nia)).
      rewrite !inside_down by lia.
      set (a := FP_TO_INT yc) in *. set (b := FP_TO_INT (yc + sy)) in *. set (c := FP_TO_INT (yc + Z.of_nat (S m) * sy)) in *. clearbody a b c.
      unfold b2n. destruct ((b <=? Y) && (Y <? a)) eqn:E1; destruct ((c <=? Y) && (Y <? b)) eqn:E2; destruct ((c <=? Y) && (Y <? a)) eqn:E3; lia.
Qed.
Theorem C76_sprite_extent : forall s X Y, cv (angle s) = 0 -> 0 <= cv (scale s) -> Z.abs (px_ (pos s)) <= 2 ^ 30 -> Z.abs (py_ (pos s)) <= 2 ^ 30 ->
  0 < s_w s -> s_w s mod 8 = 0 -> 0 < s_h s -> s_h s mod 8 = 0 ->
  let left := px_ (pos s) - cv (scale s) * s_homex s in let top := py_ (pos s) - cv (scale s) * s_homey s in
  let hit := (FP_TO_INT left <=? X) && (X <? FP_TO_INT (left + cv (scale s) * s_w s))
             && (FP_TO_INT top <=? Y) && (Y <? FP_TO_INT (top + cv (scale s) * s_h s)) in
  exists qs, add_sprite s = Some qs /\ touched qs X Y = b2n hit.
Proof.
  intros s X Y Ha Hsc Hpx Hpy Hw Hw8 Hh Hh8 left top hit. unfold add_sprite. rewrite Ha. cbn [Z.eqb negb].
  replace ((Z.abs (px_ (pos s)) >? 2 ^ 30) || (Z.abs (py_ (pos s)) >? 2 ^ 30)) with false by lia. cbv zeta.
  set (sc := cv (scale s)) in *. set (px := px_ (pos s)) in *. set (py := py_ (pos s)) in *.
  assert (Q : forall (f : bool) (len home p : Z), 0 < len -> len mod 8 = 0 ->
     let '(a, c) := if f then (- sc * home + len * sc, - sc * home) else (- sc * home, - sc * home + len * sc) in
     a + p + Z.of_nat (Z.to_nat (len / 8)) * (Z.quot (c + p - (a + p)) len * 8) = c + p /\
     forall x, inside (FP_TO_INT (a + p)) (FP_TO_INT (c + p)) x = (FP_TO_INT (p - sc * home) <=? x) && (x <? FP_TO_INT (p - sc * home + sc * len))).
  { intros f len home p Hl H8. assert (E : Z.of_nat (Z.to_nat (len / 8)) = len / 8) by lia.
    assert (M : FP_TO_INT (p - sc * home) <= FP_TO_INT (p - sc * home + sc * len)) by (unfold FP_TO_INT; apply Z.div_le_mono; nia).
    destruct f; rewrite E; split.
    - replace (- sc * home + p - (- sc * home + len * sc + p)) with (- sc * len) by ring. rewrite Z.quot_mul by lia.
      replace (len / 8 * (- sc * 8)) with (- sc * (8 * (len / 8))) by ring. replace (8 * (len / 8)) with len by lia. ring.
    - intro x. replace (- sc * home + len * sc + p) with (p - sc * home + sc * len) by ring. replace (- sc * home + p) with (p - sc * home) by ring. apply inside_down. exact M.
    - replace (- sc * home + len * sc + p - (- sc * home + p)) with (sc * len) by ring. rewrite Z.quot_mul by lia.
      replace (len / 8 * (sc * 8)) with (sc * (8 * (len / 8))) by ring. replace (8 * (len / 8)) with len by lia. ring.
    - intro x. replace (- sc * home + len * sc + p) with (p - sc * home + sc * len) by ring. replace (- sc * home + p) with (p - sc * home) by ring. apply inside_up. exact M. }
  pose proof (Q (s_flipx s) (s_w s) (s_homex s) px Hw Hw8) as QX. pose proof (Q (s_flipy s) (s_h s) (s_homey s) py Hh Hh8) as QY.
  destruct (if s_flipx s then (- sc * s_homex s + s_w s * sc, - sc * s_homex s) else (- sc * s_homex s, - sc * s_homex s + s_w s * sc)) as [x1 x2].
  destruct (if s_flipy s then (- sc * s_homey s + s_h s * sc, - sc * s_homey s) else (- sc * s_homey s, - sc * s_homey s + s_h s * sc)) as [y1 y4].
  eexists. split; [reflexivity|]. rewrite touched_rows. destruct QX as [-> QX]. destruct QY as [-> QY]. rewrite QX, QY.
  unfold hit, left, top. f_equal. rewrite <- !andb_assoc. reflexivity.
Qed.
Example C76_extent_ok : let s := set_scale (mkChange 5000 0 0) demo_sprite in
  exists qs, add_sprite s = Some qs /\ length qs = 8%nat /\ touched qs 110 55 = 1%nat /\ touched qs 90 55 = 0%nat.
Proof. eexists. split; [reflexivity|]. vm_compute. auto. Qed.

(* ---------- C77: colours ---------- *)
Lemma shown_read : forall c, 0 <= c < 65536 -> shown_colour c = mkRGB (8 * (col_r c / 8)) (4 * (col_g c / 4)) (8 * (col_b c / 8)).
Proof.
  intros c Hc. unfold shown_colour, col_r, col_g, col_b. cbv zeta. rewrite !Z.shiftl_mul_pow2, !Z.shiftr_div_pow2 by lia.
  change 31 with (Z.ones 5). rewrite !Z.land_ones by lia. change (2 ^ 3) with 8. change (2 ^ 5) with 32. change (2 ^ 10) with 1024.
  change (2 ^ 6) with 64. change (2 ^ 15) with 32768. change (2 ^ 2) with 4. change (2 ^ 4) with 16.
  assert (G : Z.lor (Z.land (c / 16) 62) (c / 32768) = 2 * (c / 32 mod 32) + c / 32768).
  { change 62 with (Z.shiftl (Z.ones 5) 1). rewrite land_mask by lia. change (2 ^ 1) with 2. change (2 ^ 5) with 32.
    replace (c / 16 / 2) with (c / 32) by lia. assert (B : c / 32768 = 0 \/ c / 32768 = 1) by lia.
    destruct B as [-> | ->]; [rewrite Z.lor_0_r; lia|].
    assert (L : Z.land (2 * (c / 32 mod 32)) 1 = 0) by (change 1 with (Z.ones 1); rewrite Z.land_ones by lia; change (2 ^ 1) with 2; lia).
    rewrite <- Z.lxor_lor by exact L. symmetry. apply Z.add_nocarry_lxor. exact L. }
  rewrite G. f_equal; lia.
Qed.
(** COLSET with RRGGBB: the colour is shown with its components rounded down to steps of 8 (green: 4), and the other colours stay *)
Theorem C77_colset_is_shown : forall p name s i r n rgb d0 d1 d2 d3 d4 d5, page_ok p -> palette p name i -> spells s name ->
  length (ChrCol.col r i) = 256%nat -> 0 <= FP_TO_INT n <= 255 -> byte_string rgb [d0; d1; d2; d3; d4; d5] -> Forall is_hex [d0; d1; d2; d3; d4; d5] ->
  Forall (fun c => 0 <= c < 65536) (ChrCol.col r i) ->
  let R := 16 * hexv d0 + hexv d1 in let G := 16 * hexv d2 + hexv d3 in let B := 16 * hexv d4 + hexv d5 in
  exists r', cmd_colset p r s n rgb = (r', Done) /\
    shown_colour (nth (Z.to_nat (FP_TO_INT n)) (ChrCol.col r' i) 0) = mkRGB (8 * (R / 8)) (4 * (G / 4)) (8 * (B / 8)) /\
    (forall j k, j <> i \/ Z.of_nat k <> FP_TO_INT n -> shown_colour (nth k (ChrCol.col r' j) 0) = shown_colour (nth k (ChrCol.col r j) 0)).
Proof.
  intros p name s i r n rgb d0 d1 d2 d3 d4 d5 Hp P Hs L Hn Hrgb F W R G B.
  destruct (C40_col_roundtrip p name s i r n rgb d0 d1 d2 d3 d4 d5 Hp P Hs L Hn Hrgb F) as (r' & R' & G' & B' & E & Rd & ER & EG & EB & K & Len & _).
  exists r'. split; [exact E|].
  assert (V : Forall is_hex [d0; d1; d2; d3; d4; d5]) by exact F.
  inversion F as [|? ? h0 F0]. inversion F0 as [|? ? h1 F1]. inversion F1 as [|? ? h2 F2]. inversion F2 as [|? ? h3 F3]. inversion F3 as [|? ? h4 F4]. inversion F4 as [|? ? h5 F5]. subst.
  assert (V0 := hexv_range _ h0). assert (V1 := hexv_range _ h1). assert (V2 := hexv_range _ h2). assert (V3 := hexv_range _ h3). assert (V4 := hexv_range _ h4). assert (V5 := hexv_range _ h5).
  split.
  - set (c := nth (Z.to_nat (FP_TO_INT n)) (ChrCol.col r' i) 0).
    assert (Hc : 0 <= c < 65536).
    { unfold cmd_colset in E. replace ((FP_TO_INT n <? 0) || (FP_TO_INT n >? 255)) with false in E by lia.
      destruct (palette_col p name s i Hp P Hs) as (EC & _). rewrite EC in E. destruct (negb (str_len rgb =? 6)); [discriminate|].
      match type of E with match ?m with _ => _ end = _ => destruct m eqn:Em end; [|discriminate|discriminate].
      injection E as <-. subst c. cbn [ChrCol.col]. unfold set_bank. rewrite Z.eqb_refl. rewrite nth_upd_same by lia.
      repeat (match type of Em with bind ?m _ = _ => destruct m; cbn [bind] in Em; [|discriminate|discriminate] end).
      injection Em as <-. unfold col_pack, u16. change (2 ^ 16) with 65536. lia. }
    rewrite (shown_read c Hc). unfold cmd_colread in Rd. replace ((FP_TO_INT n <? 0) || (FP_TO_INT n >? 255)) with false in Rd by lia.
    destruct (palette_col p name s i Hp P Hs) as (EC & _). rewrite EC in Rd. cbn [bind] in Rd.
    assert (Ln : (Z.to_nat (FP_TO_INT n) < length (ChrCol.col r' i))%nat) by (rewrite Len, L; lia).
    rewrite (nth_error_nth' _ 0 Ln) in Rd. fold c in Rd.
    assert (Inj : forall a b c' d e f : Z, Ok (a, b, c') = Ok (d, e, f) -> a = d /\ b = e /\ c' = f) by (intros; split; [congruence|split; congruence]).
    apply Inj in Rd. destruct Rd as (E1 & E2 & E3).
    assert (Bc : 0 <= col_r c < 256 /\ 0 <= col_g c < 256 /\ 0 <= col_b c < 256).
    { pose proof (shown_read c Hc) as SR. unfold shown_colour in SR.
      assert (Inj3 : forall a b c' d e f, mkRGB a b c' = mkRGB d e f -> a = d /\ b = e /\ c' = f) by (intros; split; [congruence|split; congruence]).
      apply Inj3 in SR. lia. }
    rewrite !INT_TO_FP_exact in E1, E2, E3 by (change (2 ^ 19) with 524288; lia).
    unfold R, G, B in *. f_equal; lia.
  - intros j k H. now rewrite K.
Qed.
Print Assumptions C75_visible_sets.
Print Assumptions C75_visible_refuses.
Print Assumptions C75_hidden_is_not_seen.
Print Assumptions C76_upper_screen_partial.
Print Assumptions C76_negative_offset_refuted.
Print Assumptions C76_background_partial.
Print Assumptions C76_graphics.
Print Assumptions C76_sprites_partial.
Print Assumptions C76_sprite_extent.
Print Assumptions C77_colset_is_shown.
