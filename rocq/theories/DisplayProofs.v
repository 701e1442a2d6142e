From Verif Require Import Base Strs Memory Background Console Graphics Sprites ChrCol Display DisplaySpec.
Open Scope Z_scope.
Ltac Zify.zify_post_hook ::= Z.div_mod_to_equations.

Lemma inside_up : forall a b X, a <= b -> inside a b X = (a <=? X) && (X <? b).
Proof. intros. unfold inside. lia. Qed.
Lemma inside_down : forall a b X, b <= a -> inside a b X = (b <=? X) && (X <? a).
Proof. intros. unfold inside. lia. Qed.
Lemma texel_up : forall a k s X, 0 < k -> texel_at a (a + k) s (s + k) X = s + (X - a).
Proof.
  intros. unfold texel_at. replace (a + k - a) with k by lia. replace (s + k - s) with k by lia.
  replace (2 * s * k + k * (2 * X + 1 - 2 * a)) with (k + (s + (X - a)) * (2 * k)) by ring.
  rewrite Z.div_add by lia. rewrite (Z.div_small k) by lia. lia.
Qed.
Lemma texel_mirror : forall a k s X, 0 < k -> texel_at a (a + k) (s + k) s X = s + (k - 1 - (X - a)).
Proof.
  intros. unfold texel_at. replace (a + k - a) with k by lia. replace (s - (s + k)) with (- k) by lia.
  replace (2 * (s + k) * k + - k * (2 * X + 1 - 2 * a)) with (k + (s + (k - 1 - (X - a))) * (2 * k)) by ring.
  rewrite Z.div_add by lia. rewrite (Z.div_small k) by lia. lia.
Qed.
(** eight texels over 8 * z pixels *)
Lemma texel_zoom_up : forall a z s X, 0 < z -> texel_at a (a + 8 * z) s (s + 8) X = s + (X - a) / z.
Proof.
  intros. unfold texel_at. replace (a + 8 * z - a) with (8 * z) by lia. replace (s + 8 - s) with 8 by lia.
  replace (2 * s * (8 * z) + 8 * (2 * X + 1 - 2 * a)) with (8 * (2 * (X - a) + 1 + s * (2 * z))) by ring.
  replace (2 * (8 * z)) with (8 * (2 * z)) by ring. rewrite Z.div_mul_cancel_l by lia.
  rewrite Z.div_add by lia. rewrite Z.add_comm. f_equal.
  symmetry. apply (Z.div_unique _ _ _ (2 * ((X - a) mod z) + 1)); [pose proof (Z.mod_pos_bound (X - a) z H); lia|].
  pose proof (Z.div_mod (X - a) z ltac:(lia)). lia.
Qed.
Lemma texel_zoom_down : forall a z s X, 0 < z -> texel_at a (a - 8 * z) s (s + 8) X = s + (a - 1 - X) / z.
Proof.
  intros. unfold texel_at. replace (a - 8 * z - a) with (- (8 * z)) by lia. replace (s + 8 - s) with 8 by lia.
  replace (2 * s * - (8 * z) + 8 * (2 * X + 1 - 2 * a)) with (- (8 * (2 * (a - 1 - X) + 1 + s * (2 * z)))) by ring.
  replace (2 * - (8 * z)) with (- (8 * (2 * z))) by ring. rewrite Z.div_opp_opp by lia. rewrite Z.div_mul_cancel_l by lia.
  rewrite Z.div_add by lia. rewrite Z.add_comm. f_equal.
  symmetry. apply (Z.div_unique _ _ _ (2 * ((a - 1 - X) mod z) + 1)); [pose proof (Z.mod_pos_bound (a - 1 - X) z H); lia|].
  pose proof (Z.div_mod (a - 1 - X) z ltac:(lia)). lia.
Qed.
Lemma div_nonneg_b : forall i z, 0 < z -> (0 <=? i / z) = (0 <=? i).
Proof. intros. pose proof (Z.div_mod i z ltac:(lia)). pose proof (Z.mod_pos_bound i z H). destruct (Z.leb_spec 0 i), (Z.leb_spec 0 (i / z)); try reflexivity; nia. Qed.
Lemma div_below_b : forall i z n, 0 < z -> (i / z <? n) = (i <? n * z).
Proof. intros. pose proof (Z.div_mod i z ltac:(lia)). pose proof (Z.mod_pos_bound i z H). destruct (Z.ltb_spec (i / z) n), (Z.ltb_spec i (n * z)); try reflexivity; nia. Qed.

(** a texel of the character texture is a pixel of a character *)
Lemma chr_texture_pixel : forall r b size n i j, 0 <= n < size -> size mod 32 = 0 -> 0 <= i < 8 -> 0 <= j < 8 ->
  chr_texture r b size (8 * (n mod 32) + i) (8 * (n / 32) + j) = chr_pixel r b n i j.
Proof.
  intros r b size n i j Hn Hs Hi Hj. unfold chr_texture, chr_pixel, chr_byte. cbv zeta.
  rewrite (Z.min_r 255) by lia. rewrite (Z.max_r 0 (8 * (n mod 32) + i)) by lia.
  rewrite (Z.min_r (size / 4 - 1)) by lia. rewrite (Z.max_r 0 (8 * (n / 32) + j)) by lia.
  replace ((8 * (n mod 32) + i) / 8) with (n mod 32) by lia.
  replace ((8 * (n / 32) + j) / 8) with (n / 32) by lia.
  replace ((8 * (n mod 32) + i) mod 8) with i by lia. replace ((8 * (n / 32) + j) mod 8) with j by lia.
  replace (n mod 32 + 32 * (n / 32)) with n by lia.
  replace ((32 * n + i / 2 + 4 * j) mod 8192) with (32 * (n mod 256) + 4 * j + i / 2) by lia.
  replace ((32 * n + i / 2 + 4 * j) / 8192) with (n / 256) by lia.
  assert (E : (i mod 2 =? 1) = negb (Z.even i)) by (rewrite Z.negb_even, Zmod_odd; destruct (Z.odd i); reflexivity).
  rewrite E. destruct (Z.even i); reflexivity.
Qed.
Lemma chr_pixel_range : forall r b n i j, 0 <= chr_pixel r b n i j < 16.
Proof. intros. unfold chr_pixel. cbv zeta. destruct (Z.even i); lia. Qed.

Lemma land_mask : forall s k n, 0 <= k -> 0 <= n -> Z.land s (Z.shiftl (Z.ones n) k) = 2 ^ k * (s / 2 ^ k mod 2 ^ n).
Proof.
  intros s k n Hk Hn. rewrite <- (Z.land_ones (s / 2 ^ k)) by lia. rewrite <- Z.shiftr_div_pow2 by lia.
  rewrite Z.mul_comm, <- Z.shiftl_mul_pow2 by lia.
  apply Z.bits_inj'. intros m Hm. rewrite Z.land_spec, !Z.shiftl_spec by lia. rewrite Z.land_spec.
  destruct (Z.ltb_spec m k).
  - rewrite (Z.testbit_neg_r (Z.ones n)) by lia. now rewrite !andb_false_r.
  - rewrite Z.shiftr_spec by lia. replace (m - k + k) with m by lia. reflexivity.
Qed.
Lemma shown_colour_ok : forall s,
  mkRGB (Z.shiftl (Z.land s 31) 3) (Z.lor (Z.shiftr (Z.land s 992) 2) (Z.shiftr (Z.land s 32768) 13)) (Z.shiftr (Z.land s 31744) 7)
  = shown_colour s.
Proof.
  intro s. unfold shown_colour.
  change 31 with (Z.shiftl (Z.ones 5) 0) at 1. change 992 with (Z.shiftl (Z.ones 5) 5). change 32768 with (Z.shiftl (Z.ones 1) 15) at 1.
  change 31744 with (Z.shiftl (Z.ones 5) 10). rewrite !land_mask by lia.
  rewrite Z.shiftl_mul_pow2, !Z.shiftr_div_pow2 by lia.
  replace (2 ^ 5 * (s / 2 ^ 5 mod 2 ^ 5) / 2 ^ 2) with (8 * (s / 32 mod 32)) by lia.
  replace (2 ^ 15 * (s / 2 ^ 15 mod 2 ^ 1) / 2 ^ 13) with (4 * (s / 32768 mod 2)) by lia.
  replace (2 ^ 10 * (s / 2 ^ 10 mod 2 ^ 5) / 2 ^ 7) with (8 * (s / 1024 mod 32)) by lia.
  f_equal; [lia|].
  assert (A : 0 <= s / 32 mod 32 < 32) by lia. assert (B : 0 <= s / 32768 mod 2 < 2) by lia.
  set (a := s / 32 mod 32) in *. set (b := s / 32768 mod 2) in *.
  assert (L : Z.land (8 * a) (4 * b) = 0); [|rewrite <- Z.lxor_lor, <- Z.add_nocarry_lxor by exact L; reflexivity].
  replace (8 * a) with (Z.shiftl a 3) by (rewrite Z.shiftl_mul_pow2 by lia; lia).
  apply Z.bits_inj'. intros m Hm. rewrite Z.land_spec, Z.shiftl_spec, Z.bits_0 by lia.
  destruct (Z.ltb_spec m 3).
  - rewrite (Z.testbit_neg_r a) by lia. reflexivity.
  - replace (Z.testbit (4 * b) m) with false; [now rewrite andb_false_r|].
    symmetry. assert (C : b = 0 \/ b = 1) by lia. destruct C as [-> | ->]; [now rewrite Z.bits_0|].
    change (4 * 1) with (2 ^ 2). apply Z.pow2_bits_false. lia.
Qed.

Lemma shade_palette : forall r bank pal c, 0 <= bank <= 5 -> bank mod 3 <> 2 -> 0 <= pal <= 15 -> 0 <= c < 16 ->
  shade r bank false c (u8 (16 * pal)) = palette_colour r bank pal c.
Proof.
  intros r bank pal c Hb H2 Hp Hc. unfold shade, colour_texel, palette_colour, col_texture. cbv zeta.
  replace (u8 (16 * pal)) with (16 * pal) by (unfold u8; change (2 ^ 8) with 256; lia).
  replace (Z.min 5 (6 * bank / 5)) with bank by lia.
  destruct (Z.eqb_spec c 0) as [->|N].
  - replace (Z.min 255 (256 * (0 + 0) / 255)) with 0 by lia. destruct (Z.eqb_spec (bank mod 3) 2); [lia|]. reflexivity.
  - replace (Z.min 255 (256 * (16 * pal + c) / 255)) with (16 * pal + c) by lia.
    destruct (Z.eqb_spec (bank mod 3) 2); [lia|]. destruct (Z.eqb_spec ((16 * pal + c) mod 16) 0); [lia|].
    rewrite shown_colour_ok. reflexivity.
Qed.

(** drawing one cell of a map *)
Lemma draw_cell : forall r b size bank x y ax ay cl X Y below,
  0 <= c_chr cl < size -> size mod 32 = 0 -> 0 <= bank <= 5 -> bank mod 3 <> 2 -> 0 <= c_pal cl <= 15 ->
  draw_quad r b size bank X Y below (cell_quad x y ax ay cl) =
  if ((X + ax) / 8 =? x) && ((Y + ay) / 8 =? y)
  then over below (chr_colour r b bank (c_chr cl) (c_pal cl) (c_h cl) (c_v cl) ((X + ax) mod 8) ((Y + ay) mod 8))
  else below.
Proof.
  intros r b size bank x y ax ay [n h v pal] X Y below Hn Hs Hb H2 Hp. cbn [c_chr c_h c_v c_pal] in *.
  unfold draw_quad, covers, cell_quad, tex_coord. cbn [q1 q2 q4 vx vy vred tu tv fst snd c_chr c_h c_v c_pal].
  rewrite (inside_up (8 * x + 0 - ax)), (inside_up (8 * y + 0 - ay)) by lia.
  replace ((8 * x + 0 - ax <=? X) && (X <? 8 * x + 8 - ax)) with ((X + ax) / 8 =? x) by lia.
  replace ((8 * y + 0 - ay <=? Y) && (Y <? 8 * y + 8 - ay)) with ((Y + ay) / 8 =? y) by lia.
  destruct (Z.eqb_spec ((X + ax) / 8) x) as [EX|]; [|reflexivity]. destruct (Z.eqb_spec ((Y + ay) / 8) y) as [EY|]; [|reflexivity].
  cbn [andb]. f_equal.
  assert (U : forall (f : bool) a P p s, P = p - a \/ P = p - a ->
     texel_at (8 * s + 0 - a) (8 * s + 8 - a) (8 * (P + b2z f)) (8 * (P + (1 - b2z f))) p = texel_at (8 * s - a) (8 * s - a + 8) (8 * (P + b2z f)) (8 * (P + (1 - b2z f))) p).
  { intros. f_equal; lia. }
  clear U.
  assert (T : forall (f : bool) a P p s, (p + a) / 8 = s ->
     texel_at (8 * s + 0 - a) (8 * s + 8 - a) (8 * (P + b2z f)) (8 * (P + (1 - b2z f))) p
     = 8 * P + (if f then 7 - (p + a) mod 8 else (p + a) mod 8)).
  { intros f a P p s E. replace (8 * s + 8 - a) with (8 * s + 0 - a + 8) by lia. destruct f; cbn [b2z].
    - replace (8 * (P + 1)) with (8 * P + 8) by lia. replace (8 * (P + (1 - 1))) with (8 * P) by lia. rewrite texel_mirror by lia. lia.
    - replace (8 * (P + (1 - 0))) with (8 * (P + 0) + 8) by lia. rewrite texel_up by lia. lia. }
  rewrite T by exact EX. rewrite T by exact EY.
  unfold chr_colour. rewrite chr_texture_pixel; [|assumption|assumption|destruct h; lia|destruct v; lia].
  apply shade_palette; try assumption. apply chr_pixel_range.
Qed.

(** of many drawings, only one of which touches the pixel, that one counts *)
Lemma fold_one : forall {A C} (f : A -> C -> A) (l : list C) (k : C) (a : A),
  (forall c a, In c l -> c <> k -> f a c = a) -> (forall c d : C, {c = d} + {c <> d}) -> NoDup l -> In k l ->
  fold_left f l a = f a k.
Proof.
  intros A C f l k a Hf dec. revert a. induction l as [|c l IH]; intros a Hd Hin; [destruct Hin|].
  cbn [fold_left]. inversion Hd as [|? ? Hc Hl]; subst. destruct (dec c k) as [->|N].
  - assert (G : forall l a, (forall c a, In c l -> f a c = a) -> fold_left f l a = a).
    { clear. induction l as [|d l IH]; intros a H; [reflexivity|]. cbn [fold_left]. rewrite H by now left. apply IH. intros; apply H; now right. }
    apply G. intros c b Hcin. apply Hf; [now right|]. intros ->. contradiction.
  - rewrite Hf; [|now left|assumption]. apply IH; [intros; apply Hf; [now right|assumption]|assumption|].
    destruct Hin as [->|]; [contradiction|assumption].
Qed.
Lemma fold_map : forall {A B C} (f : A -> B -> A) (g : C -> B) (l : list C) a,
  fold_left f (map g l) a = fold_left (fun a c => f a (g c)) l a.
Proof. induction l as [|c l IH]; intros; [reflexivity|]. apply IH. Qed.

Lemma draw_map : forall r b size bank w h ax ay f X Y below,
  0 < w -> size mod 32 = 0 -> 0 <= bank <= 5 -> bank mod 3 <> 2 ->
  0 <= X + ax < 8 * w -> 0 <= Y + ay < 8 * h ->
  (let c := f ((X + ax) / 8) ((Y + ay) / 8) in 0 <= c_chr c < size /\ 0 <= c_pal c <= 15) ->
  draw_va r b size bank (map_quads w h ax ay f) X Y below =
  over below (let c := f ((X + ax) / 8) ((Y + ay) / 8) in
              chr_colour r b bank (c_chr c) (c_pal c) (c_h c) (c_v c) ((X + ax) mod 8) ((Y + ay) mod 8)).
Proof.
  intros r b size bank w h ax ay f X Y below Hw Hs Hb H2 HX HY [Hc Hp]. cbv zeta in *.
  unfold draw_va, map_quads. rewrite fold_map. cbv zeta.
  set (x := (X + ax) / 8) in *. set (y := (Y + ay) / 8) in *.
  assert (Hx : 0 <= x < w) by (subst x; lia). assert (Hy : 0 <= y < h) by (subst y; lia).
  set (k := Z.to_nat (x + w * y)).
  assert (Hk : Z.of_nat k = x + w * y) by (subst k; nia).
  assert (Mx : (x + w * y) mod w = x).
  { rewrite Z.mul_comm, Z_mod_plus_full. apply Z.mod_small. lia. }
  assert (My : (x + w * y) / w = y).
  { rewrite Z.mul_comm, Z.div_add by lia. rewrite (Z.div_small x) by lia. lia. }
  rewrite (fold_one _ _ k).
  - rewrite Hk, Mx, My. rewrite draw_cell by assumption. fold x. fold y. rewrite !Z.eqb_refl. reflexivity.
  - intros c a Hin Hne.
    assert (Q : covers (cell_quad (Z.of_nat c mod w) (Z.of_nat c / w) ax ay (f (Z.of_nat c mod w) (Z.of_nat c / w))) X Y = false).
    { unfold covers, cell_quad. cbn [q1 q2 q4 vx vy]. rewrite !inside_up by lia.
      assert (D : Z.of_nat c = w * (Z.of_nat c / w) + Z.of_nat c mod w) by (apply Z.div_mod; lia).
      set (cx := Z.of_nat c mod w) in *. set (cy := Z.of_nat c / w) in *.
      destruct (Z.eq_dec cx x) as [E1|]; [|subst x; lia]. destruct (Z.eq_dec cy y) as [E2|]; [|subst y; lia].
      exfalso. apply Hne. apply Nat2Z.inj. rewrite Hk, D, E1, E2. lia. }
    unfold draw_quad. rewrite Q. reflexivity.
  - decide equality.
  - apply seq_NoDup.
  - apply in_seq. subst k. nia.
Qed.

(** a background word *)
Lemma word_cell_ok : forall t, word_cell t = mkC (t mod 1024) (Z.odd (t / 1024)) (Z.odd (t / 2048)) (t / 4096 mod 16).
Proof.
  intros t. unfold word_cell.
  change 1023 with (Z.shiftl (Z.ones 10) 0). change (Z.land t 1024) with (Z.land t (Z.shiftl (Z.ones 1) 10)).
  change (Z.land t 2048) with (Z.land t (Z.shiftl (Z.ones 1) 11)).
  change 61440 with (Z.shiftl (Z.ones 4) 12). rewrite !land_mask by lia. rewrite !Z.shiftr_div_pow2 by lia.
  f_equal.
  - lia.
  - rewrite (Zodd_mod (t / 1024)). replace (2 ^ 10 * (t / 2 ^ 10 mod 2 ^ 1) / 2 ^ 10) with (t / 1024 mod 2) by lia.
    unfold Zeq_bool. destruct (t / 1024 mod 2) eqn:E; try reflexivity. destruct p; try reflexivity; lia. lia.
  - rewrite (Zodd_mod (t / 2048)). replace (2 ^ 11 * (t / 2 ^ 11 mod 2 ^ 1) / 2 ^ 11) with (t / 2048 mod 2) by lia.
    unfold Zeq_bool. destruct (t / 2048 mod 2) eqn:E; try reflexivity. destruct p; try reflexivity; lia. lia.
  - lia.
Qed.

Lemma over_when : forall (b : bool) below c, over below (when b c) = if b then over below c else below.
Proof. destruct b; reflexivity. Qed.
Lemma offset_start : forall o, offset_ok o -> u32 (Z.quot (FP_TO_INT o) 8) mod 64 = FP_TO_INT o / 8 mod 64.
Proof.
  intros o H. unfold offset_ok in H. set (z := FP_TO_INT o) in *. unfold u32. change (2 ^ 32) with 4294967296. change (2 ^ 31) with 2147483648 in H.
  assert (E : Z.quot z 8 = z / 8); [|rewrite E; lia].
  destruct H as [H|[H1 H2]]; [apply Z.quot_div_nonneg; lia|].
  replace z with (z / 8 * 8) at 1 by lia. rewrite Z.quot_mul by lia. reflexivity.
Qed.
Lemma display_background_ok : forall s screen l X Y below,
  0 <= screen <= 1 -> 0 <= l <= 1 -> on_screen X Y ->
  offset_ok (ox (bg_ofs (sc_bg s) screen l)) -> offset_ok (oy (bg_ofs (sc_bg s) screen l)) ->
  display_background s screen l X Y below = over below (when (vis s (2 + l)) (bg_picture s screen l X Y)).
Proof.
  intros s screen l X Y below Hsc Hl [HX HY] Ox Oy. rewrite over_when. unfold display_background, vis.
  assert (V : (if negb (Z.testbit (sc_visible s) 2) && (l =? 0) then true else negb (Z.testbit (sc_visible s) 3) && (l =? 1)) = negb (Z.testbit (sc_visible s) (2 + l))).
  { assert (C : l = 0 \/ l = 1) by lia. destruct C as [-> | ->]; change (2 + 0) with 2; change (2 + 1) with 3;
      generalize (Z.testbit (sc_visible s) 2) (Z.testbit (sc_visible s) 3); intros [|] [|]; reflexivity. }
  destruct (negb (Z.testbit (sc_visible s) 2) && (l =? 0)).
  { destruct (Z.testbit (sc_visible s) (2 + l)); [discriminate|reflexivity]. }
  rewrite V. destruct (Z.testbit (sc_visible s) (2 + l)); [|reflexivity]. cbn [negb].
  rewrite (offset_start _ Ox), (offset_start _ Oy). unfold bg_picture. cbv zeta.
  set (zx := FP_TO_INT (ox (bg_ofs (sc_bg s) screen l))). set (zy := FP_TO_INT (oy (bg_ofs (sc_bg s) screen l))).
  assert (Ux : u32 zx mod 8 = zx mod 8) by (unfold u32; change (2 ^ 32) with 4294967296; lia).
  assert (Uy : u32 zy mod 8 = zy mod 8) by (unfold u32; change (2 ^ 32) with 4294967296; lia).
  rewrite Ux, Uy. clear Ux Uy.
  assert (B1 : 0 <= X + zx mod 8 < 8 * 33) by lia. assert (B2 : 0 <= Y + zy mod 8 < 8 * 25) by lia.
  assert (C : ((X + zx mod 8) / 8 <? 33) && ((Y + zy mod 8) / 8 <? 25) = true) by lia.
  rewrite draw_map; [|lia|reflexivity|lia|lia|lia|lia|].
  - rewrite C. rewrite word_cell_ok. cbv zeta. cbn [c_chr c_h c_v c_pal].
    replace (((X + zx mod 8) / 8 + zx / 8 mod 64) mod 64) with ((X + zx) mod 512 / 8) by lia.
    replace (((Y + zy mod 8) / 8 + zy / 8 mod 64) mod 64) with ((Y + zy) mod 512 / 8) by lia.
    replace ((X + zx mod 8) mod 8) with ((X + zx) mod 512 mod 8) by lia.
    replace ((Y + zy mod 8) mod 8) with ((Y + zy) mod 512 mod 8) by lia. reflexivity.
  - rewrite C. rewrite word_cell_ok. cbv zeta. cbn [c_chr c_h c_v c_pal].
    match goal with |- context [bg_word ?a ?b ?c ?d ?e] => generalize (bg_word a b c d e) end. intro t. lia.
Qed.

Lemma display_console_ok : forall s X Y below, on_screen X Y ->
  (forall i, (i < 768)%nat -> 0 <= to_char (nth i (Console.text (sc_con s)) 0) < 512) ->
  display_console s X Y below = over (over below (text_back_picture s X Y)) (when (vis s 0) (text_picture s X Y)).
Proof.
  intros s X Y below [HX HY] Ht. rewrite over_when. unfold display_console, vis. cbv zeta.
  assert (B : forall below, draw_va (sc_res s) 4 1024 0 (map_quads CW CH 0 0 (text_bg_cell (sc_con s))) X Y below = over below (text_back_picture s X Y)).
  { intro c. unfold CW, CH. rewrite draw_map; [|lia|reflexivity|lia|lia|lia|lia|].
    - unfold text_bg_cell, text_back_picture. cbv zeta. cbn [c_chr c_h c_v c_pal]. rewrite !Z.add_0_r.
      set (k := con_color (sc_con s) (X / 8) (Y / 8)).
      change 240 with (Z.shiftl (Z.ones 4) 4). rewrite land_mask, Z.shiftr_div_pow2 by lia.
      replace (2 ^ 4 * (k / 2 ^ 4 mod 2 ^ 4) / 2 ^ 4) with (k / 16 mod 16) by lia. reflexivity.
    - unfold text_bg_cell. cbv zeta. cbn [c_chr c_pal]. change 240 with (Z.shiftl (Z.ones 4) 4). rewrite land_mask, Z.shiftr_div_pow2 by lia.
      match goal with |- context [con_color ?a ?b ?c] => generalize (con_color a b c) end. intro k.
      split; [destruct (_ =? 0); lia|lia]. }
  rewrite B. destruct (Z.testbit (sc_visible s) 0); [|reflexivity].
  unfold CW, CH. rewrite draw_map; [|lia|reflexivity|lia|lia|lia|lia|].
  - unfold text_cell, text_picture. cbv zeta. cbn [c_chr c_h c_v c_pal]. rewrite !Z.add_0_r.
    change 15 with (Z.ones 4). rewrite Z.land_ones by lia. reflexivity.
  - unfold text_cell. cbv zeta. cbn [c_chr c_pal]. split; [|match goal with |- context [con_color ?a ?b ?c] => generalize (con_color a b c) end; intro k;
      pose proof (Z.land_ones k 4 ltac:(lia)) as L; change (Z.ones 4) with 15 in L; change (2 ^ 4) with 16 in L; lia].
    unfold con_text. apply Ht. unfold CW. lia.
Qed.

Lemma display_graphics_ok : forall s screen p X Y below, 0 <= screen <= 1 -> on_screen X Y ->
  display_graphics s screen p X Y below =
  over below (when (vis s 5 && (prio (sc_grp s) screen =? p)
                    && ((screen =? 0) || vis s 1 && ((sc_panel s =? PNL_OFF) || (sc_panel s =? PNL_PNL)))) (grp_picture s screen X Y)).
Proof.
  intros s screen p X Y below Hsc [HX HY]. rewrite over_when. unfold display_graphics, vis.
  rewrite (Z.eqb_sym p). rewrite (inside_up 0 256), (inside_up 0 192) by lia.
  replace ((0 <=? X) && (X <? 256) && ((0 <=? Y) && (Y <? 192))) with true by lia.
  replace (texel_at 0 256 0 256 X) with X by (symmetry; transitivity (0 + (X - 0)); [exact (texel_up 0 256 0 X eq_refl)|lia]).
  replace (texel_at 0 192 0 192 Y) with Y by (symmetry; transitivity (0 + (Y - 0)); [exact (texel_up 0 192 0 Y eq_refl)|lia]).
  assert (P : over below (shade (sc_res s) (2 + 3 * screen) true (u8 (pages (sc_grp s) (displaypage (sc_grp s) screen) (grp_index X Y))) 255)
              = over below (grp_picture s screen X Y)).
  { f_equal. unfold shade, grp_picture, colour_texel, col_texture. cbv zeta. unfold u8. change (2 ^ 8) with 256.
    set (c := pages (sc_grp s) (displaypage (sc_grp s) screen) (grp_index X Y) mod 256). assert (0 <= c < 256) by (subst c; lia).
    replace (Z.min 5 (6 * (2 + 3 * screen) / 5)) with (2 + 3 * screen) by lia.
    replace (Z.min 255 (256 * c / 255)) with c by lia.
    destruct (Z.eqb_spec ((2 + 3 * screen) mod 3) 2); [|lia]. destruct (c =? 0); [reflexivity|]. now rewrite shown_colour_ok. }
  rewrite P. clear P. assert (C : screen = 0 \/ screen = 1) by lia. destruct C as [-> | ->]; cbn [Z.eqb Pos.eqb andb orb].
  - rewrite andb_true_r. destruct (Z.testbit (sc_visible s) 5), (prio (sc_grp s) 0 =? p); reflexivity.
  - destruct ((sc_panel s =? PNL_OFF) || (sc_panel s =? PNL_PNL)), (Z.testbit (sc_visible s) 1), (Z.testbit (sc_visible s) 5), (prio (sc_grp s) 1 =? p); reflexivity.
Qed.

(** sprites: the place within the picture, counted along the drawing direction, [z] pixels for each of the picture's *)
Definition along (f : bool) (z a X : Z) : Z := (if f then a - 1 - X else X - a) / z.
Definition dir (f : bool) (z : Z) : Z := if f then - (32768 * z) else 32768 * z.
Lemma along_step : forall f z a X, 0 < z -> along f z (FP_TO_INT (a + dir f z)) X = along f z (FP_TO_INT a) X - 8.
Proof.
  intros f z a X Hz.
  assert (S : FP_TO_INT (a + dir f z) = FP_TO_INT a + (if f then - (8 * z) else 8 * z)).
  { unfold FP_TO_INT, dir. destruct f; [replace (a + - (32768 * z)) with (a + - (8 * z) * 4096) by ring|replace (a + 32768 * z) with (a + 8 * z * 4096) by ring];
      rewrite Z.div_add by lia; lia. }
  rewrite S. unfold along. destruct f.
  - replace (FP_TO_INT a + - (8 * z) - 1 - X) with (FP_TO_INT a - 1 - X + - 8 * z) by ring. rewrite Z.div_add by lia. lia.
  - replace (X - (FP_TO_INT a + 8 * z)) with (X - FP_TO_INT a + - 8 * z) by ring. rewrite Z.div_add by lia. lia.
Qed.
Lemma piece_ok : forall r b size bank pal fx fy z xc yc chr X Y below, 0 < z ->
  0 <= chr < size -> size mod 32 = 0 -> 0 <= bank <= 5 -> bank mod 3 <> 2 -> 0 <= pal <= 15 ->
  let i := along fx z (FP_TO_INT xc) X in let j := along fy z (FP_TO_INT yc) Y in
  draw_va r b size bank (piece_row 1 xc yc (dir fx z) (dir fy z) chr (u8 (16 * pal))) X Y below =
  if (0 <=? i) && (i <? 8) && (0 <=? j) && (j <? 8) then over below (palette_colour r bank pal (chr_pixel r b chr i j)) else below.
Proof.
  intros r b size bank pal fx fy z xc yc chr X Y below Hz Hc Hs Hb H2 Hp i j.
  cbn [piece_row]. unfold draw_va. cbn [fold_left]. unfold draw_quad, covers, tex_coord. cbn [q1 q2 q4 vx vy vred tu tv fst snd].
  assert (S : forall (f : bool) a, FP_TO_INT (a + dir f z) = FP_TO_INT a + (if f then - (8 * z) else 8 * z)).
  { intros f a. unfold FP_TO_INT, dir. destruct f; [replace (a + - (32768 * z)) with (a + - (8 * z) * 4096) by ring|replace (a + 32768 * z) with (a + 8 * z * 4096) by ring];
      rewrite Z.div_add by lia; lia. }
  rewrite !S.
  assert (I : forall (f : bool) a x, inside a (a + (if f then - (8 * z) else 8 * z)) x = (0 <=? along f z a x) && (along f z a x <? 8)).
  { intros f a x. unfold along. rewrite div_nonneg_b, div_below_b by assumption. destruct f; [rewrite inside_down by lia; lia|rewrite inside_up by lia; lia]. }
  rewrite !I. fold i. fold j. rewrite <- andb_assoc.
  destruct (Z.leb_spec 0 i); [|reflexivity]. destruct (Z.ltb_spec i 8); [|reflexivity].
  destruct (Z.leb_spec 0 j); [|reflexivity]. destruct (Z.ltb_spec j 8); [|reflexivity]. cbn [andb]. f_equal.
  assert (T : forall (f : bool) a p x, texel_at a (a + (if f then - (8 * z) else 8 * z)) (8 * (p + 0)) (8 * (p + 1)) x = 8 * p + along f z a x).
  { intros f a p x. replace (8 * (p + 1)) with (8 * (p + 0) + 8) by lia. unfold along. destruct f.
    - replace (a + - (8 * z)) with (a - 8 * z) by lia. rewrite texel_zoom_down by lia. lia.
    - rewrite texel_zoom_up by lia. lia. }
  rewrite !T. fold i. fold j. rewrite chr_texture_pixel by lia. apply shade_palette; try assumption. apply chr_pixel_range.
Qed.
Lemma draw_va_app : forall r b size bank l1 l2 X Y below,
  draw_va r b size bank (l1 ++ l2) X Y below = draw_va r b size bank l2 X Y (draw_va r b size bank l1 X Y below).
Proof. intros. unfold draw_va. apply fold_left_app. Qed.
Lemma row_ok : forall r b size bank pal fx fy z n xc yc chr X Y below, 0 < z ->
  0 <= chr -> chr + Z.of_nat n <= size -> size mod 32 = 0 -> 0 <= bank <= 5 -> bank mod 3 <> 2 -> 0 <= pal <= 15 ->
  let i := along fx z (FP_TO_INT xc) X in let j := along fy z (FP_TO_INT yc) Y in
  draw_va r b size bank (piece_row n xc yc (dir fx z) (dir fy z) chr (u8 (16 * pal))) X Y below =
  if (0 <=? i) && (i <? 8 * Z.of_nat n) && (0 <=? j) && (j <? 8)
  then over below (palette_colour r bank pal (chr_pixel r b (chr + i / 8) (i mod 8) j)) else below.
Proof.
  intros r b size bank pal fx fy z. induction n as [|n IH]; intros xc yc chr X Y below Hz Hc Hn Hs Hb H2 Hp i j.
  - cbn [piece_row Z.of_nat]. replace (_ && _) with false; [reflexivity|]. symmetry. lia.
  - change (piece_row (S n) xc yc (dir fx z) (dir fy z) chr (u8 (16 * pal)))
      with (piece_row 1 xc yc (dir fx z) (dir fy z) chr (u8 (16 * pal)) ++ piece_row n (xc + dir fx z) yc (dir fx z) (dir fy z) (chr + 1) (u8 (16 * pal))).
    rewrite draw_va_app, piece_ok by (assumption || lia). cbv zeta. fold i. fold j.
    rewrite IH by (assumption || lia). cbv zeta. fold j. rewrite along_step by assumption. fold i.
    destruct (Z.leb_spec 0 j); [|rewrite !andb_false_r; cbn [andb]; reflexivity].
    destruct (Z.ltb_spec j 8); [|rewrite !andb_false_r; cbn [andb]; reflexivity]. rewrite !andb_true_r.
    clearbody i.
    destruct (Z.leb_spec 0 i).
    + destruct (Z.ltb_spec i 8); cbn [andb].
      * replace (0 <=? i - 8) with false by lia. cbn [andb]. replace (i <? 8 * Z.of_nat (S n)) with true by lia.
        replace (i / 8) with 0 by lia. replace (i mod 8) with i by lia. now rewrite Z.add_0_r.
      * replace (0 <=? i - 8) with true by lia. cbn [andb].
        replace (i - 8 <? 8 * Z.of_nat n) with (i <? 8 * Z.of_nat (S n)) by lia.
        replace (chr + 1 + (i - 8) / 8) with (chr + i / 8) by lia. replace ((i - 8) mod 8) with (i mod 8) by lia. reflexivity.
    + cbn [andb]. replace (0 <=? i - 8) with false by lia. reflexivity.
Qed.
Lemma rows_ok : forall r b size bank pal fx fy z n m xc yc chr X Y below, 0 < z ->
  0 <= chr -> chr + Z.of_nat n * Z.of_nat m <= size -> size mod 32 = 0 -> 0 <= bank <= 5 -> bank mod 3 <> 2 -> 0 <= pal <= 15 ->
  let i := along fx z (FP_TO_INT xc) X in let j := along fy z (FP_TO_INT yc) Y in
  draw_va r b size bank (piece_rows m n xc yc (dir fx z) (dir fy z) chr (u8 (16 * pal))) X Y below =
  if (0 <=? i) && (i <? 8 * Z.of_nat n) && (0 <=? j) && (j <? 8 * Z.of_nat m)
  then over below (palette_colour r bank pal (chr_pixel r b (chr + Z.of_nat n * (j / 8) + i / 8) (i mod 8) (j mod 8))) else below.
Proof.
  intros r b size bank pal fx fy z n. induction m as [|m IH]; intros xc yc chr X Y below Hz Hc Hn Hs Hb H2 Hp i j.
  - cbn [piece_rows Z.of_nat]. replace (_ && _) with false; [reflexivity|]. symmetry. lia.
  - cbn [piece_rows]. rewrite draw_va_app, row_ok by (assumption || nia). cbv zeta. fold i. fold j.
    rewrite IH by (assumption || nia). cbv zeta. fold i. rewrite along_step by assumption. fold j.
    clearbody i j.
    destruct ((0 <=? i) && (i <? 8 * Z.of_nat n)); [|reflexivity]. cbn [andb].
    destruct (Z.leb_spec 0 j); cbn [andb]; [|replace (0 <=? j - 8) with false by lia; reflexivity].
    destruct (Z.ltb_spec j 8).
    + replace (0 <=? j - 8) with false by lia. cbn [andb]. replace (j <? 8 * Z.of_nat (S m)) with true by lia.
      replace (j / 8) with 0 by lia. replace (j mod 8) with j by lia. now rewrite Z.mul_0_r, Z.add_0_r.
    + replace (0 <=? j - 8) with true by lia. cbn [andb].
      replace (j - 8 <? 8 * Z.of_nat m) with (j <? 8 * Z.of_nat (S m)) by lia.
      replace ((j - 8) mod 8) with (j mod 8) by lia.
      replace (chr + Z.of_nat n + Z.of_nat n * ((j - 8) / 8)) with (chr + Z.of_nat n * (j / 8)); [reflexivity|].
      replace ((j - 8) / 8) with (j / 8 - 1) by lia. ring.
Qed.

(** a whole sprite *)
Lemma flip_div : forall z w i, 0 < z -> (z * w - 1 - i) / z = w - 1 - i / z.
Proof.
  intros. symmetry. apply (Z.div_unique _ _ _ (z - 1 - i mod z)); [pose proof (Z.mod_pos_bound i z H); lia|].
  pose proof (Z.div_mod i z ltac:(lia)). nia.
Qed.
Lemma add_sprite_ok : forall r b size bank s X Y below, natural size s -> size mod 32 = 0 -> 0 <= bank <= 5 -> bank mod 3 <> 2 ->
  exists qs, add_sprite s = Some qs /\ draw_va r b size bank qs X Y below = over below (sprite_picture r b bank s X Y).
Proof.
  intros r b size bank s X Y below N Hs Hb H2. destruct N as (Ha & Hsc & Hz & Hpx & Hpy & Hw & Hw8 & Hh & Hh8 & Hp & Hc & Hsz).
  unfold add_sprite, sprite_picture. rewrite Ha. cbn [Z.eqb negb].
  replace ((Z.abs (px_ (pos s)) >? 2 ^ 30) || (Z.abs (py_ (pos s)) >? 2 ^ 30)) with false by lia.
  set (z := zoom s) in *. rewrite Hsc. cbv zeta.
  set (px := px_ (pos s)). set (py := py_ (pos s)). set (w := s_w s) in *. set (h := s_h s) in *. set (hx := s_homex s). set (hy := s_homey s).
  assert (Q : forall (f : bool) (len home p : Z), 0 < len ->
     let '(a, c) := (- (4096 * z) * home, - (4096 * z) * home + len * (4096 * z)) in
     let '(a, c) := if f then (c, a) else (a, c) in
     Z.quot (c + p - (a + p)) len * 8 = dir f z /\ a + p = p - 4096 * z * home + (if f then 4096 * z * len else 0)).
  { intros f len home p Hl. destruct f; split; try ring; unfold dir.
    - replace (- (4096 * z) * home + p - (- (4096 * z) * home + len * (4096 * z) + p)) with (- (4096 * z) * len) by ring. rewrite Z.quot_mul by lia. ring.
    - replace (- (4096 * z) * home + len * (4096 * z) + p - (- (4096 * z) * home + p)) with (4096 * z * len) by ring. rewrite Z.quot_mul by lia. ring. }
  pose proof (Q (s_flipx s) w hx px Hw) as QX. pose proof (Q (s_flipy s) h hy py Hh) as QY. cbv beta iota in QX, QY.
  destruct (if s_flipx s then (- (4096 * z) * hx + w * (4096 * z), - (4096 * z) * hx) else (- (4096 * z) * hx, - (4096 * z) * hx + w * (4096 * z))) as [x1 x2].
  destruct (if s_flipy s then (- (4096 * z) * hy + h * (4096 * z), - (4096 * z) * hy) else (- (4096 * z) * hy, - (4096 * z) * hy + h * (4096 * z))) as [y1 y4].
  eexists. split; [reflexivity|].
  destruct QX as [QX1 QX2]. destruct QY as [QY1 QY2]. rewrite QX1, QX2, QY1, QY2.
  rewrite rows_ok; [|assumption|lia|nia|assumption|assumption|assumption|assumption]. cbv zeta.
  assert (A : forall (f : bool) p home len x, 0 < len ->
     along f z (FP_TO_INT (p - 4096 * z * home + (if f then 4096 * z * len else 0))) x
     = let i := (x - (FP_TO_INT p - z * home)) / z in if f then len - 1 - i else i).
  { intros f p home len x Hl. cbv zeta. unfold along, FP_TO_INT. destruct f.
    - replace (p - 4096 * z * home + 4096 * z * len) with (p + (z * len - z * home) * 4096) by ring. rewrite Z.div_add by lia.
      rewrite <- flip_div by assumption. apply (f_equal (fun t => t / z)). ring.
    - replace (p - 4096 * z * home + 0) with (p + - (z * home) * 4096) by ring. rewrite Z.div_add by lia. apply (f_equal (fun t => t / z)). ring. }
  rewrite !A by assumption. cbv zeta.
  set (i := (X - (FP_TO_INT px - z * hx)) / z). set (j := (Y - (FP_TO_INT py - z * hy)) / z). clearbody i j.
  replace (8 * Z.of_nat (Z.to_nat (w / 8))) with w by lia. replace (8 * Z.of_nat (Z.to_nat (h / 8))) with h by lia.
  replace (Z.of_nat (Z.to_nat (w / 8))) with (w / 8) by lia.
  assert (C : (0 <=? (if s_flipx s then w - 1 - i else i)) && ((if s_flipx s then w - 1 - i else i) <? w)
              && (0 <=? (if s_flipy s then h - 1 - j else j)) && ((if s_flipy s then h - 1 - j else j) <? h)
              = (0 <=? i) && (i <? w) && (0 <=? j) && (j <? h)) by (destruct (s_flipx s), (s_flipy s); lia).
  rewrite C. destruct ((0 <=? i) && (i <? w) && (0 <=? j) && (j <? h)); reflexivity.
Qed.

Lemma over_first : forall l below, fold_left over l below = over below (first_shown (rev l)).
Proof.
  induction l as [|c l IH]; intro below; [reflexivity|]. cbn [fold_left rev]. rewrite IH.
  assert (A : forall a b, first_shown (a ++ [b]) = match first_shown a with Some c => Some c | None => b end).
  { clear. induction a as [|[x|] a IH]; intro b; cbn [app first_shown]; [destruct b; reflexivity|reflexivity|apply IH]. }
  rewrite A. destruct (first_shown (rev l)); [reflexivity|]. destruct c; reflexivity.
Qed.
Lemma sprite_quads_ok : forall r b size bank p l X Y, size mod 32 = 0 -> 0 <= bank <= 5 -> bank mod 3 <> 2 ->
  (forall q, In q l -> active q = true -> natural size q) ->
  exists qs, sprite_quads l p = Some qs /\
    forall below, draw_va r b size bank qs X Y below =
      fold_left over (map (fun q => if active q && (s_prio q =? p) then sprite_picture r b bank q X Y else None) l) below.
Proof.
  intros r b size bank p l X Y Hs Hb H2. induction l as [|q l IH]; intro N.
  - exists []. split; reflexivity.
  - destruct IH as (qs & E & D); [intros; apply N; [now right|assumption]|]. cbn [sprite_quads map fold_left]. rewrite E.
    destruct (active q) eqn:A; cbn [andb]; [|exists qs; split; [reflexivity|exact D]].
    destruct (s_prio q =? p); [|exists qs; split; [reflexivity|exact D]].
    assert (Nq : natural size q) by (apply N; [now left|assumption]).
    destruct (add_sprite_ok r b size bank q X Y black Nq Hs Hb H2) as (q0 & Eq & _). rewrite Eq.
    exists (q0 ++ qs). split; [reflexivity|]. intro below. rewrite draw_va_app.
    destruct (add_sprite_ok r b size bank q X Y below Nq Hs Hb H2) as (q1 & Eq1 & Dq). rewrite Eq in Eq1. injection Eq1 as <-.
    rewrite Dq. apply D.
Qed.
Lemma display_sprite_ok : forall s screen p X Y below, 0 <= screen <= 1 ->
  (forall q, In q (sprite_list (sc_spr s) screen) -> active q = true -> natural (if screen =? 1 then 512 else 2048) q) ->
  display_sprite s screen p X Y below =
  Some (over below (when (vis s 4 && ((screen =? 0) || vis s 1 && (sc_panel s =? PNL_OFF))) (sprites_picture s screen p X Y))).
Proof.
  intros s screen p X Y below Hsc N. rewrite over_when. unfold display_sprite, vis, sprites_picture.
  assert (C : screen = 0 \/ screen = 1) by lia. destruct C as [-> | ->]; cbn [Z.eqb Pos.eqb andb orb] in *.
  - rewrite andb_true_r. destruct (Z.testbit (sc_visible s) 4); [|reflexivity]. cbn [negb].
    destruct (sprite_quads_ok (sc_res s) 12 2048 1 p _ X Y eq_refl ltac:(lia) ltac:(discriminate) N) as (qs & E & D).
    rewrite E, D, over_first, map_rev. reflexivity.
  - destruct (sc_panel s =? PNL_OFF); cbn [negb orb]; [|rewrite !andb_false_r; reflexivity]. rewrite andb_true_r.
    destruct (Z.testbit (sc_visible s) 1); cbn [negb]; [|rewrite !andb_false_r; reflexivity].
    destruct (Z.testbit (sc_visible s) 4); [|reflexivity]. cbn [negb andb].
    destruct (sprite_quads_ok (sc_res s) 42 512 4 p _ X Y eq_refl ltac:(lia) ltac:(discriminate) N) as (qs & E & D).
    rewrite E, D, over_first, map_rev. reflexivity.
Qed.
Lemma display_cursor_ok : forall s X Y below, 0 <= cx (sc_con s) <= 31 -> 0 <= cy (sc_con s) <= 23 ->
  display_cursor s X Y below = Some (over below (when (sc_cursor s) (cursor_picture s X Y))).
Proof.
  intros s X Y below Hx Hy. rewrite over_when. unfold display_cursor. destruct (sc_cursor s); [|reflexivity]. cbn [negb].
  assert (F : forall c, 0 <= c <= 31 -> INT_TO_FP (c * 8) = 32768 * c).
  { intros c Hc. unfold INT_TO_FP, s32, u32. change (2 ^ 32) with 4294967296. change (2 ^ 31) with 2147483648. lia. }
  rewrite !F by lia.
  set (q := set_pos _ _).
  assert (N : natural 512 q).
  { subst q. unfold natural, zoom, set_pos, init_sprite_info, get_sprite_chr. cbn [angle scale pos cv px_ py_ s_w s_h s_pal anim_ a_chr s_chr].
    change (INT_TO_FP 1) with 4096. change (-1 >=? 0) with false. cbv iota. change (u8 8) with 8. change (u8 0) with 0. change (u16 108) with 108.
    change (4096 / 4096) with 1. change (8 / 8) with 1. change (2 ^ 30) with 1073741824. repeat split; lia. }
  destruct (add_sprite_ok (sc_res s) 20 512 1 q X Y below N eq_refl ltac:(lia) ltac:(discriminate)) as (qs & E & D).
  rewrite E, D. f_equal. f_equal. subst q. unfold sprite_picture, cursor_picture, zoom, set_pos, init_sprite_info, get_sprite_chr.
  cbn [angle scale pos cv px_ py_ s_w s_h s_pal anim_ a_chr s_chr s_homex s_homey s_flipx s_flipy].
  change (INT_TO_FP 1) with 4096. change (-1 >=? 0) with false. cbv iota. change (u8 8) with 8. change (u8 0) with 0. change (u16 108) with 108.
  change (4096 / 4096) with 1. cbv zeta. rewrite !Z.div_1_r.
  replace (X - (FP_TO_INT (32768 * cx (sc_con s)) - 1 * 0)) with (X - 8 * cx (sc_con s)) by (unfold FP_TO_INT; lia).
  replace (Y - (FP_TO_INT (32768 * cy (sc_con s)) - 1 * 0)) with (Y - 8 * cy (sc_con s)) by (unfold FP_TO_INT; lia).
  set (i := X - 8 * cx (sc_con s)). set (j := Y - 8 * cy (sc_con s)). clearbody i j.
  destruct (Z.leb_spec 0 i); [|reflexivity]. destruct (Z.ltb_spec i 8); [|reflexivity]. destruct (Z.leb_spec 0 j); [|reflexivity].
  destruct (Z.ltb_spec j 8); [|reflexivity]. cbn [andb].
  replace (4 * 108 + 8 / 8 * (j / 8) + i / 8) with 432 by lia. replace (i mod 8) with i by lia. replace (j mod 8) with j by lia. reflexivity.
Qed.
