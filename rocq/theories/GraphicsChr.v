(** C59: GPUTCHR. *)
From Coq Require Import String Ascii.
From Verif Require Import Base BaseLemmas Strs Memory Resources ResourcesSpec ResourcesProofs ResourcesProps Graphics GraphicsSpec GraphicsProofs GraphicsProps GraphicsState.
Ltac Zify.zify_post_hook ::= Z.div_mod_to_equations.
Open Scope Z_scope.

(** ** Specification *)
(** Dot (i, j) of character [ch] of a bank: 32 bytes a character, 4 bytes a row, two dots a byte, the left
    one in the lower half. *)
Definition dot (bank : list Z) (ch i j : Z) : Z :=
  let b := nth (Z.to_nat (32 * ch + 4 * j + i / 2)) bank 0 in if i mod 2 =? 0 then b mod 16 else b / 16.
(** the dot that pixel (x, y) shows of a character at (X, Y), each dot [s] pixels wide and high *)
Definition shown (bank : list Z) (ch X Y s x y : Z) : Z :=
  if (X <=? x) && (x <? X + 8 * s) && (Y <=? y) && (y <? Y + 8 * s) then dot bank ch ((x - X) / s) ((y - Y) / s) else 0.
(** the palettes of the characters: COL0 for the background, COL1 for the sprites; of the page given, if any *)
Definition palette_of (t : list Z) : list Z :=
  text "COL" ++ (if nth 0 t 0 =? 66 then text "0" else text "1") ++ skipn 4 t.
(** what is left of the banks: every palette but one unchanged, and of that one every entry but sixteen *)
Definition palette_copied (col col' : Z -> list Z) (from to pal : Z) : Prop :=
  (forall b, b <> to -> col' b = col b) /\
  (forall e, 0 <= e < 256 -> nth (Z.to_nat e) (col' to) 0 =
     if (16 * pal <=? e) && (e <? 16 * pal + 16) then nth (Z.to_nat e) (col from) 0 else nth (Z.to_nat e) (col to) 0).

(** ** Proofs *)
Section Put.
Variables (src : list Z) (xs ys size pal : Z) (mode : bool).
Definition put_one (p : page) (r : (Z * Z) * Z) : page :=
  let '((xp, yp), c) := r in
  if negb (c =? 0) && (xp >=? 0) && (xp <? GRP_WIDTH) && negb (yp =? 0) && (yp <? GRP_HEIGHT) then grp_pixel p xp yp (16 * pal + c) mode else p.
Definition puts (cells : list (Z * Z)) : list ((Z * Z) * Z) :=
  flat_map (fun q => map (fun r => (r, chr_pixel src (fst q) (snd q))) (cell_points xs ys size (fst q) (snd q))) cells.
Lemma fold_map {A B C} (f : A -> B -> A) (g : C -> B) : forall l a, fold_left f (map g l) a = fold_left (fun a c => f a (g c)) l a.
Proof. induction l as [|c l IH]; intros a; [reflexivity|]. cbn [map fold_left]. apply IH. Qed.
Lemma fold_ext {A B} (f g : A -> B -> A) : (forall a b, f a b = g a b) -> forall l a, fold_left f l a = fold_left g l a.
Proof. intros E l. induction l as [|c l IH]; intros a; [reflexivity|]. cbn [fold_left]. rewrite E. apply IH. Qed.
Lemma put_cells_eq : forall cells p, fold_left (put_cell src xs ys size pal mode) cells p = fold_left put_one (puts cells) p.
Proof.
  induction cells as [|[x y] cells IH]; intros p; [reflexivity|]. unfold puts. cbn [flat_map]. rewrite fold_left_app. fold (puts cells).
  cbn [fold_left]. rewrite IH. f_equal. unfold put_cell. cbn [fst snd]. rewrite fold_map. apply fold_ext. intros q [a b]. reflexivity.
Qed.
Lemma put_one_px p r a b : 0 <= a < 256 -> 0 <= b < 192 ->
  px (put_one p r) a b = if (a =? fst (fst r)) && (b =? snd (fst r)) && negb (snd r =? 0) && negb (b =? 0) then blend mode (px p a b) (16 * pal + snd r) else px p a b.
Proof.
  intros Ha Hb. destruct r as [[xp yp] c]. unfold put_one, GRP_WIDTH, GRP_HEIGHT. cbn [fst snd].
  destruct (negb (c =? 0) && (xp >=? 0) && (xp <? 256) && negb (yp =? 0) && (yp <? 192)) eqn:E.
  - rewrite px_pixel by assumption. destruct ((a =? xp) && (b =? yp)) eqn:F; [|reflexivity].
    cbn [andb]. replace (negb (c =? 0) && negb (b =? 0)) with true by lia. reflexivity.
  - destruct ((a =? xp) && (b =? yp) && negb (c =? 0) && negb (b =? 0)) eqn:F; [exfalso; lia|reflexivity].
Qed.
Lemma puts_px a b : 0 <= a < 256 -> 0 <= b < 192 -> forall l p, NoDup (map fst l) ->
  (~ In (a, b) (map fst l) -> px (fold_left put_one l p) a b = px p a b) /\
  (forall c, In ((a, b), c) l -> px (fold_left put_one l p) a b = if negb (c =? 0) && negb (b =? 0) then blend mode (px p a b) (16 * pal + c) else px p a b).
Proof.
  intros Ha Hb l. induction l as [|[[x y] d] l IH]; intros p N; [split; [reflexivity|intros c []]|].
  cbn [map fst] in *. inversion N as [|? ? NI N']; subst. destruct (IH (put_one p ((x, y), d)) N') as (I1 & I2). cbn [fold_left].
  assert (E := put_one_px p ((x, y), d) a b Ha Hb). cbn [fst snd] in E. split.
  - intros NIn. rewrite I1 by (intros I; apply NIn; right; exact I). rewrite E.
    destruct ((a =? x) && (b =? y)) eqn:F; [|reflexivity]. exfalso. apply NIn. left. f_equal; lia.
  - intros c [H|H].
    + injection H as -> -> ->. rewrite I1 by exact NI. rewrite E, !Z.eqb_refl. reflexivity.
    + rewrite (I2 c H). rewrite E. destruct ((a =? x) && (b =? y)) eqn:F; [|reflexivity]. exfalso. apply NI.
      assert (x = a) as -> by lia. assert (y = b) as -> by lia. apply (in_map fst) in H. exact H.
Qed.
Hypothesis size1 : 0 < size.
Lemma in_cell x y a b : In (a, b) (cell_points xs ys size x y) <-> (a - xs) / size = x /\ (b - ys) / size = y.
Proof.
  unfold cell_points. rewrite in_flat_map. split.
  - intros (i & I & J). apply in_map_iff in J. destruct J as (j & E & J). injection E as <- <-. apply in_zrange in I, J.
    split; symmetry; [apply (Z.div_unique_pos _ _ _ j)|apply (Z.div_unique_pos _ _ _ i)]; lia.
  - intros (<- & <-). assert (A := Z.div_mod (a - xs) size ltac:(lia)). assert (B := Z.div_mod (b - ys) size ltac:(lia)).
    assert (A' := Z.mod_pos_bound (a - xs) size size1). assert (B' := Z.mod_pos_bound (b - ys) size size1).
    exists ((b - ys) mod size). split; [apply in_zrange; lia|]. apply in_map_iff. exists ((a - xs) mod size). split; [f_equal; lia|apply in_zrange; lia].
Qed.
Lemma nodup_flat {A B} (f : A -> list B) (l : list A) : NoDup l -> (forall x, NoDup (f x)) -> (forall x y q, In q (f x) -> In q (f y) -> x = y) -> NoDup (flat_map f l).
Proof.
  intros N F D. induction N as [|x l NI N IH]; [constructor|]. cbn [flat_map].
  assert (G : forall u v, NoDup u -> NoDup v -> (forall q : B, In q u -> In q v -> False) -> NoDup (u ++ v)).
  { clear. intros u v Nu Nv K. induction Nu as [|q u NI Nu IH]; [exact Nv|]. cbn [app]. constructor.
    - intros I. apply in_app_or in I. destruct I as [I|I]; [contradiction|apply (K q); [left; reflexivity|exact I]].
    - apply IH. intros r I J. apply (K r); [right; exact I|exact J]. }
  apply G; [apply F|exact IH|]. intros q I J. apply in_flat_map in J. destruct J as (y & Iy & Jy). rewrite (D x y q I Jy) in NI. contradiction.
Qed.
Lemma nodup_cell x y : NoDup (cell_points xs ys size x y).
Proof.
  unfold cell_points. apply nodup_flat; [apply nodup_zrange| |].
  - intros i. apply FinFun.Injective_map_NoDup; [intros j k E; injection E; lia|apply nodup_zrange].
  - intros i j q I J. apply in_map_iff in I, J. destruct I as (u & <- & _). destruct J as (v & E & _). injection E; lia.
Qed.
Lemma in_cells x y : In (x, y) chr_cells <-> 0 <= x <= 7 /\ 0 <= y <= 7.
Proof.
  unfold chr_cells. rewrite in_flat_map. split.
  - intros (j & I & J). apply in_map_iff in J. destruct J as (i & E & J). injection E as <- <-. apply in_zrange in I, J. tauto.
  - intros (Hx & Hy). exists y. split; [apply in_zrange; exact Hy|]. apply in_map_iff. exists x. split; [reflexivity|apply in_zrange; exact Hx].
Qed.
Lemma nodup_cells : NoDup chr_cells.
Proof.
  unfold chr_cells. apply nodup_flat; [apply nodup_zrange| |].
  - intros i. apply FinFun.Injective_map_NoDup; [intros j k E; injection E; trivial|apply nodup_zrange].
  - intros i j q I J. apply in_map_iff in I, J. destruct I as (u & <- & _). destruct J as (v & E & _). injection E; auto.
Qed.
Lemma puts_points : forall cells, map fst (puts cells) = flat_map (fun q => cell_points xs ys size (fst q) (snd q)) cells.
Proof.
  induction cells as [|q cells IH]; [reflexivity|]. unfold puts. cbn [flat_map]. rewrite map_app. fold (puts cells). rewrite IH. f_equal.
  rewrite map_map. cbn [fst]. apply map_id.
Qed.
Lemma nodup_puts : NoDup (map fst (puts chr_cells)).
Proof.
  rewrite puts_points. apply nodup_flat; [apply nodup_cells|intros [x y]; apply nodup_cell|].
  intros [x y] [u v] [a b] I J. cbn [fst snd] in *. apply in_cell in I, J. f_equal; lia.
Qed.
Lemma put_chr_px p a b : 0 <= a < 256 -> 0 <= b < 192 ->
  let x := (a - xs) / size in let y := (b - ys) / size in
  px (put_chr src xs ys size pal mode p) a b =
    if (0 <=? x) && (x <=? 7) && (0 <=? y) && (y <=? 7) && negb (chr_pixel src x y =? 0) && negb (b =? 0)
    then blend mode (px p a b) (16 * pal + chr_pixel src x y) else px p a b.
Proof.
  intros Ha Hb x y. unfold put_chr. rewrite put_cells_eq. destruct (puts_px a b Ha Hb (puts chr_cells) p nodup_puts) as (I1 & I2).
  destruct ((0 <=? x) && (x <=? 7) && (0 <=? y) && (y <=? 7)) eqn:E; cbn [andb].
  - apply I2. unfold puts. apply in_flat_map. exists (x, y). split; [apply in_cells; lia|]. apply in_map_iff. exists (a, b). cbn [fst snd].
    split; [reflexivity|]. apply in_cell. split; reflexivity.
  - apply I1. rewrite puts_points. intros I. apply in_flat_map in I. destruct I as ([u v] & C & I). cbn [fst snd] in I. apply in_cells in C. apply in_cell in I. lia.
Qed.
End Put.

Lemma nth_firstn {A} : forall k (l : list A) n d, (n < k)%nat -> nth n (firstn k l) d = nth n l d.
Proof. induction k as [|k IH]; intros l n d H; [lia|]. destruct l as [|a l]; [destruct n; reflexivity|]. destruct n as [|n]; [reflexivity|]. cbn [firstn nth]. apply IH. lia. Qed.
Lemma nth_skipn' {A} : forall k (l : list A) n d, nth n (skipn k l) d = nth (k + n) l d.
Proof. induction k as [|k IH]; intros l n d; [reflexivity|]. destruct l as [|a l]; [destruct n; reflexivity|]. cbn [skipn Nat.add nth]. apply IH. Qed.
Lemma chr_dot bank ch x y : 0 <= ch <= 255 -> 0 <= x <= 7 -> 0 <= y <= 7 ->
  chr_pixel (firstn 32 (skipn (Z.to_nat (32 * ch)) bank)) x y = dot bank ch x y.
Proof.
  intros Hc Hx Hy. unfold chr_pixel, dot. rewrite nth_firstn by lia. rewrite nth_skipn'.
  replace (Z.to_nat (32 * ch) + Z.to_nat (x / 2 + 4 * y))%nat with (Z.to_nat (32 * ch + 4 * y + x / 2)) by lia.
  destruct (x mod 2 =? 0).
  - assert (E := Z.land_ones (nth (Z.to_nat (32 * ch + 4 * y + x / 2)) bank 0) 4 ltac:(lia)). change (Z.ones 4) with 15 in E. change (2 ^ 4) with 16 in E. exact E.
  - rewrite Z.shiftr_div_pow2 by lia. reflexivity.
Qed.
Lemma dot_range bank ch i j : Forall (fun v => 0 <= v <= 255) bank -> 0 <= dot bank ch i j <= 15.
Proof.
  intros F. unfold dot. set (k := Z.to_nat _).
  assert (V : 0 <= nth k bank 0 <= 255).
  { destruct (nth_in_or_default k bank 0) as [I|E]; [rewrite Forall_forall in F; apply F; exact I|rewrite E; lia]. }
  destruct (i mod 2 =? 0); lia.
Qed.
Lemma shown_range bank ch X Y s x y : Forall (fun v => 0 <= v <= 255) bank -> 0 <= shown bank ch X Y s x y <= 15.
Proof. intros F. unfold shown. destruct (_ && _); [apply dot_range; exact F|lia]. Qed.
Lemma copied16 dst src pal e : 0 <= pal <= 15 -> length dst = 256%nat -> length src = 256%nat -> 0 <= e < 256 ->
  nth (Z.to_nat e) (copy16 dst src pal) 0 = if (16 * pal <=? e) && (e <? 16 * pal + 16) then nth (Z.to_nat e) src 0 else nth (Z.to_nat e) dst 0.
Proof.
  intros Hp Ld Ls He. unfold copy16. set (k := Z.to_nat (16 * pal)). assert (K : (k <= 240)%nat) by lia.
  destruct ((16 * pal <=? e) && (e <? 16 * pal + 16)) eqn:E.
  - rewrite app_nth2 by (rewrite firstn_length; lia). rewrite firstn_length. replace (Nat.min k (length dst)) with k by lia.
    rewrite app_nth1 by (rewrite firstn_length, skipn_length; lia). rewrite nth_firstn by lia. rewrite nth_skipn'. f_equal. lia.
  - destruct (Z_lt_le_dec e (16 * pal)) as [L|L].
    + rewrite app_nth1 by (rewrite firstn_length; lia). rewrite nth_firstn by lia. reflexivity.
    + rewrite app_nth2 by (rewrite firstn_length; lia). rewrite firstn_length. replace (Nat.min k (length dst)) with k by lia.
      rewrite app_nth2 by (rewrite firstn_length, skipn_length; lia). rewrite firstn_length, skipn_length. rewrite nth_skipn'. f_equal. lia.
Qed.

(** ** The theorems *)
(** names of character banks that say which bank: with the page, or for the page selected *)
Definition chr_name (t : list Z) : Prop := type_name t /\ (4 <= length t)%nat /\ (nth 0 t 0 = 66 \/ (nth 0 t 0 = 83 /\ nth 1 t 0 = 80)).
Definition chr_nameb (t : list Z) : bool := (4 <=? length t)%nat && ((nth 0 t 0 =? 66) || ((nth 0 t 0 =? 83) && (nth 1 t 0 =? 80))).
Definition name_facts (p : Resources.pages) (t : list Z) : bool :=
  if chr_nameb t then
    match get_resource_ptr p t, get_verified_resource_type p (SBc t), get_resource_ptr p (palette_name t), get_resource_ptr p (palette_of t), get_resource_ptr p (text "COL2") with
    | Ok (Chr b), Ok i, Ok (Col c), Ok (Col c'), Ok (Col _) => match i_data i with Chr b' => (b =? b') && (c =? c') | _ => false end
    | _, _, _, _, _ => false
    end
  else true.
Lemma name_ok p t : page_ok p -> chr_name t -> exists b i c d, get_resource_ptr p t = Ok (Chr b) /\ get_verified_resource_type p (SBc t) = Ok i /\ i_data i = Chr b /\
  get_resource_ptr p (palette_name t) = Ok (Col c) /\ get_resource_ptr p (palette_of t) = Ok (Col c) /\ get_resource_ptr p (text "COL2") = Ok (Col d).
Proof.
  intros Hp (T & L & K).
  assert (E : name_facts p t = true) by (apply check; [vm_compute; reflexivity|exact Hp|exact T]).
  unfold name_facts in E. replace (chr_nameb t) with true in E by (unfold chr_nameb; destruct K as [K|(K & K')]; rewrite ?K, ?K'; symmetry; apply andb_true_intro; (split; [apply Nat.leb_le; exact L|reflexivity])).
  destruct (get_resource_ptr p t) as [[b| | | | |]| |]; try discriminate E.
  destruct (get_verified_resource_type p (SBc t)) as [i| |]; try discriminate E.
  destruct (get_resource_ptr p (palette_name t)) as [[| |c| | |]| |]; try discriminate E.
  destruct (get_resource_ptr p (palette_of t)) as [[| |c'| | |]| |]; try discriminate E.
  destruct (get_resource_ptr p (text "COL2")) as [[| |d| | |]| |]; try discriminate E.
  destruct (i_data i) as [b'| | | | |] eqn:Ei; try discriminate E.
  apply andb_prop in E. destruct E as (E1 & E2). apply Z.eqb_eq in E1, E2. subst b' c'. exists b, i, c, d. auto 10.
Qed.

(** The character is drawn, except on the top row of the page. *)
Theorem C59_draws_partial : forall pg chr G x y t ch pal size b,
  well (gg G) -> page_ok pg -> chr_name t -> get_resource_ptr pg t = Ok (Chr b) -> Forall (fun v => 0 <= v <= 255) (chr b) ->
  0 <= whole ch <= 255 -> 0 <= whole pal <= 15 -> In (whole size) [1; 2; 4; 8] ->
  exists H, cmd_gputchr pg chr G x y t ch pal size = (H, Done) /\ same_settings (gg G) (gg H) /\
    forall n u v, 0 <= n <= 3 -> 0 <= u < 256 -> 0 <= v < 192 ->
      let d := shown (chr b) (whole ch) (whole x) (whole y) (whole size) u v in
      (n = target (gg G) /\ d <> 0 /\ v <> 0 -> colour_at (gg H) n u v = blend (drawmode (gg G)) (colour_at (gg G) n u v) (16 * whole pal + d)) /\
      (~ (n = target (gg G) /\ d <> 0 /\ v <> 0) -> colour_at (gg H) n u v = colour_at (gg G) n u v).
Proof.
  intros pg chr G x y t ch pal size b W Hp Ht Hb Fb Hc Hpal Hs.
  destruct (name_ok pg t Hp Ht) as (b' & i & c & d & Eb & Ei & Ed & Ec & _ & E2).
  assert (b' = b) as -> by congruence.
  unfold cmd_gputchr. rewrite (proj2 (int_range_some ch 0 255 _) (conj eq_refl Hc)), (proj2 (int_range_some pal 0 15 _) (conj eq_refl Hpal)).
  change (FP_TO_INT size) with (whole size). change (FP_TO_INT x) with (whole x). change (FP_TO_INT y) with (whole y). cbv zeta.
  replace ((whole size =? 1) || (whole size =? 2) || (whole size =? 4) || (whole size =? 8)) with true by (cbn [In] in Hs; lia).
  rewrite Ec. change (zs "COL2") with (text "COL2"). rewrite E2, Ei, Ed. cbn [gg g_col g_regen].
  eexists. split; [reflexivity|]. cbn [gg]. split; [apply settings_canvas|].
  assert (S0 : 0 < whole size) by (cbn [In] in Hs; lia).
  intros n u v Hn Hu Hv. cbv zeta.
  set (src := firstn 32 (skipn (Z.to_nat (32 * whole ch)) (chr b))).
  assert (P := put_chr_px src (whole x) (whole y) (whole size) (whole pal) (drawmode (gg G)) S0 (canvas (gg G)) u v Hu Hv). cbv zeta in P.
  set (i' := (u - whole x) / whole size) in *. set (j' := (v - whole y) / whole size) in *.
  assert (SH : (if (0 <=? i') && (i' <=? 7) && (0 <=? j') && (j' <=? 7) then chr_pixel src i' j' else 0) = shown (chr b) (whole ch) (whole x) (whole y) (whole size) u v).
  { unfold shown. fold i' j'.
    assert (IX : 0 <= i' <= 7 <-> whole x <= u < whole x + 8 * whole size).
    { unfold i'. clear - S0. assert (A := Z.div_mod (u - whole x) (whole size) ltac:(lia)). assert (B := Z.mod_pos_bound (u - whole x) (whole size) S0). nia. }
    assert (IY : 0 <= j' <= 7 <-> whole y <= v < whole y + 8 * whole size).
    { unfold j'. clear - S0. assert (A := Z.div_mod (v - whole y) (whole size) ltac:(lia)). assert (B := Z.mod_pos_bound (v - whole y) (whole size) S0). nia. }
    clearbody i' j'. destruct ((0 <=? i') && (i' <=? 7) && (0 <=? j') && (j' <=? 7)) eqn:E.
    - replace ((whole x <=? u) && (u <? whole x + 8 * whole size) && (whole y <=? v) && (v <? whole y + 8 * whole size)) with true by lia. apply chr_dot; lia.
    - replace ((whole x <=? u) && (u <? whole x + 8 * whole size) && (whole y <=? v) && (v <? whole y + 8 * whole size)) with false by lia. reflexivity. }
  set (D := shown (chr b) (whole ch) (whole x) (whole y) (whole size) u v) in *.
  assert (DR : 0 <= D <= 15).
  { apply shown_range. exact Fb. }
  set (new := put_chr src (whole x) (whole y) (whole size) (whole pal) (drawmode (gg G)) (canvas (gg G))) in *.
  assert (Q : px new u v = if negb (D =? 0) && negb (v =? 0) then blend (drawmode (gg G)) (px (canvas (gg G)) u v) (16 * whole pal + D) else px (canvas (gg G)) u v).
  { rewrite P. rewrite <- SH. clearbody D. destruct ((0 <=? i') && (i' <=? 7) && (0 <=? j') && (j' <=? 7)); reflexivity. }
  clear P SH. clearbody new D i' j'.
  assert (B := well_px (gg G) n u v W Hn Hu Hv). split.
  - intros (-> & N1 & N2). assert (E : px (pages (set_canvas (gg G) new) (target (gg G))) u v = blend (drawmode (gg G)) (px (pages (gg G) (target (gg G))) u v) (16 * whole pal + D)).
    { rewrite canvas_px. unfold draw_no, target. rewrite Z.eqb_refl, Q. replace (negb (D =? 0) && negb (v =? 0)) with true by lia. reflexivity. }
    rewrite (colour_on (gg G)) by assumption. rewrite colour_on; [exact E|assumption..|]. rewrite E. apply blend_byte; [exact B|lia].
  - intros N. apply colour_congr. intros _ _. rewrite canvas_px. destruct (n =? draw_no (gg G)) eqn:E; [|reflexivity]. apply Z.eqb_eq in E. subst n.
    rewrite Q. destruct (negb (D =? 0) && negb (v =? 0)) eqn:F; [|reflexivity]. exfalso. apply N. split; [reflexivity|lia].
Qed.
(** the palette *)
Theorem C59_palette : forall pg chr G x y t ch pal size from to,
  page_ok pg -> chr_name t -> get_resource_ptr pg (palette_of t) = Ok (Col from) -> get_resource_ptr pg (text "COL2") = Ok (Col to) ->
  length (g_col G from) = 256%nat -> length (g_col G to) = 256%nat ->
  0 <= whole ch <= 255 -> 0 <= whole pal <= 15 -> In (whole size) [1; 2; 4; 8] ->
  exists H, cmd_gputchr pg chr G x y t ch pal size = (H, Done) /\ g_regen H = true /\ palette_copied (g_col G) (g_col H) from to (whole pal).
Proof.
  intros pg chr G x y t ch pal size from to Hp Ht Hf Hto Lf Lt Hc Hpal Hs.
  destruct (name_ok pg t Hp Ht) as (b & i & c & d & Eb & Ei & Ed & Ec & Ec' & E2).
  assert (c = from) as -> by congruence. assert (d = to) as -> by congruence.
  unfold cmd_gputchr. rewrite (proj2 (int_range_some ch 0 255 _) (conj eq_refl Hc)), (proj2 (int_range_some pal 0 15 _) (conj eq_refl Hpal)).
  change (FP_TO_INT size) with (whole size). cbv zeta.
  replace ((whole size =? 1) || (whole size =? 2) || (whole size =? 4) || (whole size =? 8)) with true by (cbn [In] in Hs; lia).
  rewrite Ec. change (zs "COL2") with (text "COL2"). rewrite E2, Ei, Ed. cbn [gg g_col g_regen].
  eexists. split; [reflexivity|]. cbn [g_regen g_col]. split; [reflexivity|]. split.
  - intros k Hk. apply upd2_other. exact Hk.
  - intros e He. rewrite upd2_same. apply copied16; assumption.
Qed.
(** arguments out of range *)
Theorem C59_arguments : forall pg chr G x y t ch pal size,
  (~ (0 <= whole ch <= 255 /\ 0 <= whole pal <= 15) -> cmd_gputchr pg chr G x y t ch pal size = (G, Raised ERR_OUT_OF_RANGE)) /\
  (0 <= whole ch <= 255 -> 0 <= whole pal <= 15 -> ~ In (whole size) [1; 2; 4; 8] -> cmd_gputchr pg chr G x y t ch pal size = (G, Raised ERR_ILLEGAL_FUNCTION_CALL)).
Proof.
  intros pg chr G x y t ch pal size. unfold cmd_gputchr. split.
  - intros H. destruct (int_range ch 0 255) as [k|] eqn:E; [|reflexivity]. destruct (int_range pal 0 15) as [q|] eqn:F; [|reflexivity].
    apply int_range_some in E, F. exfalso. apply H. tauto.
  - intros Hc Hpal Hs. rewrite (proj2 (int_range_some ch 0 255 _) (conj eq_refl Hc)), (proj2 (int_range_some pal 0 15 _) (conj eq_refl Hpal)).
    change (FP_TO_INT size) with (whole size). cbv zeta.
    replace ((whole size =? 1) || (whole size =? 2) || (whole size =? 4) || (whole size =? 8)) with false by (cbn [In] in Hs; lia). reflexivity.
Qed.

(** ** What is wrong *)
Definition solid : Z -> list Z := fun _ => repeat 17 64.
Definition colours : Z -> list Z := fun b => repeat b 256.
Definition G0 : ggfx := mkGG g0 colours false.
Example C59_ok : well (gg G0) /\ page_ok (mkPages 0 0 0) /\ chr_name (text "BGU1") /\ get_resource_ptr (mkPages 0 0 0) (text "BGU1") = Ok (Chr 9) /\
  Forall (fun v => 0 <= v <= 255) (solid 9) /\ shown (solid 9) 1 100 90 4 131 121 = 1 /\
  get_resource_ptr (mkPages 0 0 0) (palette_of (text "BGU1")) = Ok (Col 0) /\ get_resource_ptr (mkPages 0 0 0) (text "COL2") = Ok (Col 2) /\
  length (g_col G0 0) = 256%nat.
Proof.
  split; [apply g0_well|]. split; [repeat split; left; reflexivity|]. split.
  { split; [|split; [cbn; lia|left; reflexivity]]. change (text "BGU1") with (text "BGU" ++ [48 + 1]). eapply type_bank; [left; reflexivity|lia]. }
  split; [reflexivity|]. split; [apply Forall_forall; intros v I; apply repeat_spec in I; lia|].
  split; [vm_compute; reflexivity|]. split; [reflexivity|]. split; reflexivity.
Qed.
(** nothing is drawn on the top row of the page *)
Theorem C59_top_row_refuted : exists G pg t b, well (gg G) /\ page_ok pg /\ chr_name t /\ get_resource_ptr pg t = Ok (Chr b) /\
  shown (solid b) 0 3 0 1 5 0 = 1 /\ shown (solid b) 0 3 0 1 5 1 = 1 /\
  exists H, cmd_gputchr pg solid G (3 * 4096) 0 t 0 4096 4096 = (H, Done) /\
    colour_at (gg H) 0 5 0 = colour_at (gg G) 0 5 0 /\ colour_at (gg H) 0 5 0 <> 17 /\ colour_at (gg H) 0 5 1 = 17.
Proof.
  destruct C59_ok as (W & P & N & E & F & _). exists G0, (mkPages 0 0 0), (text "BGU1"), 9.
  split; [exact W|]. split; [exact P|]. split; [exact N|]. split; [exact E|]. split; [vm_compute; reflexivity|]. split; [vm_compute; reflexivity|].
  destruct (C59_draws_partial (mkPages 0 0 0) solid G0 (3 * 4096) 0 (text "BGU1") 0 4096 4096 9 W P N E F) as (H & EH & SH & D); try (unfold whole; cbn; lia).
  exists H. split; [exact EH|].
  assert (C0 : colour_at (gg H) 0 5 0 = colour_at (gg G0) 0 5 0).
  { apply (D 0 5 0); [lia..|]. intros (_ & _ & K). apply K. reflexivity. }
  assert (C1 : colour_at (gg H) 0 5 1 = 17).
  { rewrite (proj1 (D 0 5 1 ltac:(lia) ltac:(lia) ltac:(lia))).
    - vm_compute. reflexivity.
    - split; [reflexivity|]. split; [vm_compute; discriminate|lia]. }
  split; [exact C0|]. split; [|exact C1]. rewrite C0. vm_compute. discriminate.
Qed.
(** a name that is no resource is reported, but the palette has been copied by then *)
Theorem C59_error_refuted : exists G pg t H, page_ok pg /\ cmd_gputchr pg solid G 0 0 t 0 0 4096 = (H, Raised ERR_INVALID_RESOURCE_TYPE) /\
  nth 3 (g_col H 2) 0 <> nth 3 (g_col G 2) 0.
Proof.
  exists G0, (mkPages 0 0 0), (text "XYZ").
  assert (E : get_verified_resource_type (mkPages 0 0 0) (SBc (text "XYZ")) = Err ERR_INVALID_RESOURCE_TYPE) by (vm_compute; reflexivity).
  eexists. split; [repeat split; left; reflexivity|]. split.
  - unfold cmd_gputchr.
    change (int_range 0 0 255) with (Some 0). change (int_range 0 0 15) with (Some 0). cbv iota zeta.
    change ((FP_TO_INT 4096 =? 1) || (FP_TO_INT 4096 =? 2) || (FP_TO_INT 4096 =? 4) || (FP_TO_INT 4096 =? 8)) with true. cbv iota.
    change (get_resource_ptr (mkPages 0 0 0) (palette_name (text "XYZ"))) with (@Ok buf (Col 1)).
    change (get_resource_ptr (mkPages 0 0 0) (zs "COL2")) with (@Ok buf (Col 2)). cbv iota. rewrite E. reflexivity.
  - vm_compute. discriminate.
Qed.
(** without a bank, the last letter of "BGU" is taken for the page: the palette is that of the upper screen,
    not of the one selected *)
Theorem C59_bgu_refuted : let pg := mkPages 1 1 1 in type_name (text "BGU") /\
  get_resource_ptr pg (text "COL0") = Ok (Col 3) /\
  exists b H, get_resource_ptr pg (palette_name (text "BGU")) = Ok (Col 0) /\ get_resource_ptr pg (text "BGU") = Ok (Chr b) /\
  cmd_gputchr pg solid G0 0 0 (text "BGU") 0 0 4096 = (H, Done) /\ nth 3 (g_col H 5) 9 = nth 3 (g_col G0 0) 9 /\ nth 3 (g_col H 5) 9 <> nth 3 (g_col G0 3) 9.
Proof.
  split; [eapply type_only; left; reflexivity|]. split; [reflexivity|].
  assert (E : get_verified_resource_type (mkPages 1 1 1) (SBc (text "BGU")) = Ok (mkInfo (text "BGU") [] TYPE_CHR (Chr 8))) by (vm_compute; reflexivity).
  eexists. eexists. split; [reflexivity|]. split; [reflexivity|]. split.
  - unfold cmd_gputchr.
    change (int_range 0 0 255) with (Some 0). change (int_range 0 0 15) with (Some 0). cbv iota zeta.
    change ((FP_TO_INT 4096 =? 1) || (FP_TO_INT 4096 =? 2) || (FP_TO_INT 4096 =? 4) || (FP_TO_INT 4096 =? 8)) with true. cbv iota.
    change (get_resource_ptr (mkPages 1 1 1) (palette_name (text "BGU"))) with (@Ok buf (Col 0)).
    change (get_resource_ptr (mkPages 1 1 1) (zs "COL2")) with (@Ok buf (Col 5)). cbv iota. rewrite E. cbn [i_data]. reflexivity.
  - cbn [g_col]. split; vm_compute; [reflexivity|discriminate].
Qed.

Print Assumptions C59_draws_partial.
Print Assumptions C59_palette.
Print Assumptions C59_arguments.
Print Assumptions C59_top_row_refuted.
Print Assumptions C59_error_refuted.
Print Assumptions C59_bgu_refuted.
