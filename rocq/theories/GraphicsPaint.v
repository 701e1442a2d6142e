(** C58: GPAINT. *)
From Verif Require Import Base BaseLemmas Memory Graphics GraphicsSpec GraphicsProofs GraphicsProps.
Ltac Zify.zify_post_hook ::= Z.div_mod_to_equations.
Open Scope Z_scope.

Definition matches (m v : Z) : bool := if m >=? 0 then v =? m else negb (v =? - m - 1).
Lemma inside_eq p x y m : inside p x y m = on_page x y && matches m (px p x y).
Proof.
  unfold inside, on_page, matches, px, GRP_WIDTH, GRP_HEIGHT.
  replace ((x <? 0) || (x >=? 256) || (y <? 0) || (y >=? 192)) with (negb ((x >=? 0) && (x <? 256) && (y >=? 0) && (y <? 192))) by lia.
  destruct ((x >=? 0) && (x <? 256) && (y >=? 0) && (y <? 192)); reflexivity.
Qed.
Lemma inside_page p x y m : inside p x y m = true -> 0 <= x < 256 /\ 0 <= y < 192.
Proof. rewrite inside_eq, andb_true_iff. intros (H & _). apply on_page_iff, H. Qed.
(** [p'] is [p] with colour [c] on columns a .. b-1 of row y *)
Definition strip (p p' : page) (c y a b : Z) : Prop :=
  forall u v, 0 <= u < 256 -> 0 <= v < 192 -> px p' u v = if (v =? y) && (a <=? u) && (u <? b) then c else px p u v.
Lemma strip_out p p' c y a b u v m : strip p p' c y a b -> ~ (v = y /\ a <= u < b) -> inside p' u v m = inside p u v m.
Proof.
  intros S N. rewrite !inside_eq. destruct (on_page u v) eqn:O; [|reflexivity]. apply on_page_iff in O. rewrite (S u v) by tauto.
  replace ((v =? y) && (a <=? u) && (u <? b)) with false by lia. reflexivity.
Qed.
Lemma strip_in p p' c y a b u m : strip p p' c y a b -> a <= u < b -> matches m c = false -> inside p' u y m = false.
Proof.
  intros S I M. rewrite inside_eq. destruct (on_page u y) eqn:O; [|reflexivity]. apply on_page_iff in O. rewrite (S u y) by tauto.
  replace ((y =? y) && (a <=? u) && (u <? b)) with true by lia. rewrite M. reflexivity.
Qed.
Lemma paint_right_spec y m c : forall n p x p' x', paint_right n p x y m c = (p', x') ->
  x <= x' <= x + Z.of_nat n /\ (forall i, x <= i < x' -> inside p i y m = true) /\ strip p p' c y x x' /\ (x' < x + Z.of_nat n -> inside p' x' y m = false).
Proof.
  induction n as [|n IH]; intros p x p' x' E; cbn [paint_right] in E.
  - injection E as <- <-. split; [lia|]. split; [intros; lia|]. split; [|intros; lia]. intros u v Hu Hv. replace ((v =? y) && (x <=? u) && (u <? x)) with false by lia. reflexivity.
  - destruct (inside p x y m) eqn:I.
    + apply IH in E. destruct E as (B & F & S & T). destruct (inside_page _ _ _ _ I) as (X & Y).
      assert (S1 : strip p (set_byte p (grp_index x y) c) c y x (x + 1)).
      { intros u v Hu Hv. rewrite px_set by assumption. replace ((u =? x) && (v =? y)) with ((v =? y) && (x <=? u) && (u <? x + 1)) by lia. reflexivity. }
      split; [lia|]. split; [|split].
      * intros i Hi. destruct (Z.eq_dec i x) as [->|N]; [exact I|]. rewrite <- (strip_out _ _ _ _ _ _ i y m S1) by lia. apply F. lia.
      * intros u v Hu Hv. rewrite (S u v Hu Hv), (S1 u v Hu Hv).
        destruct (v =? y); cbn [andb]; [|reflexivity]. destruct (x + 1 <=? u) eqn:A; destruct (u <? x') eqn:D; destruct (x <=? u) eqn:G; destruct (u <? x + 1) eqn:H; cbn [andb]; try reflexivity; exfalso; lia.
      * intros L. apply T. lia.
    + injection E as <- <-. split; [lia|]. split; [intros; lia|]. split; [|intros _; exact I]. intros u v Hu Hv. replace ((v =? y) && (x <=? u) && (u <? x)) with false by lia. reflexivity.
Qed.
Lemma paint_left_spec y m c : forall n p x p' x', paint_left n p x y m c = (p', x') ->
  x - Z.of_nat n <= x' <= x /\ (forall i, x' <= i < x -> inside p i y m = true) /\ strip p p' c y x' x /\ (x - Z.of_nat n < x' -> inside p' (x' - 1) y m = false).
Proof.
  induction n as [|n IH]; intros p x p' x' E; cbn [paint_left] in E.
  - injection E as <- <-. split; [lia|]. split; [intros; lia|]. split; [|intros; lia]. intros u v Hu Hv. replace ((v =? y) && (x <=? u) && (u <? x)) with false by lia. reflexivity.
  - destruct (inside p (x - 1) y m) eqn:I.
    + apply IH in E. destruct E as (B & F & S & T). destruct (inside_page _ _ _ _ I) as (X & Y).
      assert (S1 : strip p (set_byte p (grp_index (x - 1) y) c) c y (x - 1) x).
      { intros u v Hu Hv. rewrite px_set by assumption. replace ((u =? x - 1) && (v =? y)) with ((v =? y) && (x - 1 <=? u) && (u <? x)) by lia. reflexivity. }
      split; [lia|]. split; [|split].
      * intros i Hi. destruct (Z.eq_dec i (x - 1)) as [->|N]; [exact I|]. rewrite <- (strip_out _ _ _ _ _ _ i y m S1) by lia. apply F. lia.
      * intros u v Hu Hv. rewrite (S u v Hu Hv), (S1 u v Hu Hv).
        destruct (v =? y); cbn [andb]; [|reflexivity]. destruct (x' <=? u) eqn:A; destruct (u <? x - 1) eqn:D; destruct (x - 1 <=? u) eqn:G; destruct (u <? x) eqn:H; cbn [andb]; try reflexivity; exfalso; lia.
      * intros L. apply T. lia.
    + injection E as <- <-. split; [lia|]. split; [intros; lia|]. split; [|intros _; exact I]. intros u v Hu Hv. replace ((v =? y) && (x <=? u) && (u <? x)) with false by lia. reflexivity.
Qed.
Lemma paint_skip_spec p x2 y m : forall n x, let x' := paint_skip n p x x2 y m in
  x <= x' /\ (forall i, x <= i < x' -> inside p i y m = false).
Proof.
  induction n as [|n IH]; intros x; cbn [paint_skip].
  - split; [lia|intros; lia].
  - destruct ((x <? x2) && negb (inside p x y m)) eqn:E; [|split; [lia|intros; lia]].
    destruct (IH (x + 1)) as (A & B). cbv zeta in A, B. split; [lia|]. intros i Hi. destruct (Z.eq_dec i x) as [->|N]; [|apply B; lia].
    apply andb_true_iff in E. destruct E as (_ & E). destruct (inside p x y m); [discriminate E|reflexivity].
Qed.

(** ** the packed spans *)
Lemma lor_shift a b k : 0 <= k -> 0 <= a < 2 ^ k -> Z.lor a (Z.shiftl b k) = a + b * 2 ^ k.
Proof.
  intros Hk Ha. rewrite <- Z.shiftl_mul_pow2 by exact Hk. assert (L : Z.land a (Z.shiftl b k) = 0); [|rewrite <- Z.lxor_lor by exact L; symmetry; apply Z.add_nocarry_lxor; exact L]. apply Z.bits_inj'. intros n Hn. rewrite Z.land_spec, Z.bits_0.
  destruct (Z_lt_dec n k) as [L|L].
  - rewrite (Z.shiftl_spec_low b k n L). apply andb_false_r.
  - rewrite <- (Z.mod_small a (2 ^ k) Ha). rewrite Z.mod_pow2_bits_high by lia. reflexivity.
Qed.
Lemma land_255 v : Z.land v 255 = v mod 256.
Proof. change 255 with (Z.ones 8). rewrite Z.land_ones by lia. reflexivity. Qed.
Lemma unpack_eq v : unpack4 v = (v mod 256, (v / 256) mod 256, (v / 65536) mod 256, if Z.testbit v 24 then 1 else -1).
Proof.
  unfold unpack4. rewrite land_255. rewrite !Z.shiftr_land. change (Z.shiftr 65280 8) with 255. change (Z.shiftr 16711680 16) with 255.
  rewrite !land_255. rewrite !Z.shiftr_div_pow2 by lia. change (2 ^ 8) with 256. change (2 ^ 16) with 65536.
  f_equal. change 16777216 with (Z.shiftl 1 24). destruct (Z.testbit v 24) eqn:B.
  - destruct (Z.land v (Z.shiftl 1 24) =? 0) eqn:E; [|reflexivity]. apply Z.eqb_eq in E. assert (X := f_equal (fun z => Z.testbit z 24) E). cbv beta in X. rewrite Z.land_spec, B, Z.bits_0 in X. discriminate X.
  - replace (Z.land v (Z.shiftl 1 24)) with 0; [reflexivity|]. symmetry. apply Z.bits_inj'. intros n Hn. rewrite Z.land_spec, Z.bits_0.
    destruct (Z.eq_dec n 24) as [->|N]; [rewrite B; reflexivity|]. replace (Z.testbit (Z.shiftl 1 24) n) with false; [apply andb_false_r|].
    change (Z.shiftl 1 24) with (2 ^ 24). rewrite Z.pow2_bits_false by lia. reflexivity.
Qed.
Lemma bit24 v : Z.testbit v 24 = ((v / 16777216) mod 2 =? 1).
Proof.
  rewrite <- (Z.bit0_mod (v / 16777216)). change 16777216 with (2 ^ 24). rewrite <- Z.shiftr_div_pow2 by lia. rewrite Z.shiftr_spec by lia. change (0 + 24) with 24.
  destruct (Z.testbit v 24); reflexivity.
Qed.
Lemma unpack_pack x1 x2 y dy : 0 <= x1 < 256 -> 0 <= x2 < 256 -> dy = 1 \/ dy = -1 ->
  (0 <= y < 256 -> unpack4 (pack4 x1 x2 y dy) = (x1, x2, y, dy)) /\
  (y = -1 -> dy = -1 -> unpack4 (pack4 x1 x2 y dy) = (x1, x2, 255, 1)).
Proof.
  intros H1 H2 D. unfold pack4.
  rewrite (lor_shift x1 x2 8) by (change (2 ^ 8) with 256; lia). change (2 ^ 8) with 256.
  rewrite (lor_shift (x1 + x2 * 256) y 16) by (change (2 ^ 16) with 65536; lia). change (2 ^ 16) with 65536.
  split.
  - intros Hy. rewrite lor_shift by (change (2 ^ 24) with 16777216; lia). change (2 ^ 24) with 16777216.
    unfold u32. change (2 ^ 32) with 4294967296. destruct D as [->| ->]; cbn [Z.gtb Z.compare b2z].
    + rewrite Z.mod_small by lia. rewrite unpack_eq, bit24. replace ((x1 + x2 * 256 + y * 65536 + 1 * 16777216) / 16777216) with 1 by lia.
      change (1 mod 2 =? 1) with true. cbv iota. repeat (match goal with |- (_, _) = (_, _) => apply f_equal2 end); try reflexivity; lia.
    + rewrite Z.mod_small by lia. rewrite unpack_eq, bit24. replace ((x1 + x2 * 256 + y * 65536 + 0 * 16777216) / 16777216) with 0 by lia.
      change (0 mod 2 =? 1) with false. cbv iota. repeat (match goal with |- (_, _) = (_, _) => apply f_equal2 end); try reflexivity; lia.
  - intros -> ->. cbn [Z.gtb Z.compare b2z]. rewrite Z.shiftl_0_l, Z.lor_0_r. unfold u32. change (2 ^ 32) with 4294967296.
    replace ((x1 + x2 * 256 + -1 * 65536) mod 4294967296) with (4294901760 + x2 * 256 + x1) by lia.
    rewrite unpack_eq, bit24. replace ((4294901760 + x2 * 256 + x1) / 16777216) with 255 by lia. change (255 mod 2 =? 1) with true. cbv iota.
    repeat (match goal with |- (_, _) = (_, _) => apply f_equal2 end); try reflexivity; lia.
Qed.

(** ** the fill *)
Section Fill.
Variables (p0 : page) (m c sx sy : Z) (all : list (Z * Z)) (all_in : forall a b, 0 <= a < 256 -> 0 <= b < 192 -> In (a, b) all).
Definition open (p : page) (a b : Z) : Prop := inside p a b m = true.
Definition region : Z -> Z -> Prop := linked (fun x y => open p0 x y) sx sy.
Lemma region_open a b : region a b -> open p0 a b.
Proof. intros H. inversion H; assumption. Qed.
Lemma region_page a b : region a b -> 0 <= a < 256 /\ 0 <= b < 192.
Proof. intros H. apply region_open in H. apply inside_page in H. exact H. Qed.
Lemma region_step a b a' b' : region a b -> Z.abs (a' - a) + Z.abs (b' - b) = 1 -> open p0 a' b' -> region a' b'.
Proof. intros. eapply linked_next; eassumption. Qed.
Lemma region_right y a : forall k, region a y -> (forall i, a <= i <= a + Z.of_nat k -> open p0 i y) -> region (a + Z.of_nat k) y.
Proof.
  induction k as [|k IH]; intros A H; [rewrite Z.add_0_r; exact A|].
  apply region_step with (a := a + Z.of_nat k) (b := y); [apply IH; [exact A|intros i Hi; apply H; lia]|lia|apply H; lia].
Qed.
Lemma region_left y a : forall k, region a y -> (forall i, a - Z.of_nat k <= i <= a -> open p0 i y) -> region (a - Z.of_nat k) y.
Proof.
  induction k as [|k IH]; intros A H; [rewrite Z.sub_0_r; exact A|].
  apply region_step with (a := a - Z.of_nat k) (b := y); [apply IH; [exact A|intros i Hi; apply H; lia]|lia|apply H; lia].
Qed.

Definition covers (v a b : Z) : Prop := let '(x1, x2, y, dy) := unpack4 v in b = y /\ x1 <= a <= x2.
Definition parent (v a b : Z) : Prop := let '(x1, x2, y, dy) := unpack4 v in b = y - dy /\ x1 <= a <= x2.
Definition covered (s : list Z) (a b : Z) : Prop := exists v, In v s /\ covers v a b.
Definition span_ok (v : Z) : Prop := let '(x1, x2, y, dy) := unpack4 v in
  0 <= x1 <= x2 /\ x2 <= 255 /\ 0 <= y <= 255 /\ (dy = 1 \/ dy = -1) /\ (forall a, x1 <= a <= x2 -> open p0 a y -> region a y).
Definition page_ok (p : page) : Prop :=
  forall a b, 0 <= a < 256 -> 0 <= b < 192 -> px p a b = px p0 a b \/ (region a b /\ px p a b = c).
Definition st_ok (st : painted) : Prop := match st with Painting p s => page_ok p /\ Forall span_ok s | Overflow p => page_ok p end.
Lemma page_open p a b : page_ok p -> open p a b -> open p0 a b.
Proof.
  intros P O. assert (G := inside_page _ _ _ _ O). destruct (P a b (proj1 G) (proj2 G)) as [E|(E & _)]; [|apply region_open, E].
  unfold open in *. rewrite inside_eq in *. rewrite <- E. exact O.
Qed.
Lemma page_strip p p' y a b : page_ok p -> strip p p' c y a b -> (forall i, a <= i < b -> region i y) -> page_ok p'.
Proof.
  intros P S H u v Hu Hv. rewrite (S u v Hu Hv). destruct ((v =? y) && (a <=? u) && (u <? b)) eqn:E; [|apply P; assumption].
  right. split; [|reflexivity]. assert (v = y) as -> by lia. apply H. lia.
Qed.
Lemma covered_incl s t a b : covered s a b -> (forall v, In v s -> In v t) -> covered t a b.
Proof. intros (v & I & C) H. exists v. split; [apply H, I|exact C]. Qed.
(** a pushed span *)
Lemma pushed_ok x1 x2 y dy : 0 <= x1 <= x2 -> x2 <= 255 -> -1 <= y <= 192 -> dy = 1 \/ dy = -1 -> (y = -1 -> dy = -1) ->
  (forall a, x1 <= a <= x2 -> open p0 a y -> region a y) -> span_ok (pack4 x1 x2 y dy).
Proof.
  intros H1 H2 Hy D DY R. unfold span_ok. destruct (unpack_pack x1 x2 y dy ltac:(lia) ltac:(lia) D) as (U1 & U2).
  destruct (Z.eq_dec y (-1)) as [->|N].
  - rewrite U2 by (try reflexivity; apply DY; reflexivity). repeat split; try lia. intros a _ O. apply inside_page in O. lia.
  - rewrite U1 by lia. repeat split; try lia; exact R.
Qed.
Lemma pushed_covers x1 x2 y dy a : 0 <= x1 <= x2 -> x2 <= 255 -> 0 <= y < 192 -> dy = 1 \/ dy = -1 -> x1 <= a <= x2 -> covers (pack4 x1 x2 y dy) a y.
Proof. intros H1 H2 Hy D Ha. unfold covers. rewrite (proj1 (unpack_pack x1 x2 y dy ltac:(lia) ltac:(lia) D)) by lia. split; [reflexivity|exact Ha]. Qed.
Lemma pushed_parent p x1 x2 y dy a b : 0 <= x1 <= x2 -> x2 <= 255 -> -1 <= y <= 192 -> dy = 1 \/ dy = -1 -> (y = -1 -> dy = -1) ->
  parent (pack4 x1 x2 y dy) a b -> open p a b -> b = y - dy /\ x1 <= a <= x2.
Proof.
  intros H1 H2 Hy D DY P O. unfold parent in P. destruct (unpack_pack x1 x2 y dy ltac:(lia) ltac:(lia) D) as (U1 & U2).
  destruct (Z.eq_dec y (-1)) as [->|N].
  - rewrite U2 in P by (try reflexivity; apply DY; reflexivity). apply inside_page in O. lia.
  - rewrite U1 in P by lia. exact P.
Qed.

(** what is still to be done, apart from [more] *)
Definition full (p : page) (s : list Z) (more : Z -> Z -> Prop) : Prop :=
  (forall a b a' b', region a b -> ~ open p a b -> Z.abs (a' - a) + Z.abs (b' - b) = 1 -> open p a' b' -> covered s a' b' \/ more a' b') /\
  (forall v a b, In v s -> parent v a b -> open p a b -> covered s a b \/ more a b) /\
  (open p sx sy -> covered s sx sy \/ more sx sy).
Definition left_over (p : page) : nat := length (filter (fun q => inside p (fst q) (snd q) m) all).
Definition weight (p : page) (s : list Z) : nat := (3 * left_over p + length s)%nat.
Lemma filter_le {A} (f g : A -> bool) : forall l, (forall q, g q = true -> f q = true) -> (length (filter g l) <= length (filter f l))%nat.
Proof.
  induction l as [|q l IH]; intros H; [cbn; lia|]. cbn [filter]. specialize (IH H). destruct (g q) eqn:G; [rewrite (H q G); cbn [length]; lia|]. destruct (f q); cbn [length]; lia.
Qed.
Lemma filter_lt {A} (f g : A -> bool) : forall l q, (forall q, g q = true -> f q = true) -> In q l -> f q = true -> g q = false -> (length (filter g l) < length (filter f l))%nat.
Proof.
  induction l as [|r l IH]; intros q H I F G; [destruct I|]. cbn [filter]. destruct I as [->|I].
  - rewrite F, G. cbn [length]. assert (X := filter_le f g l H). lia.
  - specialize (IH q H I F G). destruct (g r) eqn:GR; [rewrite (H r GR); cbn [length]; lia|]. destruct (f r); cbn [length]; lia.
Qed.
Lemma left_le p p' : (forall a b, open p' a b -> open p a b) -> (left_over p' <= left_over p)%nat.
Proof. intros H. apply filter_le. intros [a b] Q. apply H, Q. Qed.
Lemma left_lt p p' a b : (forall a b, open p' a b -> open p a b) -> open p a b -> ~ open p' a b -> (left_over p' < left_over p)%nat.
Proof.
  intros H O N. apply filter_lt with (q := (a, b)).
  - intros [u v] Q. apply H, Q.
  - apply inside_page in O. apply all_in; lia.
  - exact O.
  - cbn [fst snd]. unfold open in N. destruct (inside p' a b m); [exfalso; apply N; reflexivity|reflexivity].
Qed.

Lemma push_cases p s x1 x2 y dy : push_span (Painting p s) x1 x2 y dy = Overflow p \/ push_span (Painting p s) x1 x2 y dy = Painting p (pack4 x1 x2 y dy :: s).
Proof. unfold push_span. destruct (256 <=? length s)%nat; [left|right]; reflexivity. Qed.

Definition pending (X2 y dy x x1 : Z) (a b : Z) : Prop := (b = y /\ x1 <= a <= X2) \/ (b = y + dy /\ x <= a < x1).

Lemma span_spec X1 X2 y dy : 0 <= X1 <= X2 -> X2 <= 255 -> (dy = 1 \/ dy = -1) -> (forall a, X1 <= a <= X2 -> open p0 a y -> region a y) ->
  forall n p s x x1, page_ok p -> Forall span_ok s -> 0 <= x <= x1 -> X1 <= x1 -> X2 - x1 + 1 <= Z.of_nat n ->
  (x = x1 \/ (open p x1 y /\ x1 <= X2)) -> (forall a, x <= a < x1 -> region a y) ->
  let st := paint_span n (Painting p s) x x1 X2 y dy m c in
  st_ok st /\
  (matches m c = false ->
   (forall a, x <= a < x1 -> ~ open p a y) -> (open p x1 y -> ~ open p (x - 1) y) ->
   (forall a, X1 <= a <= X2 -> open p a (y - dy) -> covered s a (y - dy)) ->
   full p s (pending X2 y dy x x1) ->
   match st with
   | Painting p' s' => full p' s' (fun _ _ => False) /\ (weight p' s' <= weight p s)%nat /\ (forall a b, open p' a b -> open p a b)
   | Overflow _ => True
   end).
Proof.
  intros HX HX2 HD HR. induction n as [|n IH]; intros p s x x1 P SO Hx Hx1 Hn FI RG.
  - cbn [paint_span]. split; [split; assumption|]. intros NM C1 C2 C3 (F1 & F2 & F3).
    assert (NP : forall a b, ~ pending X2 y dy x x1 a b) by (intros a b [H|H]; destruct FI as [->|(_ & FI)]; lia).
    split; [|split; [lia|tauto]]. split; [|split].
    + intros a b a' b' A B C D. left. destruct (F1 a b a' b' A B C D) as [H|H]; [exact H|destruct (NP _ _ H)].
    + intros v a b A B C. left. destruct (F2 v a b A B C) as [H|H]; [exact H|destruct (NP _ _ H)].
    + intros A. left. destruct (F3 A) as [H|H]; [exact H|destruct (NP _ _ H)].
  - cbn [paint_span]. destruct (x1 <=? X2) eqn:LE.
    2:{ split; [split; assumption|]. intros NM C1 C2 C3 (F1 & F2 & F3).
        assert (NP : forall a b, ~ pending X2 y dy x x1 a b) by (intros a b [H|H]; destruct FI as [->|(_ & FI)]; lia).
        split; [|split; [lia|tauto]]. split; [|split].
        + intros a b a' b' A B C D. left. destruct (F1 a b a' b' A B C D) as [H|H]; [exact H|destruct (NP _ _ H)].
        + intros v a b A B C. left. destruct (F2 v a b A B C) as [H|H]; [exact H|destruct (NP _ _ H)].
        + intros A. left. destruct (F3 A) as [H|H]; [exact H|destruct (NP _ _ H)]. }
    destruct (paint_right 257 p x1 y m c) as [p' e] eqn:PR. apply paint_right_spec in PR. destruct PR as (B & F & S & T).
    assert (E256 : e <= 256).
    { destruct (Z.eq_dec e x1) as [->|NE]; [lia|]. assert (I := F (e - 1) ltac:(lia)). apply inside_page in I. lia. }
    assert (CL : inside p' e y m = false) by (apply T; lia). clear T.
    assert (RP : forall a, x <= a < e -> region a y).
    { intros a Ha. destruct (Z_lt_dec a x1) as [L|L]; [apply RG; lia|].
      assert (O0 : forall i, x1 <= i < e -> open p0 i y) by (intros i Hi; apply (page_open p); [exact P|apply F, Hi]).
      replace a with (x1 + Z.of_nat (Z.to_nat (a - x1))) by lia. apply region_right; [apply HR; [lia|apply O0; lia]|]. intros i Hi. apply O0. lia. }
    assert (P' : page_ok p') by (apply (page_strip p p' y x1 e P S); intros i Hi; apply RP; lia).
    assert (YP : e > x -> 0 <= y < 192) by (intros H; apply (region_page x y), RP; lia).
    assert (GR : x < e -> x1 < e).
    { intros H. destruct (Z.eq_dec e x1) as [->|NE]; [|lia]. exfalso. destruct FI as [->|(FI & _)]; [lia|]. unfold open in FI. rewrite <- (strip_out _ _ _ _ _ _ x1 y m S) in FI by lia. congruence. }
    set (l2 := if e >? x then [pack4 x (e - 1) (y + dy) dy] else []).
    set (l3 := if e - 1 >? X2 then [pack4 (X2 + 1) (e - 1) (y - dy) (- dy)] else []).
    set (st1 := if e >? x then push_span (Painting p' s) x (e - 1) (y + dy) dy else Painting p' s).
    assert (ST1 : st1 = Overflow p' \/ st1 = Painting p' (l2 ++ s)).
    { unfold st1, l2. destruct (e >? x); [apply push_cases|right; reflexivity]. }
    set (st2 := if e - 1 >? X2 then push_span st1 (X2 + 1) (e - 1) (y - dy) (- dy) else st1).
    assert (ST2 : st2 = Overflow p' \/ st2 = Painting p' (l3 ++ l2 ++ s)).
    { unfold st2, l3. destruct ST1 as [->| ->]; [left; destruct (e - 1 >? X2); reflexivity|]. destruct (e - 1 >? X2); [apply push_cases|right; reflexivity]. }
    assert (K2 : forall v, In v l2 -> v = pack4 x (e - 1) (y + dy) dy /\ x < e /\ 0 <= y < 192).
    { intros v I. unfold l2 in I. destruct (e >? x) eqn:G; [|destruct I]. destruct I as [<-|[]]. split; [reflexivity|]. split; [lia|apply YP; lia]. }
    assert (K3 : forall v, In v l3 -> v = pack4 (X2 + 1) (e - 1) (y - dy) (- dy) /\ X2 + 1 < e /\ 0 <= y < 192).
    { intros v I. unfold l3 in I. destruct (e - 1 >? X2) eqn:G; [|destruct I]. destruct I as [<-|[]]. split; [reflexivity|]. split; [lia|apply YP; lia]. }
    assert (SO' : Forall span_ok (l3 ++ l2 ++ s)).
    { apply Forall_app. split; [|apply Forall_app; split; [|exact SO]]; apply Forall_forall; intros v I.
      - apply K3 in I. destruct I as (-> & L & Y). apply pushed_ok; try lia. intros a Ha O. apply (region_step a y); [apply RP; lia|lia|exact O].
      - apply K2 in I. destruct I as (-> & L & Y). apply pushed_ok; try lia. intros a Ha O. apply (region_step a y); [apply RP; lia|lia|exact O]. }
    set (x1' := paint_skip 257 p' (e + 1) X2 y m).
    assert (SK := paint_skip_spec p' X2 y m 257 (e + 1)). cbv zeta in SK. fold x1' in SK. destruct SK as (SK1 & SK2).
    destruct ST2 as [->| ->].
    { (* the stack is full *)
      assert (OV : paint_span n (Overflow p') x1' x1' X2 y dy m c = Overflow p') by (destruct n; reflexivity).
      rewrite OV. split; [exact P'|]. intros; exact Logic.I. }
    specialize (IH p' (l3 ++ l2 ++ s) x1' x1' P' SO' ltac:(lia) ltac:(lia) ltac:(lia) (or_introl eq_refl) ltac:(intros; lia)).
    cbv zeta in IH. destruct IH as (OK & CO). split; [exact OK|].
    intros NM C1 C2 C3 (F1 & F2 & F3). specialize (CO NM).
    assert (SUB : forall a b, open p' a b -> open p a b).
    { intros a b O. unfold open in *. destruct (Z.eq_dec b y) as [->|NB]; [|rewrite (strip_out _ _ _ _ _ _ a b m S) in O by lia; exact O].
      destruct (Z_le_dec x1 a) as [L1|L1]; [destruct (Z_lt_dec a e) as [L2|L2]|].
      - rewrite (strip_in _ _ _ _ _ _ a m S) in O by (try lia; exact NM). discriminate O.
      - rewrite (strip_out _ _ _ _ _ _ a y m S) in O by lia. exact O.
      - rewrite (strip_out _ _ _ _ _ _ a y m S) in O by lia. exact O. }
    assert (CLOSED : forall a, x <= a < x1' -> ~ open p' a y).
    { intros a Ha O. destruct (Z_lt_dec a x1) as [L|L]; [apply (C1 a); [lia|apply SUB, O]|]. unfold open in O.
      destruct (Z_lt_dec a e) as [L2|L2]; [rewrite (strip_in _ _ _ _ _ _ a m S) in O by (try lia; exact NM); discriminate O|].
      destruct (Z.eq_dec a e) as [->|NE]; [congruence|]. rewrite (SK2 a ltac:(lia)) in O. discriminate O. }
    assert (IN : forall v, In v s -> In v (l3 ++ l2 ++ s)) by (intros v I; apply in_or_app; right; apply in_or_app; right; exact I).
    assert (COV2 : forall a b, b = y + dy -> x <= a < e -> open p' a b -> covered (l3 ++ l2 ++ s) a b).
    { intros a b -> Ha O. apply inside_page in O. exists (pack4 x (e - 1) (y + dy) dy). split.
      - apply in_or_app. right. apply in_or_app. left. unfold l2. replace (e >? x) with true by lia. left. reflexivity.
      - apply pushed_covers; lia. }
    assert (COV3 : forall a b, b = y - dy -> X2 < a < e -> open p' a b -> covered (l3 ++ l2 ++ s) a b).
    { intros a b -> Ha O. apply inside_page in O. exists (pack4 (X2 + 1) (e - 1) (y - dy) (- dy)). split.
      - apply in_or_app. left. unfold l3. replace (e - 1 >? X2) with true by lia. left. reflexivity.
      - apply pushed_covers; lia. }
    assert (TR : forall a b, open p' a b -> covered s a b \/ pending X2 y dy x x1 a b -> covered (l3 ++ l2 ++ s) a b \/ pending X2 y dy x1' x1' a b).
    { intros a b O [H|[(-> & H)|(Hb & H)]].
      - left. apply (covered_incl s); assumption.
      - right. left. split; [reflexivity|]. destruct (Z_lt_dec a x1') as [L|L]; [|lia]. exfalso. apply (CLOSED a); [lia|exact O].
      - left. apply COV2; [exact Hb|lia|exact O]. }
    assert (FULL : full p' (l3 ++ l2 ++ s) (pending X2 y dy x1' x1')).
    { split; [|split].
      - intros a b a' b' RA NO AD O. destruct (inside p a b m) eqn:OP.
        2:{ apply TR; [exact O|]. apply (F1 a b); try assumption; [unfold open; congruence|apply SUB, O]. }
        assert (IS : b = y /\ x1 <= a < e).
        { destruct (Z.eq_dec b y) as [->|NB]; [|exfalso; apply NO; unfold open; rewrite (strip_out _ _ _ _ _ _ a b m S) by lia; exact OP].
          split; [reflexivity|]. destruct (Z_le_dec x1 a) as [L1|L1]; [destruct (Z_lt_dec a e) as [L2|L2]; [lia|]|]; exfalso; apply NO; unfold open; rewrite (strip_out _ _ _ _ _ _ a y m S) by lia; exact OP. }
        destruct IS as (-> & Ha).
        assert (CASES : (b' = y /\ (a' = a - 1 \/ a' = a + 1)) \/ (b' = y + dy /\ a' = a) \/ (b' = y - dy /\ a' = a)) by lia.
        destruct CASES as [(-> & [->| ->])|[(-> & ->)|(-> & ->)]].
        + exfalso. destruct (Z_le_dec x (a - 1)) as [L|L]; [apply (CLOSED (a - 1)); [lia|exact O]|].
          replace (a - 1) with (x - 1) in O by lia. apply (C2); [apply F; lia|apply SUB, O].
        + exfalso. apply (CLOSED (a + 1)); [lia|exact O].
        + left. apply COV2; [reflexivity|lia|exact O].
        + left. destruct (Z_le_dec a X2) as [L|L]; [apply (covered_incl s); [apply C3; [lia|apply SUB, O]|exact IN]|apply COV3; [reflexivity|lia|exact O]].
      - intros v a b I PA O. apply in_app_or in I. destruct I as [I|I]; [|apply in_app_or in I; destruct I as [I|I]].
        + exfalso. apply K3 in I. destruct I as (-> & L & Y). apply (pushed_parent p') in PA; try lia; [|exact O]. destruct PA as (-> & Ha). replace (y - dy - - dy) with y in O by lia. apply (CLOSED a); [lia|exact O].
        + exfalso. apply K2 in I. destruct I as (-> & L & Y). apply (pushed_parent p') in PA; try lia; [|exact O]. destruct PA as (-> & Ha). replace (y + dy - dy) with y in O by lia. apply (CLOSED a); [lia|exact O].
        + apply TR; [exact O|]. apply (F2 v a b I PA), SUB, O.
      - intros O. apply TR; [exact O|]. apply F3, SUB, O. }
    specialize (CO ltac:(intros; lia)).
    assert (CO2 := CO (fun _ => CLOSED (x1' - 1) ltac:(lia))). clear CO.
    specialize (CO2 ltac:(intros a Ha O; apply (covered_incl s); [apply C3; [exact Ha|apply SUB, O]|exact IN]) FULL).
    destruct (paint_span n (Painting p' (l3 ++ l2 ++ s)) x1' x1' X2 y dy m c) as [p'' s''|p'']; [|exact Logic.I].
    destruct CO2 as (G1 & G2 & G3). split; [exact G1|]. split; [|intros a b O; apply SUB, G3, O].
    etransitivity; [exact G2|]. unfold weight. rewrite !app_length.
    destruct (Z_lt_dec x1 e) as [L|L].
    + assert (X := left_lt p p' x1 y SUB (F x1 ltac:(lia)) (CLOSED x1 ltac:(lia))). assert (length l2 <= 1)%nat by (unfold l2; destruct (e >? x); cbn; lia).
      assert (length l3 <= 1)%nat by (unfold l3; destruct (e - 1 >? X2); cbn; lia). lia.
    + assert (X := left_le p p' SUB). replace l2 with (@nil Z) by (unfold l2; replace (e >? x) with false by lia; reflexivity).
      replace l3 with (@nil Z) by (unfold l3; replace (e - 1 >? X2) with false by lia; reflexivity). cbn [length]. lia.
Qed.
Lemma turn_within n p v s : Z.of_nat n = 257 -> st_ok (Painting p (v :: s)) ->
  let st := paint_turn_within n (Painting p (v :: s)) m c in
  st_ok st /\
  (matches m c = false -> full p (v :: s) (fun _ _ => False) ->
   match st with
   | Painting p' s' => full p' s' (fun _ _ => False) /\ (S (weight p' s') <= weight p (v :: s))%nat
   | Overflow _ => True
   end).
Proof.
  intros N257 (P & SO). inversion SO as [|v' s' SV SO']; subst v' s'. unfold paint_turn_within. unfold span_ok in SV.
  assert (UV : forall a b, covers v a b -> let '(x1, x2, y, dy) := unpack4 v in b = y /\ x1 <= a <= x2) by (intros a b H; exact H).
  assert (PV : forall a b, (let '(x1, x2, y, dy) := unpack4 v in b = y - dy /\ x1 <= a <= x2) -> parent v a b) by (intros a b H; exact H).
  destruct (unpack4 v) as [[[X1 X2] y] dy] eqn:U. destruct SV as (H1 & H2 & Hy & HD & HR).
  destruct (inside p X1 y m) eqn:IN.
  - destruct (paint_left n p X1 y m c) as [p' x] eqn:PL. apply paint_left_spec in PL. destruct PL as (B & F & S & T).
    assert (X0 : 0 <= x).
    { destruct (Z.eq_dec x X1) as [->|NE]; [lia|]. assert (I := F x ltac:(lia)). apply inside_page in I. lia. }
    assert (CL : inside p' (x - 1) y m = false) by (apply T; lia). clear T.
    assert (YP := proj2 (inside_page _ _ _ _ IN)).
    assert (RX : region X1 y) by (apply HR; [lia|apply (page_open p); [exact P|exact IN]]).
    assert (RP : forall a, x <= a <= X1 -> region a y).
    { intros a Ha. replace a with (X1 - Z.of_nat (Z.to_nat (X1 - a))) by lia. apply region_left; [exact RX|]. intros i Hi. apply (page_open p); [exact P|].
      destruct (Z.eq_dec i X1) as [->|NE]; [exact IN|apply F; lia]. }
    assert (P' : page_ok p') by (apply (page_strip p p' y x X1 P S); intros i Hi; apply RP; lia).
    assert (IN' : inside p' X1 y m = true) by (rewrite (strip_out _ _ _ _ _ _ X1 y m S) by lia; exact IN).
    set (l1 := if x <? X1 then [pack4 x (X1 - 1) (y - dy) (- dy)] else []).
    set (st1 := if x <? X1 then push_span (Painting p' s) x (X1 - 1) (y - dy) (- dy) else Painting p' s).
    assert (ST1 : st1 = Overflow p' \/ st1 = Painting p' (l1 ++ s)).
    { unfold st1, l1. destruct (x <? X1); [apply push_cases|right; reflexivity]. }
    assert (K1 : forall w, In w l1 -> w = pack4 x (X1 - 1) (y - dy) (- dy) /\ x < X1).
    { intros w I. unfold l1 in I. destruct (x <? X1) eqn:G; [|destruct I]. destruct I as [<-|[]]. split; [reflexivity|lia]. }
    assert (SO1 : Forall span_ok (l1 ++ s)).
    { apply Forall_app. split; [|exact SO']. apply Forall_forall. intros w I. apply K1 in I. destruct I as (-> & L). apply pushed_ok; try lia.
      intros a Ha O. apply (region_step a y); [apply RP; lia|lia|exact O]. }
    destruct ST1 as [->| ->].
    { assert (OV : paint_span n (Overflow p') x X1 X2 y dy m c = Overflow p') by (destruct n; reflexivity). rewrite OV. split; [exact P'|intros; exact Logic.I]. }
    assert (LX : X1 <= X2) by lia. assert (A1 : 0 <= x <= X1) by lia. assert (A2 : X1 <= X1) by lia. assert (A3 : X2 - X1 + 1 <= Z.of_nat n) by lia.
    assert (A4 : forall a, x <= a < X1 -> region a y) by (intros a Ha; apply RP; lia).
    destruct (span_spec X1 X2 y dy H1 H2 HD HR n p' (l1 ++ s) x X1 P' SO1 A1 A2 A3 (or_intror (conj IN' LX)) A4) as (OK & CO).
    split; [exact OK|]. intros NM (F1 & F2 & F3). specialize (CO NM).
    assert (SUB : forall a b, open p' a b -> open p a b).
    { intros a b O. unfold open in *. destruct (Z.eq_dec b y) as [->|NB]; [|rewrite (strip_out _ _ _ _ _ _ a b m S) in O by lia; exact O].
      destruct (Z_le_dec x a) as [L1|L1]; [destruct (Z_lt_dec a X1) as [L2|L2]|].
      - rewrite (strip_in _ _ _ _ _ _ a m S) in O by (try lia; exact NM). discriminate O.
      - rewrite (strip_out _ _ _ _ _ _ a y m S) in O by lia. exact O.
      - rewrite (strip_out _ _ _ _ _ _ a y m S) in O by lia. exact O. }
    assert (CLOSED : forall a, x - 1 <= a < X1 -> ~ open p' a y).
    { intros a Ha O. unfold open in O. destruct (Z.eq_dec a (x - 1)) as [->|NE]; [congruence|]. rewrite (strip_in _ _ _ _ _ _ a m S) in O by (try lia; exact NM). discriminate O. }
    assert (INs : forall w, In w s -> In w (l1 ++ s)) by (intros w I; apply in_or_app; right; exact I).
    assert (TR : forall a b, covered (v :: s) a b \/ False -> covered (l1 ++ s) a b \/ pending X2 y dy x X1 a b).
    { intros a b [(w & [<-|I] & C)|[]]; [right; left; apply UV in C; exact C|left; exists w; split; [apply INs, I|exact C]]. }
    assert (COV1 : forall a b, b = y - dy -> x <= a < X1 -> open p' a b -> covered (l1 ++ s) a b).
    { intros a b -> Ha O. apply inside_page in O. exists (pack4 x (X1 - 1) (y - dy) (- dy)). split.
      - apply in_or_app. left. unfold l1. replace (x <? X1) with true by lia. left. reflexivity.
      - apply pushed_covers; lia. }
    assert (FULL : full p' (l1 ++ s) (pending X2 y dy x X1)).
    { split; [|split].
      - intros a b a' b' RA NO AD O. destruct (inside p a b m) eqn:OP.
        2:{ apply TR. apply (F1 a b); try assumption; [unfold open; congruence|apply SUB, O]. }
        assert (IS : b = y /\ x <= a < X1).
        { destruct (Z.eq_dec b y) as [->|NB]; [|exfalso; apply NO; unfold open; rewrite (strip_out _ _ _ _ _ _ a b m S) by lia; exact OP].
          split; [reflexivity|]. destruct (Z_le_dec x a) as [L1|L1]; [destruct (Z_lt_dec a X1) as [L2|L2]; [lia|]|]; exfalso; apply NO; unfold open; rewrite (strip_out _ _ _ _ _ _ a y m S) by lia; exact OP. }
        destruct IS as (-> & Ha).
        assert (CASES : (b' = y /\ (a' = a - 1 \/ a' = a + 1)) \/ (b' = y + dy /\ a' = a) \/ (b' = y - dy /\ a' = a)) by lia.
        destruct CASES as [(-> & [->| ->])|[(-> & ->)|(-> & ->)]].
        + exfalso. apply (CLOSED (a - 1)); [lia|exact O].
        + right. left. split; [reflexivity|]. destruct (Z_lt_dec (a + 1) X1) as [L|L]; [exfalso; apply (CLOSED (a + 1)); [lia|exact O]|lia].
        + right. right. split; [reflexivity|lia].
        + left. apply COV1; [reflexivity|lia|exact O].
      - intros w a b I PA O. apply in_app_or in I. destruct I as [I|I].
        + exfalso. apply K1 in I. destruct I as (-> & L). apply (pushed_parent p') in PA; try lia; [|exact O]. destruct PA as (-> & Ha). replace (y - dy - - dy) with y in O by lia. apply (CLOSED a); [lia|exact O].
        + apply TR. apply (F2 w a b (or_intror I) PA), SUB, O.
      - intros O. apply TR. apply F3, SUB, O. }
    specialize (CO ltac:(intros a Ha; apply CLOSED; lia) (fun _ => CLOSED (x - 1) ltac:(lia))).
    assert (CO2 := fun H => CO H FULL). clear CO.
    assert (PC : forall a, X1 <= a <= X2 -> open p' a (y - dy) -> covered (l1 ++ s) a (y - dy)).
    { intros a Ha O. destruct (F2 v a (y - dy) (or_introl eq_refl) (PV a (y - dy) (conj eq_refl Ha)) (SUB _ _ O)) as [(w & [<-|I] & C)|[]].
      - apply UV in C. exfalso. lia.
      - exists w. split; [apply INs, I|exact C]. }
    specialize (CO2 PC). destruct (paint_span n (Painting p' (l1 ++ s)) x X1 X2 y dy m c) as [p'' s''|p'']; [|exact Logic.I].
    destruct CO2 as (G1 & G2 & _). split; [exact G1|]. unfold weight in *. rewrite app_length in G2. cbn [length].
    destruct (Z_lt_dec x X1) as [L|L].
    + assert (X := left_lt p p' x y SUB (F x ltac:(lia)) (CLOSED x ltac:(lia))). assert (length l1 <= 1)%nat by (unfold l1; destruct (x <? X1); cbn; lia). lia.
    + assert (X := left_le p p' SUB). replace l1 with (@nil Z) in G2 by (unfold l1; replace (x <? X1) with false by lia; reflexivity). cbn [length] in G2. lia.
  - destruct (span_spec X1 X2 y dy H1 H2 HD HR n p s X1 X1 P SO' ltac:(lia) ltac:(lia) ltac:(lia) (or_introl eq_refl) ltac:(intros; lia)) as (OK & CO).
    split; [exact OK|]. intros NM (F1 & F2 & F3). specialize (CO NM ltac:(intros; lia) ltac:(unfold open; congruence)).
    assert (TR : forall a b, covered (v :: s) a b \/ False -> covered s a b \/ pending X2 y dy X1 X1 a b).
    { intros a b [(w & [<-|I] & C)|[]]; [right; left; apply UV in C; exact C|left; exists w; split; [exact I|exact C]]. }
    assert (PC : forall a, X1 <= a <= X2 -> open p a (y - dy) -> covered s a (y - dy)).
    { intros a Ha O. destruct (F2 v a (y - dy) (or_introl eq_refl) (PV a (y - dy) (conj eq_refl Ha)) O) as [(w & [<-|I] & C)|[]].
      - apply UV in C. exfalso. lia.
      - exists w. split; [exact I|exact C]. }
    specialize (CO PC).
    assert (FULL : full p s (pending X2 y dy X1 X1)).
    { split; [|split].
      - intros a b a' b' A B C D. apply TR, (F1 a b a' b' A B C D).
      - intros w a b A B C. apply TR, (F2 w a b (or_intror A) B C).
      - intros O. apply TR, F3, O. }
    specialize (CO FULL). destruct (paint_span n (Painting p s) X1 X1 X2 y dy m c) as [p'' s''|p'']; [|exact Logic.I].
    destruct CO as (G1 & G2 & _). split; [exact G1|]. unfold weight in *. cbn [length]. lia.
Qed.
Lemma turn_spec p v s : st_ok (Painting p (v :: s)) ->
  let st := paint_turn (Painting p (v :: s)) m c in
  st_ok st /\
  (matches m c = false -> full p (v :: s) (fun _ _ => False) ->
   match st with
   | Painting p' s' => full p' s' (fun _ _ => False) /\ (S (weight p' s') <= weight p (v :: s))%nat
   | Overflow _ => True
   end).
Proof. exact (turn_within 257 p v s eq_refl). Qed.
(** the loop *)
Lemma loop_sound : forall fuel st p f, st_ok st -> paint_loop fuel st m c = Some (p, f) -> page_ok p /\ (f = Done \/ f = Raised ERR_PAINT_STACK_OVERFLOW).
Proof.
  induction fuel as [|fuel IH]; intros st p f OK E; cbn [paint_loop] in E.
  - destruct st as [q [|v s]|q]; try discriminate E; injection E as <- <-; [split; [apply OK|left; reflexivity]|split; [apply OK|right; reflexivity]].
  - destruct st as [q [|v s]|q]; try (injection E as <- <-; [split; [apply OK|left; reflexivity]]); try (injection E as <- <-; split; [apply OK|right; reflexivity]).
    apply IH in E; [exact E|]. apply turn_spec, OK.
Qed.
Lemma loop_complete : matches m c = false -> forall fuel q s p, st_ok (Painting q s) -> full q s (fun _ _ => False) -> paint_loop fuel (Painting q s) m c = Some (p, Done) ->
  forall a b, region a b -> px p a b = c.
Proof.
  intros NM. induction fuel as [|fuel IH]; intros q s p OK FU E a b R.
  - destruct s as [|v s]; cbn [paint_loop] in E; [|discriminate E]. injection E as <-.
    destruct FU as (F1 & _ & F3).
    assert (CL : forall x y, region x y -> ~ open q x y).
    { intros x y H. unfold region in H. induction H as [HS|x y x' y' H IHH A O].
      - intros O. destruct (F3 O) as [(v & [] & _)|[]].
      - intros O'. destruct (F1 x y x' y' H IHH A O') as [(v & [] & _)|[]]. }
    specialize (CL a b R). destruct (region_page a b R) as (Ha & Hb). destruct (proj1 OK a b Ha Hb) as [X|(_ & X)]; [|exact X].
    exfalso. apply CL. apply region_open in R. unfold open in *. rewrite inside_eq in *. rewrite X. exact R.
  - destruct s as [|v s]; cbn [paint_loop] in E.
    + apply (IH q [] p OK FU); [|exact R]. destruct fuel; exact E.
    + destruct (turn_spec q v s OK) as (OK' & CO). specialize (CO NM FU). cbv zeta in *.
      destruct (paint_turn (Painting q (v :: s)) m c) as [q' s'|q'].
      * apply (IH q' s' p OK' (proj1 CO) E a b R).
      * destruct fuel; cbn [paint_loop] in E; discriminate E.
Qed.
Lemma loop_ends : matches m c = false -> forall fuel q s, st_ok (Painting q s) -> full q s (fun _ _ => False) -> (weight q s <= fuel)%nat -> paint_loop fuel (Painting q s) m c <> None.
Proof.
  intros NM. induction fuel as [|fuel IH]; intros q s OK FU L; cbn [paint_loop].
  - destruct s as [|v s]; [discriminate|]. unfold weight in L. cbn [length] in L. lia.
  - destruct s as [|v s]; [discriminate|]. destruct (turn_spec q v s OK) as (OK' & CO). specialize (CO NM FU). cbv zeta in *.
    destruct (paint_turn (Painting q (v :: s)) m c) as [q' s'|q'].
    + apply IH; [exact OK'|apply CO|]. destruct CO as (_ & CO). lia.
    + destruct fuel; cbn [paint_loop]; discriminate.
Qed.
(** the start *)
Definition start : painted := push_span (push_span (Painting p0 []) sx sx sy 1) sx sx (sy - 1) (-1).
Lemma start_eq : start = Painting p0 [pack4 sx sx (sy - 1) (-1); pack4 sx sx sy 1].
Proof. reflexivity. Qed.
Lemma start_ok : 0 <= sx < 256 -> 0 <= sy < 192 -> (open p0 sx sy) -> st_ok start /\ full p0 [pack4 sx sx (sy - 1) (-1); pack4 sx sx sy 1] (fun _ _ => False).
Proof.
  intros HX HY OP. assert (RS : region sx sy) by (apply linked_start, OP). split.
  - rewrite start_eq. split; [intros a b _ _; left; reflexivity|]. apply Forall_cons; [|apply Forall_cons; [|apply Forall_nil]].
    + apply pushed_ok; try lia. intros a Ha O. replace a with sx in * by lia. apply (region_step sx sy); [exact RS|lia|exact O].
    + apply pushed_ok; try lia. intros a Ha O. replace a with sx in * by lia. exact RS.
  - split; [|split].
    + intros a b a' b' R NO. exfalso. apply NO, region_open, R.
    + intros v a b I PA O. left. destruct I as [<-|[<-|[]]].
      * apply (pushed_parent p0) in PA; try lia; [|exact O]. destruct PA as (-> & Ha). replace (sy - 1 - -1) with sy in * by lia.
        exists (pack4 sx sx sy 1). split; [right; left; reflexivity|apply pushed_covers; lia].
      * apply (pushed_parent p0) in PA; try lia; [|exact O]. destruct PA as (-> & Ha). apply inside_page in O.
        exists (pack4 sx sx (sy - 1) (-1)). split; [left; reflexivity|apply pushed_covers; lia].
    + intros _. left. exists (pack4 sx sx sy 1). split; [right; left; reflexivity|apply pushed_covers; lia].
Qed.
End Fill.

(** ** C58 *)
(** the pixels GPAINT may pass: those of the colour of the starting point, or with a border colour all others *)
Definition passable (g : gfx) (x y : Z) (b : option Z) (u v : Z) : Prop :=
  0 <= u < 256 /\ 0 <= v < 192 /\
  match b with None => colour_at g (target g) u v = colour_at g (target g) x y | Some b => colour_at g (target g) u v <> whole b end.
Definition area (g : gfx) (x y : Z) (b : option Z) : Z -> Z -> Prop := linked (passable g x y b) x y.
Definition border_ok (b : option Z) : Prop := match b with None => True | Some b => 0 <= whole b <= 255 end.
(** the new colour ends the area: it is another colour than the old one, or the border colour *)
Definition ends (g : gfx) (x y : Z) (b : option Z) (k : Z) : Prop :=
  match b with None => k <> colour_at g (target g) x y | Some b => k = whole b end.

Definition match_of (g : gfx) (x y : Z) (b : option Z) : Z := match b with None => px (canvas g) x y | Some b => -1 - whole b end.
Lemma gpaint_eq fuel g x y c b k : well g -> colour_arg g c k -> 0 <= k <= 255 -> border_ok b -> 0 <= whole x < 256 -> 0 <= whole y < 192 ->
  cmd_gpaint fuel g x y c b = match paint_loop fuel (start (canvas g) (whole x) (whole y)) (match_of g (whole x) (whole y) b) k with
                              | Some (p, f) => Some (set_canvas g p, f) | None => None end.
Proof.
  intros W C K B HX HY. unfold cmd_gpaint. cbv zeta beta. change (FP_TO_INT x) with (whole x). change (FP_TO_INT y) with (whole y).
  replace (match c with None => Some (color g) | Some c0 => int_range c0 0 255 end) with (Some k).
  2:{ destruct c as [v|]; cbn [colour_arg] in C; subst k; [symmetry; apply int_range_some; tauto|reflexivity]. }
  destruct b as [b|].
  - cbn [border_ok] in B. rewrite (proj2 (int_range_some b 0 255 (whole b))) by tauto. unfold start, match_of. reflexivity.
  - assert (G := grp_index_range (whole x) (whole y) HX HY). unfold GRP_SIZE. replace (grp_index (whole x) (whole y) >=? 49152) with false by lia. unfold start, match_of, px. reflexivity.
Qed.
Lemma page_all a b : 0 <= a < 256 -> 0 <= b < 192 -> In (a, b) (fill_points 0 0 255 191).
Proof. intros. apply in_fill. lia. Qed.
Lemma linked_iff (S T : Z -> Z -> Prop) x y : (forall u v, S u v <-> T u v) -> forall u v, linked S x y u v -> linked T x y u v.
Proof.
  intros E u v H. induction H as [H|u v u' v' H IH A H']; [apply linked_start, E, H|]. apply (linked_next T x y u v); [exact IH|exact A|apply E, H'].
Qed.
Lemma passable_open g x y b u v : well g -> 0 <= x < 256 -> 0 <= y < 192 -> border_ok b ->
  (passable g x y b u v <-> open (match_of g x y b) (canvas g) u v).
Proof.
  intros W HX HY B. unfold passable, open. rewrite inside_eq. rewrite andb_true_iff, on_page_iff.
  assert (D := well_draw g W). fold (draw_no g) in D. unfold target. fold (draw_no g).
  assert (Q : 0 <= u < 256 -> 0 <= v < 192 -> colour_at g (draw_no g) u v = px (canvas g) u v).
  { intros Hu Hv. apply colour_on; try assumption. apply well_px; assumption. }
  assert (QX : colour_at g (draw_no g) x y = px (canvas g) x y) by (apply colour_on; try assumption; apply well_px; assumption).
  assert (BX : 0 <= px (canvas g) x y <= 255) by (apply (well_px g); assumption).
  unfold matches, match_of. destruct b as [b|]; cbn [border_ok] in B.
  - replace (-1 - whole b >=? 0) with false by lia. split.
    + intros (Hu & Hv & N). rewrite Q in N by assumption. split; [tauto|]. lia.
    + intros ((Hu & Hv) & N). rewrite Q by assumption. split; [exact Hu|]. split; [exact Hv|]. lia.
  - replace (px (canvas g) x y >=? 0) with true by lia. rewrite QX. split.
    + intros (Hu & Hv & N). rewrite Q in N by assumption. split; [tauto|]. lia.
    + intros ((Hu & Hv) & N). rewrite Q by assumption. split; [exact Hu|]. split; [exact Hv|]. lia.
Qed.
Lemma area_region g x y b u v : well g -> 0 <= x < 256 -> 0 <= y < 192 -> border_ok b ->
  (area g x y b u v <-> region (canvas g) (match_of g x y b) x y u v).
Proof.
  intros W HX HY B. unfold area, region. split; apply linked_iff; intros u' v'; [|symmetry]; apply passable_open; assumption.
Qed.
Lemma ends_matches g x y b k : well g -> 0 <= x < 256 -> 0 <= y < 192 -> border_ok b -> 0 <= k <= 255 -> ends g x y b k -> matches (match_of g x y b) k = false.
Proof.
  intros W HX HY B K E. assert (D := well_draw g W). assert (BX : 0 <= px (canvas g) x y <= 255) by (apply (well_px g); assumption).
  unfold ends, matches, match_of, target in *. destruct b as [b|]; cbn [border_ok] in B.
  - replace (-1 - whole b >=? 0) with false by lia. lia.
  - rewrite colour_on in E; try assumption. change (pages g (drawpage g (screen g))) with (canvas g) in E. replace (px (canvas g) x y >=? 0) with true by lia. lia.
Qed.
(** Only pixels of the area change, and only to the new colour: however the command ends. *)
Theorem C58_only_the_area : forall fuel g x y c b k h f, well g -> colour_arg g c k -> 0 <= k <= 255 -> border_ok b ->
  0 <= whole x < 256 -> 0 <= whole y < 192 -> passable g (whole x) (whole y) b (whole x) (whole y) ->
  cmd_gpaint fuel g x y c b = Some (h, f) ->
  same_settings g h /\ (f = Done \/ f = Raised ERR_PAINT_STACK_OVERFLOW) /\
  forall n u v, 0 <= n <= 3 -> colour_at h n u v <> colour_at g n u v -> n = target g /\ area g (whole x) (whole y) b u v /\ colour_at h n u v = k.
Proof.
  intros fuel g x y c b k h f W C K B HX HY PS E. rewrite (gpaint_eq fuel g x y c b k W C K B HX HY) in E.
  set (m := match_of g (whole x) (whole y) b) in *. set (X := whole x) in *. set (Y := whole y) in *.
  destruct (paint_loop fuel (start (canvas g) X Y) m k) as [[p f']|] eqn:L; [|discriminate E]. injection E as <- <-.
  assert (OS : open m (canvas g) X Y) by (apply passable_open; assumption).
  destruct (start_ok (canvas g) m k X Y (fill_points 0 0 255 191) page_all HX HY OS) as (OK & _). destruct (loop_sound (canvas g) m k X Y (fill_points 0 0 255 191) page_all fuel _ p f' OK L) as (PO & FF).
  split; [apply settings_canvas|]. split; [exact FF|]. intros n u v Hn NE.
  destruct (on_page u v) eqn:O; [apply on_page_iff in O; destruct O as (Hu & Hv)|apply on_page_not in O; exfalso; apply NE; rewrite !colour_off by assumption; reflexivity].
  destruct (Z.eq_dec n (target g)) as [->|NT].
  2:{ exfalso. apply NE. apply colour_congr. intros _ _. rewrite canvas_px. unfold target in NT. fold (draw_no g) in NT. replace (n =? draw_no g) with false by lia. reflexivity. }
  assert (PX : px (pages (set_canvas g p) (target g)) u v = px p u v) by (rewrite canvas_px; unfold target, draw_no; rewrite Z.eqb_refl; reflexivity).
  destruct (PO u v Hu Hv) as [Q|(R & Q)].
  - exfalso. apply NE. apply colour_congr. intros _ _. rewrite PX. exact Q.
  - split; [reflexivity|]. split; [apply area_region; assumption|]. rewrite colour_on; [rewrite PX; exact Q|exact Hn|exact Hu|exact Hv|]. rewrite PX, Q. exact K.
Qed.
(** If it ends without an error, and the new colour ends the area, the whole area has the new colour and nothing else has changed. *)
Theorem C58_fills_partial : forall fuel g x y c b k h, well g -> colour_arg g c k -> 0 <= k <= 255 -> border_ok b ->
  0 <= whole x < 256 -> 0 <= whole y < 192 -> passable g (whole x) (whole y) b (whole x) (whole y) -> ends g (whole x) (whole y) b k ->
  cmd_gpaint fuel g x y c b = Some (h, Done) ->
  same_settings g h /\
  forall n u v, 0 <= n <= 3 ->
    (n = target g /\ area g (whole x) (whole y) b u v -> colour_at h n u v = k) /\
    (~ (n = target g /\ area g (whole x) (whole y) b u v) -> colour_at h n u v = colour_at g n u v).
Proof.
  intros fuel g x y c b k h W C K B HX HY PS EN E. destruct (C58_only_the_area fuel g x y c b k h Done W C K B HX HY PS E) as (SS & _ & ON).
  split; [exact SS|]. intros n u v Hn. split.
  - intros (-> & AR). rewrite (gpaint_eq fuel g x y c b k W C K B HX HY) in E.
    set (m := match_of g (whole x) (whole y) b) in *. set (X := whole x) in *. set (Y := whole y) in *.
    destruct (paint_loop fuel (start (canvas g) X Y) m k) as [[p f']|] eqn:L; [|discriminate E]. injection E as <- ->.
    assert (OS : open m (canvas g) X Y) by (apply passable_open; assumption).
    destruct (start_ok (canvas g) m k X Y (fill_points 0 0 255 191) page_all HX HY OS) as (OK & FU).
    apply area_region in AR; [|assumption..]. assert (Q := loop_complete (canvas g) m k X Y (fill_points 0 0 255 191) page_all (ends_matches g X Y b k W HX HY B K EN) fuel _ _ p OK FU L u v AR).
    destruct (region_page _ _ _ _ _ _ AR) as (Hu & Hv).
    assert (PX : px (pages (set_canvas g p) (target g)) u v = k) by (rewrite canvas_px; unfold target, draw_no; rewrite Z.eqb_refl; exact Q).
    rewrite colour_on; [exact PX|exact Hn|exact Hu|exact Hv|]. rewrite PX. exact K.
  - intros N. destruct (Z.eq_dec (colour_at h n u v) (colour_at g n u v)) as [Q|Q]; [exact Q|]. exfalso. apply N. destruct (ON n u v Hn Q) as (A & A' & _). split; assumption.
Qed.
Lemma page_points : Z.of_nat (length (fill_points 0 0 255 191)) = 49152.
Proof.
  assert (K : forall l, Z.of_nat (length (flat_map (fun x : Z => map (fun y => (x, y)) (zrange 0 191)) l)) = 192 * Z.of_nat (length l)).
  { induction l as [|x l IH]; [reflexivity|]. cbn [flat_map length]. rewrite app_length, map_length, Nat2Z.inj_add, IH.
    replace (length (zrange 0 191)) with 192%nat by reflexivity. lia. }
  unfold fill_points. rewrite K. reflexivity.
Qed.
Lemma filter_short {A} (f : A -> bool) l : (length (filter f l) <= length l)%nat.
Proof. induction l as [|x l IH]; [cbn; lia|]. cbn [filter]. destruct (f x); cbn [length]; lia. Qed.
Lemma weight_start m p a b : (weight m (fill_points 0 0 255 191) p [a; b] <= Z.to_nat 150000)%nat.
Proof.
  unfold weight, left_over. assert (A := page_points). generalize dependent (fill_points 0 0 255 191). intros l A. cbn [length].
  assert (LL := filter_short (fun q => inside p (fst q) (snd q) m) l). revert LL A. generalize (length (filter (fun q => inside p (fst q) (snd q) m) l)). intros n LL A. lia.
Qed.
(** If the new colour ends the area the command ends, within 150000 rounds *)
Theorem C58_ends : forall fuel g x y c b k, well g -> colour_arg g c k -> 0 <= k <= 255 -> border_ok b ->
  0 <= whole x < 256 -> 0 <= whole y < 192 -> passable g (whole x) (whole y) b (whole x) (whole y) -> ends g (whole x) (whole y) b k ->
  150000 <= Z.of_nat fuel -> exists h f, cmd_gpaint fuel g x y c b = Some (h, f) /\ (f = Done \/ f = Raised ERR_PAINT_STACK_OVERFLOW).
Proof.
  intros fuel g x y c b k W C K B HX HY PS EN L.
  destruct (cmd_gpaint fuel g x y c b) as [[h f]|] eqn:E.
  - exists h, f. split; [reflexivity|]. apply (C58_only_the_area fuel g x y c b k h f W C K B HX HY PS E).
  - exfalso. rewrite (gpaint_eq fuel g x y c b k W C K B HX HY) in E.
    set (m := match_of g (whole x) (whole y) b) in *. set (X := whole x) in *. set (Y := whole y) in *.
    destruct (paint_loop fuel (start (canvas g) X Y) m k) as [[p f']|] eqn:PL; [discriminate E|].
    assert (OS : open m (canvas g) X Y) by (apply passable_open; assumption).
    destruct (start_ok (canvas g) m k X Y (fill_points 0 0 255 191) page_all HX HY OS) as (OK & FU).
    apply (loop_ends (canvas g) m k X Y (fill_points 0 0 255 191) page_all (ends_matches g X Y b k W HX HY B K EN) fuel _ _ OK FU) in PL; [exact PL|].
    eapply Nat.le_trans; [apply weight_start|]. apply Nat2Z.inj_le. rewrite Z2Nat.id; [exact L|discriminate].
Qed.

(** *** where it fails *)
Definition on_canvas (f : Z -> Z -> Z) : gfx :=
  mkG 0 15 false (fun s => s) (fun s => s) (fun _ => 3)
    (fun _ i => f (i mod 8 + 8 * ((i / 64) mod 8) + 64 * ((i / 4096) mod 4)) ((i / 8) mod 8 + 8 * ((i / 512) mod 8) + 64 * (i / 16384))).
Lemma on_canvas_well f : (forall x y, 0 <= f x y <= 255) -> well (on_canvas f).
Proof. intros H. repeat split; cbn [on_canvas screen color drawpage displaypage prio pages]; try lia; apply H. Qed.
Definition ended (r : option (gfx * fin)) : option fin := option_map snd r.
Definition seen_after (r : option (gfx * fin)) (x y : Z) : Z := match r with Some (h, _) => colour_at h 0 x y | None => -3 end.
(** a 2 x 2 field of colour 0 in colour 1 *)
Definition field : gfx := on_canvas (fun x y => if (10 <=? x) && (x <=? 11) && (10 <=? y) && (y <=? 11) then 0 else 1).
(** painting an area in the colour it has already: an error *)
Theorem C58_same_colour_refuted : well field /\ passable field 10 11 None 10 11 /\
  ended (cmd_gpaint 1000 field (10 * 4096) (11 * 4096) (Some 0) None) = Some (Raised ERR_PAINT_STACK_OVERFLOW).
Proof.
  split; [apply on_canvas_well; intros x y; destruct ((10 <=? x) && (x <=? 11) && (10 <=? y) && (y <=? 11)); lia|].
  split; [repeat split; lia|]. vm_compute. reflexivity.
Qed.
(** with a border colour, any colour but the border colour fails *)
Theorem C58_border_refuted : well field /\ passable field 10 11 (Some 4096) 10 11 /\
  ended (cmd_gpaint 1000 field (10 * 4096) (11 * 4096) (Some (7 * 4096)) (Some 4096)) = Some (Raised ERR_PAINT_STACK_OVERFLOW).
Proof.
  split; [apply on_canvas_well; intros x y; destruct ((10 <=? x) && (x <=? 11) && (10 <=? y) && (y <=? 11)); lia|].
  split; [split; [lia|]; split; [lia|]; vm_compute; discriminate|]. vm_compute. reflexivity.
Qed.
(** a page with a dot at every other column of every other row is too much for the stack *)
Definition dots : gfx := on_canvas (fun x y => if (x mod 2 =? 1) && (y mod 2 =? 1) then 1 else 0).
Theorem C58_dots_refuted : well dots /\ passable dots 128 96 None 128 96 /\ ends dots 128 96 None 7 /\
  ended (cmd_gpaint 2000 dots (128 * 4096) (96 * 4096) (Some (7 * 4096)) None) = Some (Raised ERR_PAINT_STACK_OVERFLOW).
Proof.
  split; [apply on_canvas_well; intros x y; destruct ((x mod 2 =? 1) && (y mod 2 =? 1)); lia|].
  split; [repeat split; lia|]. split; [vm_compute; discriminate|]. vm_compute. reflexivity.
Qed.
(** a starting point on the border paints the area above it *)
Theorem C58_on_border_refuted : exists r, cmd_gpaint 1000 field (10 * 4096) (12 * 4096) (Some 4096) (Some 4096) = r /\
  colour_at field 0 10 12 = 1 /\ colour_at field 0 10 11 = 0 /\ ended r = Some Done /\ seen_after r 10 11 = 1.
Proof. eexists. split; [reflexivity|]. repeat split; vm_compute; reflexivity. Qed.
(** a starting point beside the page paints on the page *)
Theorem C58_beside_refuted : exists r, cmd_gpaint 1000 field ((10 + 256) * 4096) (11 * 4096) (Some (7 * 4096)) None = r /\ ended r = Some Done /\
  colour_at field 0 10 11 = 0 /\ seen_after r 10 11 = 7.
Proof. eexists. split; [reflexivity|]. repeat split; vm_compute; reflexivity. Qed.
(** one below it reads outside the page *)
Theorem C58_below_refuted : forall fuel g x y c, well g -> 0 <= whole x < 256 -> 192 <= whole y < 256 -> colour_arg g c (match c with None => color g | Some v => whole v end) ->
  0 <= match c with None => color g | Some v => whole v end <= 255 -> cmd_gpaint fuel g x y c None = Some (g, Crash).
Proof.
  intros fuel g x y c W HX HY _ K. unfold cmd_gpaint. change (FP_TO_INT x) with (whole x). change (FP_TO_INT y) with (whole y). cbv zeta beta.
  replace (match c with None => Some (color g) | Some c0 => int_range c0 0 255 end) with (Some match c with None => color g | Some v => whole v end).
  2:{ destruct c as [v|]; [symmetry; apply int_range_some; tauto|reflexivity]. }
  replace (grp_index (whole x) (whole y) >=? GRP_SIZE) with true; [reflexivity|]. unfold grp_index, GRP_SIZE. rewrite !u8_id by lia. lia.
Qed.
Example C58_fills_ok : exists r, cmd_gpaint 1000 field (10 * 4096) (11 * 4096) (Some (7 * 4096)) None = r /\ ended r = Some Done /\
  passable field 10 11 None 10 11 /\ ends field 10 11 None 7 /\
  map (fun y => map (fun x => seen_after r x y) [9; 10; 11; 12]) [9; 10; 11; 12] = [[1; 1; 1; 1]; [1; 7; 7; 1]; [1; 7; 7; 1]; [1; 1; 1; 1]].
Proof. eexists. split; [reflexivity|]. split; [vm_compute; reflexivity|]. split; [repeat split; lia|]. split; [vm_compute; discriminate|]. vm_compute. reflexivity. Qed.

Print Assumptions C58_only_the_area.
Print Assumptions C58_fills_partial.
Print Assumptions C58_ends.
Print Assumptions C58_same_colour_refuted.
Print Assumptions C58_border_refuted.
Print Assumptions C58_dots_refuted.
Print Assumptions C58_on_border_refuted.
Print Assumptions C58_beside_refuted.
Print Assumptions C58_below_refuted.
