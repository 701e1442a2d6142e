From Verif Require Import Base BaseLemmas Num NumSpec.
From Coq Require Import QArith Qround.
Open Scope Z_scope.
Ltac Zify.zify_post_hook ::= Z.div_mod_to_equations.

Lemma fixp_s32 x : fixp x <-> is_s32 x.
Proof. unfold fixp, is_s32, INT_MIN, INT_MAX. lia. Qed.

Lemma range_test z : ((z <? INT_MIN) || (INT_MAX <? z)) = negb (s32b z).
Proof. unfold s32b. lia. Qed.

Lemma op_add_ok x y : fixp (x + y) -> op_add x y = Ok (x + y).
Proof. intros H. apply fixp_s32, s32b_spec in H. unfold op_add, c_int. cbv zeta.
  rewrite range_test, H. reflexivity. Qed.
Lemma op_add_err x y : ~ fixp (x + y) -> op_add x y = Err ERR_OVERFLOW.
Proof. intros H. rewrite fixp_s32 in H. apply s32b_false in H. unfold op_add. cbv zeta.
  rewrite range_test, H. reflexivity. Qed.
Lemma op_sub_ok x y : fixp (x - y) -> op_sub x y = Ok (x - y).
Proof. intros H. apply fixp_s32, s32b_spec in H. unfold op_sub, c_int. cbv zeta.
  rewrite range_test, H. reflexivity. Qed.
Lemma op_sub_err x y : ~ fixp (x - y) -> op_sub x y = Err ERR_OVERFLOW.
Proof. intros H. rewrite fixp_s32 in H. apply s32b_false in H. unfold op_sub. cbv zeta.
  rewrite range_test, H. reflexivity. Qed.

Lemma val_add x y : (val x + val y == val (x + y))%Q.
Proof. unfold val, Qeq, Qplus; simpl. lia. Qed.
Lemma val_sub x y : (val x - val y == val (x - y))%Q.
Proof. unfold val, Qeq, Qminus, Qplus, Qopp; simpl. lia. Qed.

Lemma val_inj x y : (val x == val y)%Q -> x = y.
Proof. unfold val, Qeq; simpl. lia. Qed.

Lemma fixp_dec x : {fixp x} + {~ fixp x}.
Proof. unfold fixp. destruct (Z_le_dec (-2^31) x), (Z_lt_dec x (2^31)); [left|right|right|right]; lia. Qed.

(** Q-level statement of addition *)
Lemma add_spec x y :
  (forall z, fixp z -> (val z == val x + val y)%Q -> op_add x y = Ok z) /\
  ((forall z, fixp z -> ~ (val z == val x + val y)%Q) -> op_add x y = Err ERR_OVERFLOW).
Proof.
  split.
  - intros z Hz E. rewrite val_add in E. apply val_inj in E. subst z. apply op_add_ok; exact Hz.
  - intros H. apply op_add_err. intros Hf. apply (H _ Hf). rewrite val_add. reflexivity.
Qed.
Lemma sub_spec x y :
  (forall z, fixp z -> (val z == val x - val y)%Q -> op_sub x y = Ok z) /\
  ((forall z, fixp z -> ~ (val z == val x - val y)%Q) -> op_sub x y = Err ERR_OVERFLOW).
Proof.
  split.
  - intros z Hz E. rewrite val_sub in E. apply val_inj in E. subst z. apply op_sub_ok; exact Hz.
  - intros H. apply op_sub_err. intros Hf. apply (H _ Hf). rewrite val_sub. reflexivity.
Qed.

Lemma mult_floor x y : Qfloor (units (val x * val y)) = Z.shiftr (x * y) 12.
Proof.
  rewrite Z.shiftr_div_pow2 by lia. change (2^12) with 4096.
  unfold units, val, Qmult, Qfloor. simpl. generalize (x * y); intros p. lia.
Qed.

Lemma mult_spec x y :
  let z := Qfloor (units (val x * val y)) in
  (fixp z -> op_mult x y = Ok z) /\ (~ fixp z -> op_mult x y = Err ERR_OVERFLOW).
Proof.
  cbv zeta. rewrite mult_floor. unfold op_mult. cbv zeta. rewrite range_test.
  split; intros H; rewrite fixp_s32 in H;
    [apply s32b_spec in H | apply s32b_false in H]; rewrite H; reflexivity.
Qed.

Lemma Qtrunc_comp a b : (a == b)%Q -> Qtrunc a = Qtrunc b.
Proof. intros E. unfold Qtrunc. rewrite (Qfloor_comp _ _ E), (Qceiling_comp _ _ E).
  destruct (Qle_bool 0 a) eqn:A, (Qle_bool 0 b) eqn:B; auto; exfalso.
  - apply Qle_bool_iff in A. rewrite E in A. apply Qle_bool_iff in A. congruence.
  - apply Qle_bool_iff in B. rewrite <- E in B. apply Qle_bool_iff in B. congruence.
Qed.

Lemma Qtrunc_frac n (d : positive) : Qtrunc (n # d) = Z.quot n (Zpos d).
Proof.
  unfold Qtrunc, Qle_bool, Qceiling, Qfloor, Qopp; simpl.
  rewrite Z.mul_1_r. destruct (Z.leb_spec 0 n).
  - symmetry. apply Z.quot_div_nonneg; lia.
  - rewrite <- (Z.opp_involutive n) at 2. rewrite Z.quot_opp_l by lia.
    rewrite Z.quot_div_nonneg by lia. reflexivity.
Qed.

Lemma div_trunc x y : y <> 0 -> Qtrunc (units (val x / val y)) = Z.quot (x * 4096) y.
Proof.
  intros Hy. destruct y as [|p|p]; [lia| |].
  - rewrite (Qtrunc_comp _ (x * 4096 # p)).
    + apply Qtrunc_frac.
    + unfold units, val, Qdiv, Qinv, Qeq, Qmult; simpl. lia.
  - rewrite (Qtrunc_comp _ (- (x * 4096) # p)).
    + rewrite Qtrunc_frac. change (Z.neg p) with (- Z.pos p).
      rewrite Z.quot_opp_l, Z.quot_opp_r by lia. reflexivity.
    + unfold units, val, Qdiv, Qinv, Qeq, Qmult; simpl. lia.
Qed.

Lemma div_spec x y :
  let z := Qtrunc (units (val x / val y)) in
  (y = 0 -> op_div x y = Err ERR_DIVIDE_BY_ZERO) /\
  (y <> 0 -> fixp z -> op_div x y = Ok z) /\
  (y <> 0 -> ~ fixp z -> op_div x y = Err ERR_OVERFLOW).
Proof.
  cbv zeta. split; [intros ->; reflexivity|].
  split; intros Hy; rewrite div_trunc by exact Hy; unfold op_div; cbv zeta;
    rewrite range_test; destruct (Z.eqb_spec y 0); try lia; intros H;
    rewrite fixp_s32 in H; [apply s32b_spec in H | apply s32b_false in H]; rewrite H; reflexivity.
Qed.

(** bit operations on the 20-bit integer parts stay in range *)
Lemma s_range_bits k z : 0 <= k ->
  (- 2 ^ k <= z < 2 ^ k <-> forall i, k <= i -> Z.testbit z i = (z <? 0)).
Proof.
  intros Hk. split.
  - intros H i Hi. destruct (Z.ltb_spec z 0) as [Hn|Hn].
    + replace z with (Z.lnot (- z - 1)) by (unfold Z.lnot; lia).
      rewrite Z.lnot_spec by lia.
      destruct (Z.eq_dec (- z - 1) 0) as [E|E].
      { rewrite E, Z.testbit_0_l. reflexivity. }
      rewrite Z.bits_above_log2; [reflexivity|lia|].
      apply Z.log2_lt_pow2; [lia|]. apply Z.lt_le_trans with (2^k); [lia|].
      apply Z.pow_le_mono_r; lia.
    + destruct (Z.eq_dec z 0) as [->|E]; [apply Z.testbit_0_l|].
      apply Z.bits_above_log2; [lia|].
      apply Z.log2_lt_pow2; [lia|]. apply Z.lt_le_trans with (2^k); [lia|].
      apply Z.pow_le_mono_r; lia.
  - intros H. destruct (Z.ltb_spec z 0) as [Hn|Hn].
    + assert (- z - 1 < 2 ^ k); [|lia].
      destruct (Z.lt_ge_cases (- z - 1) (2 ^ k)) as [L|G]; [exact L|exfalso].
      assert (Hp : 0 < 2 ^ k) by (apply Z.pow_pos_nonneg; lia).
      set (j := Z.log2 (- z - 1)).
      assert (k <= j) by (apply Z.log2_le_pow2; lia).
      assert (T : Z.testbit (- z - 1) j = true) by (apply Z.bit_log2; lia).
      specialize (H j H0). replace z with (Z.lnot (- z - 1)) in H by (unfold Z.lnot; lia).
      rewrite Z.lnot_spec in H by (unfold j; apply Z.log2_nonneg).
      rewrite T in H. discriminate.
    + assert (Hp : 0 < 2 ^ k) by (apply Z.pow_pos_nonneg; lia).
      destruct (Z.lt_ge_cases z (2 ^ k)) as [L|G]; [lia|exfalso].
      set (j := Z.log2 z).
      assert (k <= j) by (apply Z.log2_le_pow2; lia).
      assert (T : Z.testbit z j = true) by (apply Z.bit_log2; lia).
      rewrite (H j H0) in T. discriminate.
Qed.

Lemma land_range k a b : 0 <= k -> - 2 ^ k <= a < 2 ^ k -> - 2 ^ k <= b < 2 ^ k ->
  - 2 ^ k <= Z.land a b < 2 ^ k.
Proof. intros Hk Ha Hb. rewrite s_range_bits in * by exact Hk. intros i Hi.
  rewrite Z.land_spec, Ha, Hb by exact Hi.
  destruct (Z.ltb_spec (Z.land a b) 0) as [L|L].
  - apply Z.land_neg in L. lia.
  - apply Z.land_nonneg in L. lia. Qed.
Lemma lor_range k a b : 0 <= k -> - 2 ^ k <= a < 2 ^ k -> - 2 ^ k <= b < 2 ^ k ->
  - 2 ^ k <= Z.lor a b < 2 ^ k.
Proof. intros Hk Ha Hb. rewrite s_range_bits in * by exact Hk. intros i Hi.
  rewrite Z.lor_spec, Ha, Hb by exact Hi.
  destruct (Z.ltb_spec (Z.lor a b) 0) as [L|L].
  - apply Z.lor_neg in L. lia.
  - apply Z.lor_nonneg in L. lia. Qed.
Lemma lxor_range k a b : 0 <= k -> - 2 ^ k <= a < 2 ^ k -> - 2 ^ k <= b < 2 ^ k ->
  - 2 ^ k <= Z.lxor a b < 2 ^ k.
Proof. intros Hk Ha Hb. rewrite s_range_bits in * by exact Hk. intros i Hi.
  rewrite Z.lxor_spec, Ha, Hb by exact Hi.
  destruct (Z.ltb_spec (Z.lxor a b) 0) as [L|L], (Z.ltb_spec a 0), (Z.ltb_spec b 0); auto; exfalso.
  - assert (0 <= Z.lxor a b) by (apply Z.lxor_nonneg; lia). lia.
  - assert (0 <= Z.lxor a b) by (apply Z.lxor_nonneg; lia). lia.
  - apply Z.lxor_nonneg in L. lia.
  - apply Z.lxor_nonneg in L. lia. Qed.

Lemma val_floor x : Qfloor (val x) = FP_TO_INT x.
Proof. reflexivity. Qed.

Lemma val_int n : (val (n * 4096) == inject_Z n)%Q.
Proof. unfold val, inject_Z, Qeq; simpl. lia. Qed.

Lemma bit_spec f g :
  (forall a b, - 2 ^ 19 <= a < 2 ^ 19 -> - 2 ^ 19 <= b < 2 ^ 19 -> - 2 ^ 19 <= g a b < 2 ^ 19) ->
  (forall x y, f x y = Ok (INT_TO_FP (g (FP_TO_INT x) (FP_TO_INT y)))) ->
  forall x y, fixp x -> fixp y -> exists z, f x y = Ok z /\ fixp z /\
     (val z == inject_Z (g (Qfloor (val x)) (Qfloor (val y))))%Q.
Proof.
  intros Hg Hf x y Hx Hy. rewrite !val_floor. apply fixp_s32 in Hx, Hy.
  pose proof (FP_TO_INT_range x Hx). pose proof (FP_TO_INT_range y Hy).
  specialize (Hg _ _ H H0). eexists. split; [apply Hf|].
  rewrite INT_TO_FP_exact by exact Hg. split; [|apply val_int].
  unfold fixp. change (2^19) with 524288 in Hg. change (2^31) with 2147483648. lia.
Qed.

Lemma and_spec x y : fixp x -> fixp y -> exists z, op_and x y = Ok z /\ fixp z /\
  (val z == inject_Z (Z.land (Qfloor (val x)) (Qfloor (val y))))%Q.
Proof. apply (bit_spec op_and Z.land); [intros; apply land_range; auto; lia | reflexivity]. Qed.
Lemma or_spec x y : fixp x -> fixp y -> exists z, op_or x y = Ok z /\ fixp z /\
  (val z == inject_Z (Z.lor (Qfloor (val x)) (Qfloor (val y))))%Q.
Proof. apply (bit_spec op_or Z.lor); [intros; apply lor_range; auto; lia | reflexivity]. Qed.
Lemma xor_spec x y : fixp x -> fixp y -> exists z, op_xor x y = Ok z /\ fixp z /\
  (val z == inject_Z (Z.lxor (Qfloor (val x)) (Qfloor (val y))))%Q.
Proof. apply (bit_spec op_xor Z.lxor); [intros; apply lxor_range; auto; lia | reflexivity]. Qed.
Lemma not_spec x : fixp x -> exists z, op_not x = Ok z /\ fixp z /\
  (val z == inject_Z (Z.lnot (Qfloor (val x))))%Q.
Proof.
  intros Hx. rewrite val_floor. apply fixp_s32 in Hx. pose proof (FP_TO_INT_range x Hx) as H.
  eexists. split; [reflexivity|].
  rewrite INT_TO_FP_exact by (unfold Z.lnot; change (2^19) with 524288 in *; lia).
  split; [|apply val_int]. unfold fixp, Z.lnot. change (2^19) with 524288 in H. change (2^31) with 2147483648. lia.
Qed.

Lemma truth_val b : INT_TO_FP (b2z b) = if b then 4096 else 0.
Proof. destruct b; reflexivity. Qed.

Lemma Qlt_val x y : (val x < val y)%Q <-> x < y.
Proof. unfold val, Qlt; simpl. lia. Qed.
Lemma Qle_val x y : (val x <= val y)%Q <-> x <= y.
Proof. unfold val, Qle; simpl. lia. Qed.
Lemma Qeq_val x y : (val x == val y)%Q <-> x = y.
Proof. unfold val, Qeq; simpl. lia. Qed.

Lemma truth_spec (P : Prop) b : (b = true <-> P) ->
  (P -> Ok (INT_TO_FP (b2z b)) = Ok 4096) /\ (~ P -> Ok (INT_TO_FP (b2z b)) = Ok 0).
Proof. intros H. rewrite truth_val. destruct b; split; intros; auto; exfalso; intuition congruence. Qed.

Lemma cmp_spec x y :
  ((val x == val y)%Q -> op_equal x y = Ok 4096) /\ (~ (val x == val y)%Q -> op_equal x y = Ok 0) /\
  (~ (val x == val y)%Q -> op_inequal x y = Ok 4096) /\ ((val x == val y)%Q -> op_inequal x y = Ok 0) /\
  ((val x < val y)%Q -> op_less x y = Ok 4096) /\ (~ (val x < val y)%Q -> op_less x y = Ok 0) /\
  ((val y < val x)%Q -> op_greater x y = Ok 4096) /\ (~ (val y < val x)%Q -> op_greater x y = Ok 0) /\
  ((val x <= val y)%Q -> op_less_equal x y = Ok 4096) /\ (~ (val x <= val y)%Q -> op_less_equal x y = Ok 0) /\
  ((val y <= val x)%Q -> op_greater_equal x y = Ok 4096) /\ (~ (val y <= val x)%Q -> op_greater_equal x y = Ok 0).
Proof.
  rewrite !Qeq_val, !Qlt_val, !Qle_val.
  unfold op_equal, op_inequal, op_less, op_greater, op_less_equal, op_greater_equal.
  rewrite !truth_val.
  repeat split; intros H;
  repeat match goal with |- context [if ?b then _ else _] => destruct b eqn:? end; try reflexivity; exfalso; lia.
Qed.

Lemma mod_spec x y : fixp x -> fixp y ->
  (y = 0 -> op_modulo x y = Err ERR_DIVIDE_BY_ZERO) /\
  (y <> 0 -> ~ (x = - 2 ^ 31 /\ y = -1) ->
     exists r, op_modulo x y = Ok r /\ fixp r /\ (exists q, x = y * q + r) /\ Z.abs r < Z.abs y /\ 0 <= r * x).
Proof.
  intros Hx Hy. unfold op_modulo. split; [intros ->; reflexivity|].
  intros H0 Hm. destruct (Z.eqb_spec y 0); [lia|].
  replace ((x =? INT_MIN) && (y =? -1)) with false.
  2:{ symmetry. apply andb_false_iff. unfold INT_MIN. destruct (Z.eqb_spec x (-2^31)), (Z.eqb_spec y (-1)); auto. exfalso; auto. }
  exists (Z.rem x y). split; [reflexivity|].
  pose proof (Z.rem_bound_abs x y H0) as B.
  split; [unfold fixp in *; lia|].
  split; [exists (Z.quot x y); apply Z.quot_rem'|]. split; [exact B|].
  apply Z.rem_sign_mul; exact H0.
Qed.

Lemma mod_ub : op_modulo (- 2 ^ 31) (-1) = UB.
Proof. reflexivity. Qed.

Lemma floor_spec x : fixp x -> fixp (func_floor x) /\ (val (func_floor x) == inject_Z (Qfloor (val x)))%Q.
Proof.
  intros Hx. unfold func_floor. rewrite val_floor. apply fixp_s32 in Hx.
  pose proof (FP_TO_INT_range x Hx) as H. rewrite INT_TO_FP_exact by exact H.
  split; [|apply val_int]. unfold fixp. change (2^19) with 524288 in H. change (2^31) with 2147483648. lia.
Qed.

Lemma abs_spec x : fixp x -> x <> - 2 ^ 31 -> func_abs x = Ok (Z.abs x) /\ fixp (Z.abs x).
Proof.
  intros Hx Hm. unfold fixp in *. change (2^31) with 2147483648 in *. unfold func_abs, u32, c_int.
  change (2^32) with 4294967296.
  destruct (Z.eqb_spec (x mod 4294967296) 2147483648); [exfalso; lia|].
  split; [|lia].
  destruct (Z.ltb_spec x 0); [|f_equal; lia].
  replace (s32b (- x)) with true; [f_equal; lia|].
  symmetry. apply s32b_spec. unfold is_s32, INT_MIN, INT_MAX. lia.
Qed.
Lemma abs_min : func_abs (- 2 ^ 31) = Ok (- 2 ^ 31).
Proof. reflexivity. Qed.

Lemma sgn_spec x : func_sgn x = 4096 * Z.sgn x.
Proof. unfold func_sgn. change (INT_TO_FP 1) with 4096.
  destruct (Z.ltb_spec x 0); [rewrite Z.sgn_neg; lia|].
  destruct (Z.gtb_spec x 0); [rewrite Z.sgn_pos; lia|].
  replace x with 0 by lia. reflexivity. Qed.

Lemma negate_spec x : fixp x -> x <> - 2 ^ 31 -> op_negate x = Ok (- x) /\ fixp (- x).
Proof. intros H Hm. unfold fixp in *. unfold op_negate, c_int.
  replace (s32b (- x)) with true; [split; [reflexivity|lia]|].
  symmetry. apply s32b_spec. unfold is_s32, INT_MIN, INT_MAX. lia. Qed.
Lemma negate_min : op_negate (- 2 ^ 31) = UB.
Proof. reflexivity. Qed.

Lemma rad_spec x : fixp x ->
  fixp (func_rad x) /\ func_rad x = Qtrunc (units (val x * val 12867 / inject_Z 180)).
Proof.
  intros H. unfold func_rad, FIXP_PI. change (INT_TO_FP 180) with 737280.
  assert (Q : - 2 ^ 31 <= Z.quot (x * 12867) 737280 < 2 ^ 31).
  { unfold fixp in H. change (2^31) with 2147483648 in *. Z.quot_rem_to_equations. lia. }
  split; [apply fixp_s32, s32_range|].
  rewrite s32_id by (unfold is_s32, INT_MIN, INT_MAX; lia).
  rewrite (Qtrunc_comp _ (x * 12867 # 737280)).
  - rewrite Qtrunc_frac. reflexivity.
  - unfold units, val, Qdiv, Qinv, Qeq, Qmult, inject_Z; simpl. lia.
Qed.

Lemma deg_spec x :
  fixp (Qtrunc (units (val x * inject_Z 180 / val 12867))) ->
  func_deg x = Qtrunc (units (val x * inject_Z 180 / val 12867)).
Proof.
  assert (E : Qtrunc (units (val x * inject_Z 180 / val 12867)) = Z.quot (x * 737280) 12867).
  { rewrite (Qtrunc_comp _ (x * 737280 # 12867)).
    - rewrite Qtrunc_frac. reflexivity.
    - unfold units, val, Qdiv, Qinv, Qeq, Qmult, inject_Z; simpl. lia. }
  rewrite E. intros H. unfold func_deg, FIXP_PI. change (INT_TO_FP 180) with 737280.
  apply s32_id. apply fixp_s32; exact H.
Qed.

Lemma deg_wraps : exists x, fixp x /\ (val x == 10000)%Q /\ (val (func_deg x) < 0)%Q /\
   (0 <= val x * inject_Z 180 / val 12867)%Q.
Proof. exists (10000 * 4096). repeat split; vm_compute; congruence. Qed.

Lemma rnd_spec r x : 0 <= r -> fixp x ->
  let n := Qfloor (val x) in
  exists k, (val (func_rnd r x) == inject_Z k)%Q /\ fixp (func_rnd r x) /\
   (0 < n -> 0 <= k < n) /\ (n < 0 -> n < k <= 0) /\ (n = 0 -> k = 0) /\
   (0 <= r < n -> k = r) /\ (0 <= r < - n -> k = - r).
Proof.
  intros Hr Hx n. subst n. rewrite val_floor. apply fixp_s32 in Hx.
  pose proof (FP_TO_INT_range x Hx) as B. unfold func_rnd.
  set (m := FP_TO_INT x) in *. change (2^19) with 524288 in B. cbv zeta.
  destruct (Z.eqb_spec m 0) as [E|E].
  - exists 0. rewrite E. simpl. rewrite Z.rem_1_r. split; [reflexivity|].
    split; [unfold fixp; vm_compute; split; congruence|lia].
  - destruct (Z.ltb_spec m 0) as [L|L].
    + assert (R : 0 <= Z.rem r (- m) < - m) by (apply Z.rem_bound_pos; lia).
      exists (- Z.rem r (- m)). rewrite INT_TO_FP_exact by (change (2^19) with 524288; lia).
      split; [apply val_int|]. split; [unfold fixp; change (2^31) with 2147483648; lia|].
      repeat split; try lia. intros Hs. rewrite Z.rem_small; lia.
    + assert (R : 0 <= Z.rem r m < m) by (apply Z.rem_bound_pos; lia).
      exists (Z.rem r m). rewrite INT_TO_FP_exact by (change (2^19) with 524288; lia).
      split; [apply val_int|]. split; [unfold fixp; change (2^31) with 2147483648; lia|].
      repeat split; try lia. intros Hs. rewrite Z.rem_small; lia.
Qed.

Lemma logical_not_spec x :
  ((val x == 0)%Q -> op_logical_not x = Ok 4096) /\ (~ (val x == 0)%Q -> op_logical_not x = Ok 0).
Proof. change 0%Q with (0#1)%Q. unfold val, Qeq, op_logical_not. simpl. rewrite truth_val.
  destruct (Z.eqb_spec x 0); split; intros; try reflexivity; exfalso; lia. Qed.
