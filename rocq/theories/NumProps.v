(** Property theorems C01-C07 (numbers).  [val x] is the rational value the
    BASIC program sees; [fixp x] says that [x] is an existing number content. *)
From Verif Require Import Base Num NumSpec NumProofs.
From Coq Require Import QArith Qround.
Open Scope Z_scope.

(** C01 *)
Theorem C01_add : forall x y, fixp x -> fixp y ->
  (forall z, fixp z -> (val z == val x + val y)%Q -> op_add x y = Ok z) /\
  ((forall z, fixp z -> ~ (val z == val x + val y)%Q) -> op_add x y = Err ERR_OVERFLOW).
Proof. intros x y _ _. exact (add_spec x y). Qed.
Print Assumptions C01_add.
Example C01_add_ok : op_add 4096 (-6144) = Ok (-2048) /\ op_add 2147483647 1 = Err ERR_OVERFLOW.
Proof. split; reflexivity. Qed.

Theorem C01_sub : forall x y, fixp x -> fixp y ->
  (forall z, fixp z -> (val z == val x - val y)%Q -> op_sub x y = Ok z) /\
  ((forall z, fixp z -> ~ (val z == val x - val y)%Q) -> op_sub x y = Err ERR_OVERFLOW).
Proof. intros x y _ _. exact (sub_spec x y). Qed.
Print Assumptions C01_sub.
Example C01_sub_ok : op_sub 4096 6144 = Ok (-2048) /\ op_sub (-2147483648) 1 = Err ERR_OVERFLOW.
Proof. split; reflexivity. Qed.

(** C02 *)
Theorem C02_mult : forall x y, fixp x -> fixp y ->
  let z := Qfloor (units (val x * val y)) in
  (fixp z -> op_mult x y = Ok z) /\ (~ fixp z -> op_mult x y = Err ERR_OVERFLOW).
Proof. intros x y _ _. exact (mult_spec x y). Qed.
Print Assumptions C02_mult.
Example C02_mult_ok : op_mult (-1) 2048 = Ok (-1) /\ op_mult (1000*4096) (600*4096) = Err ERR_OVERFLOW
  /\ ~ fixp (Qfloor (units (val (1000*4096) * val (600*4096)))).
Proof. split; [reflexivity|]. split; [reflexivity|]. unfold fixp. vm_compute. intros [_ H]. discriminate. Qed.

(** C03 *)
Theorem C03_div : forall x y, fixp x -> fixp y ->
  let z := Qtrunc (units (val x / val y)) in
  (y = 0 -> op_div x y = Err ERR_DIVIDE_BY_ZERO) /\
  (y <> 0 -> fixp z -> op_div x y = Ok z) /\
  (y <> 0 -> ~ fixp z -> op_div x y = Err ERR_OVERFLOW).
Proof. intros x y _ _. exact (div_spec x y). Qed.
Print Assumptions C03_div.
Example C03_div_ok : op_div (-1) 8192 = Ok 0 /\ op_div (-7*4096) (2*4096) = Ok (-14336) /\
  op_div 4096 0 = Err ERR_DIVIDE_BY_ZERO /\ op_div (524287*4096) 1 = Err ERR_OVERFLOW.
Proof. repeat split. Qed.

(** C04, number half: each comparison is 1.0 (content 4096) when the relation
    holds of the values, 0 otherwise.  The string half is in StrProps.v. *)
Theorem C04_compare_numbers : forall x y, fixp x -> fixp y ->
  ((val x == val y)%Q -> op_equal x y = Ok 4096) /\ (~ (val x == val y)%Q -> op_equal x y = Ok 0) /\
  (~ (val x == val y)%Q -> op_inequal x y = Ok 4096) /\ ((val x == val y)%Q -> op_inequal x y = Ok 0) /\
  ((val x < val y)%Q -> op_less x y = Ok 4096) /\ (~ (val x < val y)%Q -> op_less x y = Ok 0) /\
  ((val y < val x)%Q -> op_greater x y = Ok 4096) /\ (~ (val y < val x)%Q -> op_greater x y = Ok 0) /\
  ((val x <= val y)%Q -> op_less_equal x y = Ok 4096) /\ (~ (val x <= val y)%Q -> op_less_equal x y = Ok 0) /\
  ((val y <= val x)%Q -> op_greater_equal x y = Ok 4096) /\ (~ (val y <= val x)%Q -> op_greater_equal x y = Ok 0).
Proof. intros x y _ _. exact (cmp_spec x y). Qed.
Print Assumptions C04_compare_numbers.
Example C04_numbers_ok : op_less (-1) 0 = Ok 4096 /\ op_greater_equal (-1) 0 = Ok 0.
Proof. split; reflexivity. Qed.

(** C05 *)
Theorem C05_bitwise : forall x y, fixp x -> fixp y ->
  let X := Qfloor (val x) in let Y := Qfloor (val y) in
  (exists z, op_and x y = Ok z /\ fixp z /\ (val z == inject_Z (Z.land X Y))%Q) /\
  (exists z, op_or x y = Ok z /\ fixp z /\ (val z == inject_Z (Z.lor X Y))%Q) /\
  (exists z, op_xor x y = Ok z /\ fixp z /\ (val z == inject_Z (Z.lxor X Y))%Q) /\
  (exists z, op_not x = Ok z /\ fixp z /\ (val z == inject_Z (Z.lnot X))%Q).
Proof. intros x y Hx Hy X Y. exact (conj (and_spec x y Hx Hy) (conj (or_spec x y Hx Hy)
  (conj (xor_spec x y Hx Hy) (not_spec x Hx)))). Qed.
Print Assumptions C05_bitwise.
Example C05_bitwise_ok : op_and (-4096) (6*4096+5) = Ok (6*4096) /\ op_not 1 = Ok (-4096) /\ fixp (6*4096+5).
Proof. unfold fixp. repeat split. vm_compute. congruence. Qed.

Theorem C05_logical_not : forall x, fixp x ->
  ((val x == 0)%Q -> op_logical_not x = Ok 4096) /\ (~ (val x == 0)%Q -> op_logical_not x = Ok 0).
Proof. intros x _. exact (logical_not_spec x). Qed.
Print Assumptions C05_logical_not.

(** The remainder; the pair (INT_MIN, -1/4096) is excluded because there the C
    code divides INT_MIN by -1, which is undefined (see the refutation). *)
Theorem C05_modulo_partial : forall x y, fixp x -> fixp y ->
  (y = 0 -> op_modulo x y = Err ERR_DIVIDE_BY_ZERO) /\
  (y <> 0 -> ~ (x = - 2 ^ 31 /\ y = -1) ->
     exists r, op_modulo x y = Ok r /\ fixp r /\ (exists q, x = y * q + r) /\ Z.abs r < Z.abs y /\ 0 <= r * x).
Proof. exact mod_spec. Qed.
Print Assumptions C05_modulo_partial.
Example C05_modulo_ok : op_modulo (-7*4096) (3*4096) = Ok (-4096) /\ fixp (-7*4096) /\ 3*4096 <> 0.
Proof. unfold fixp. repeat split; vm_compute; congruence. Qed.

Theorem C05_modulo_refuted : exists x y, fixp x /\ fixp y /\ y <> 0 /\ op_modulo x y = UB.
Proof. exists (-2^31), (-1). unfold fixp. repeat split; vm_compute; congruence. Qed.
Print Assumptions C05_modulo_refuted.

(** C06 *)
Theorem C06_floor : forall x, fixp x ->
  fixp (func_floor x) /\ (val (func_floor x) == inject_Z (Qfloor (val x)))%Q.
Proof. exact floor_spec. Qed.
Print Assumptions C06_floor.
Example C06_floor_ok : func_floor (-1) = -4096 /\ fixp (-1).
Proof. unfold fixp. repeat split; vm_compute; congruence. Qed.

Theorem C06_sgn : forall x, fixp x -> func_sgn x = 4096 * Z.sgn x.
Proof. intros x _. exact (sgn_spec x). Qed.
Print Assumptions C06_sgn.

(** ABS is |x| except on the one content whose absolute value does not exist,
    which it returns unchanged. *)
Theorem C06_abs : forall x, fixp x ->
  (x <> - 2 ^ 31 -> func_abs x = Ok (Z.abs x) /\ fixp (Z.abs x)) /\
  (x = - 2 ^ 31 -> func_abs x = Ok x).
Proof. intros x H. split; [exact (abs_spec x H) | intros ->; exact abs_min]. Qed.
Print Assumptions C06_abs.

Theorem C06_negate_partial : forall x, fixp x -> x <> - 2 ^ 31 -> op_negate x = Ok (- x) /\ fixp (- x).
Proof. exact negate_spec. Qed.
Print Assumptions C06_negate_partial.
Example C06_negate_ok : op_negate (-4096) = Ok 4096 /\ fixp (-4096) /\ -4096 <> - 2 ^ 31.
Proof. unfold fixp. repeat split; vm_compute; congruence. Qed.
(** finding: negating -524288 is signed overflow in C *)
Theorem C06_negate_refuted : exists x, fixp x /\ op_negate x = UB.
Proof. exists (-2^31). split; [unfold fixp; vm_compute; split; congruence | exact negate_min]. Qed.
Print Assumptions C06_negate_refuted.

Theorem C06_rad : forall x, fixp x ->
  fixp (func_rad x) /\ func_rad x = Qtrunc (units (val x * val 12867 / inject_Z 180)).
Proof. exact rad_spec. Qed.
Print Assumptions C06_rad.

Theorem C06_deg_partial : forall x, fixp x ->
  fixp (Qtrunc (units (val x * inject_Z 180 / val 12867))) ->
  func_deg x = Qtrunc (units (val x * inject_Z 180 / val 12867)).
Proof. intros x _. exact (deg_spec x). Qed.
Print Assumptions C06_deg_partial.
Example C06_deg_ok : func_deg 12867 = 180 * 4096 /\
  fixp (Qtrunc (units (val 12867 * inject_Z 180 / val 12867))).
Proof. unfold fixp. repeat split; vm_compute; congruence. Qed.
(** finding: DEG(10000) silently wraps to a negative number *)
Theorem C06_deg_refuted : exists x, fixp x /\ (val x == 10000)%Q /\ (val (func_deg x) < 0)%Q /\
   (0 <= val x * inject_Z 180 / val 12867)%Q.
Proof. exact deg_wraps. Qed.
Print Assumptions C06_deg_refuted.

(** C07: [r] is whatever rand() returned. *)
Theorem C07_rnd : forall r x, 0 <= r -> fixp x ->
  let n := Qfloor (val x) in
  exists k, (val (func_rnd r x) == inject_Z k)%Q /\ fixp (func_rnd r x) /\
   (0 < n -> 0 <= k < n) /\ (n < 0 -> n < k <= 0) /\ (n = 0 -> k = 0) /\
   (0 <= r < n -> k = r) /\ (0 <= r < - n -> k = - r).
Proof. exact rnd_spec. Qed.
Print Assumptions C07_rnd.
Example C07_rnd_ok : func_rnd 1804289383 (6*4096) = 4096 /\ fixp (6*4096).
Proof. unfold fixp. repeat split; vm_compute; congruence. Qed.
