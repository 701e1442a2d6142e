(** Numeric operators and functions (source/interpreter/operators.c,
    source/interpreter/mathptc.c).  A [fixp] is the int32 content of a number,
    i.e. 4096 times the value the BASIC program sees.  The string variants of
    +, * and the comparisons are in Strs.v / StrFuncs.v. *)
From Verif Require Import Base.

(** signed 32-bit C arithmetic: out of range is undefined behaviour *)
Definition c_int (z : Z) : outcome Z := if s32b z then Ok z else UB.

(** operators.c:15-30 op_add, number branch: 64-bit check, then [x + y] in int *)
Definition op_add (x y : Z) : outcome Z :=
  let z := x + y in
  if (z <? INT_MIN) || (INT_MAX <? z) then Err ERR_OVERFLOW else c_int (x + y).

(** operators.c:113-123 op_sub *)
Definition op_sub (x y : Z) : outcome Z :=
  let z := x - y in
  if (z <? INT_MIN) || (INT_MAX <? z) then Err ERR_OVERFLOW else c_int (x - y).

(** operators.c:60-75 op_mult, number branch: 64-bit product, arithmetic shift *)
Definition op_mult (x y : Z) : outcome Z :=
  let z := Z.shiftr (x * y) 12 in
  if (z <? INT_MIN) || (INT_MAX <? z) then Err ERR_OVERFLOW else Ok z.

(** operators.c:99-111 op_div: C division truncates ([Z.quot]).
    [(dfixp)x << FIXPOINT] is modelled as the product (gcc semantics for
    negative operands). *)
Definition op_div (x y : Z) : outcome Z :=
  if y =? 0 then Err ERR_DIVIDE_BY_ZERO else
  let z := Z.quot (x * 4096) y in
  if (z <? INT_MIN) || (INT_MAX <? z) then Err ERR_OVERFLOW else Ok z.

(** operators.c:125-132 op_negate: [-x] in int *)
Definition op_negate (x : Z) : outcome Z := c_int (- x).

(** operators.c:279-290 op_modulo: C remainder; INT_MIN % -1 is undefined *)
Definition op_modulo (x y : Z) : outcome Z :=
  if y =? 0 then Err ERR_DIVIDE_BY_ZERO else
  if (x =? INT_MIN) && (y =? -1) then UB else Ok (Z.rem x y).

(** operators.c:292-332 bitwise operators on the integer parts *)
Definition op_and (x y : Z) : outcome Z := Ok (INT_TO_FP (Z.land (FP_TO_INT x) (FP_TO_INT y))).
Definition op_or  (x y : Z) : outcome Z := Ok (INT_TO_FP (Z.lor (FP_TO_INT x) (FP_TO_INT y))).
Definition op_xor (x y : Z) : outcome Z := Ok (INT_TO_FP (Z.lxor (FP_TO_INT x) (FP_TO_INT y))).
Definition op_not (x : Z) : outcome Z := Ok (INT_TO_FP (Z.lnot (FP_TO_INT x))).

(** operators.c:334-341 op_logical_not *)
Definition op_logical_not (x : Z) : outcome Z := Ok (INT_TO_FP (b2z (x =? 0))).

(** operators.c:187-277 comparison operators, number branches *)
Definition op_equal (x y : Z) : outcome Z := Ok (INT_TO_FP (b2z (x =? y))).
Definition op_inequal (x y : Z) : outcome Z := Ok (INT_TO_FP (b2z (negb (x =? y)))).
Definition op_less (x y : Z) : outcome Z := Ok (INT_TO_FP (b2z (x <? y))).
Definition op_greater (x y : Z) : outcome Z := Ok (INT_TO_FP (b2z (x >? y))).
Definition op_less_equal (x y : Z) : outcome Z := Ok (INT_TO_FP (b2z (x <=? y))).
Definition op_greater_equal (x y : Z) : outcome Z := Ok (INT_TO_FP (b2z (x >=? y))).

(** mathptc.c:40-45 func_floor *)
Definition func_floor (x : Z) : Z := INT_TO_FP (FP_TO_INT x).

(** mathptc.c:164-174 func_abs *)
Definition func_abs (n : Z) : outcome Z :=
  if u32 n =? 2147483648 then Ok n
  else if n <? 0 then c_int (- n) else Ok n.

(** mathptc.c:176-183 func_sgn *)
Definition func_sgn (n : Z) : Z :=
  if n <? 0 then - INT_TO_FP 1 else if n >? 0 then INT_TO_FP 1 else 0.

(** mathptc.c:34 FIXP_PI; :94-100 func_rad_internal / func_deg_internal: 64-bit
    product, C division, then conversion of the int64 to the int32 result *)
Definition FIXP_PI : Z := 12867.
Definition func_rad (deg : Z) : Z := s32 (Z.quot (deg * FIXP_PI) (INT_TO_FP 180)).
Definition func_deg (rad : Z) : Z := s32 (Z.quot (rad * INT_TO_FP 180) FIXP_PI).

(** mathptc.c:10-26 func_rnd; [r] is the value returned by rand(), which the C
    standard puts in [0, RAND_MAX] with RAND_MAX <= INT_MAX.  [-max] cannot
    overflow since max comes from a shift.  C's %% is [Z.rem]. *)
Definition func_rnd (r x : Z) : Z :=
  let max := FP_TO_INT x in
  let max := if max =? 0 then 1 else max in
  if max <? 0 then INT_TO_FP (- Z.rem r (- max)) else INT_TO_FP (Z.rem r max).
