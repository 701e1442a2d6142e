(** Property theorems on numbers as text and as constants: C08, C09, C10, C20. *)
From Verif Require Import Base Strs StrFuncs StrSpec NumSpec NumText NumTextSpec
  NumTextProofs NumPrintProofs NumConstProofs.
From Coq Require Import QArith Qabs.
Open Scope Z_scope.

(** C08: VAL of  [-]ds.fs followed by anything that does not continue the
    number.  [g] is the uninitialised buffer content of the C function: the
    answer does not depend on it.  Partial: integer part below 524288 and at
    most six decimals; beyond that the claim is false (C08_val_refuted). *)
Theorem C08_val_decimal_partial : forall g s (neg : bool) ds fs rest,
  spells s ((if neg then [45] else []) ++ map digit_char ds ++ 46 :: map digit_char fs ++ rest) ->
  digits 10 ds -> digits 10 fs -> numeral 10 ds < 524288 -> (length fs <= 6)%nat -> stops dec_char rest ->
  func_val g s = Ok (let v := numeral 10 ds * 4096 + 4096 * numeral 10 fs / 10 ^ Z.of_nat (length fs) in
                     if neg then - v else v).
Proof. exact val_decimal. Qed.
Print Assumptions C08_val_decimal_partial.
Example C08_decimal_ok : func_val [] (SBc [45;49;46;53;88]) = Ok (-6144).   (* "-1.5X" *)
Proof. reflexivity. Qed.

Theorem C08_val_integer_partial : forall g s (neg : bool) ds rest,
  let text := (if neg then [45] else []) ++ map digit_char ds ++ rest in
  spells s text -> text <> [] -> (forall t, text <> 38 :: t) ->
  digits 10 ds -> numeral 10 ds < 524288 ->
  stops (fun c => dec_char c \/ c = 46 \/ c = 45) rest ->
  func_val g s = Ok (if neg then - (numeral 10 ds * 4096) else numeral 10 ds * 4096).
Proof. exact val_integer. Qed.
Print Assumptions C08_val_integer_partial.
Example C08_integer_ok : func_val [] (SBc [49;50;32]) = Ok (12 * 4096) /\ func_val [] (SBc [88]) = Ok 0.
Proof. split; reflexivity. Qed.

(** "&H" and "&B" texts below 2^20 give the 20-bit two's complement integer *)
Theorem C08_val_prefixed : forall g s base pre ds rest,
  spells s (38 :: pre :: map digit_char ds ++ rest) ->
  pre = 72 /\ base = 16 \/ pre = 66 /\ base = 2 ->
  digits base ds -> numeral base ds < 1048576 ->
  stops (fun c => (48 <= c <= 57 /\ c - 48 < base) \/ (65 <= c <= 70 /\ c - 55 < base) \/ c = 45) rest ->
  func_val g s = Ok ((if numeral base ds <? 524288 then numeral base ds else numeral base ds - 1048576) * 4096).
Proof. exact val_prefixed. Qed.
Print Assumptions C08_val_prefixed.
Example C08_prefixed_ok : func_val [] (SBc [38;72;70;70;70;70;70]) = Ok (-4096) /\
  func_val [] (SBc [38;66;49;48;49;50]) = Ok (5*4096) /\ func_val [] (SBc [38;65]) = Err ERR_SYNTAX.
Proof. repeat split. Qed.

(** VAL("600000") wraps; VAL("0.1048576") is 0; VAL("") depends on garbage. *)
Theorem C08_val_refuted :
  (forall g, func_val g (SBc [54;48;48;48;48;48]) = Ok (-448576 * 4096)) /\
  (forall g, func_val g (SBc [48;46;49;48;52;56;53;55;54]) = Ok 0) /\
  func_val [38;65] (SBc []) = Err ERR_SYNTAX /\ func_val [0;0] (SBc []) = Ok 0.
Proof. repeat split. Qed.
Print Assumptions C08_val_refuted.

(** literals in program text: what the compiled code pushes *)
Theorem C08_literal_decimal_partial : forall ds fs rest,
  digits 10 ds -> digits 10 fs -> numeral 10 ds < 524288 -> (length fs <= 6)%nat ->
  exists code, literal_decimal (decimal_text false ds fs) = Ok code /\
    run_number (code ++ rest) =
    Ok (numeral 10 ds * 4096 + 4096 * numeral 10 fs / 10 ^ Z.of_nat (length fs), rest).
Proof. exact literal_ok. Qed.
Print Assumptions C08_literal_decimal_partial.
Theorem C08_literal_overflow : forall ds rest, digits 10 ds -> 524288 <= numeral 10 ds < 1048576 ->
  literal_decimal (map digit_char ds ++ rest) = Err ERR_OVERFLOW.
Proof. exact literal_overflow. Qed.
Print Assumptions C08_literal_overflow.
Theorem C08_literal_based : forall base ds rest, base = 16 \/ base = 2 -> digits base ds ->
  numeral base ds < 1048576 ->
  exists code, literal_based base (map digit_char ds) = Ok code /\
    run_number (code ++ rest) =
    Ok ((if numeral base ds <? 524288 then numeral base ds else numeral base ds - 1048576) * 4096, rest).
Proof. exact literal_based_ok. Qed.
Print Assumptions C08_literal_based.
(** the literal 1048576 is accepted and pushes 0 *)
Theorem C08_literal_refuted : exists code,
  literal_decimal (map digit_char [1;0;4;8;5;7;6]) = Ok code /\ run_number code = Ok (0, []).
Proof. eexists. split; reflexivity. Qed.
Print Assumptions C08_literal_refuted.
Example C08_literal_ok : literal_decimal [49;50] = Ok [110;12] /\
  literal_decimal [49;46;53] = Ok [78;0;0;0;24;0] /\
  literal_decimal (map digit_char [5;2;4;2;8;8]) = Err ERR_OVERFLOW.
Proof. repeat split. Qed.

(** C09: for every value, the emitted constant is an even number of bytes and
    pushes the value (as the int32 content) whatever code follows. *)
Theorem C09_constants : forall n dec rest, fixp n ->
  exists code, emit_number n dec = Ok code /\ Nat.even (length code) = true /\
    Forall (fun b => 0 <= b < 256) code /\ run_number (code ++ rest) = Ok (n, rest).
Proof.
  intros n dec rest H. unfold fixp in H. change (2^31) with 2147483648 in H.
  destruct (emit_run n dec rest) as [_ G]. destruct G as [code [A [B [C D]]]]; [lia|].
  exists code. repeat split; auto. rewrite D. f_equal. f_equal. apply BaseLemmas.s32_id.
  unfold is_s32, INT_MIN, INT_MAX. change (2^31) with 2147483648. lia.
Qed.
Print Assumptions C09_constants.
Example C09_ok : emit_number (99*4096) true = Ok [110;99] /\ emit_number (100*4096) true = Ok [78;0;0;6;64;0] /\
  run_number [78;0;255;255;255;255;7] = Ok (-1, [7]).
Proof. repeat split. Qed.

(** C10: the printed text of x is a canonical decimal within 1/1000 of x.
    Partial: excludes the single value INT_MIN and fractions of 4094/4096 or
    more, where the claim is false (C10_print_refuted). *)
Theorem C10_print_partial : forall x, fixp x -> x <> -2147483648 -> Z.abs x mod 4096 < 4094 ->
  exists ds fs, func_str x = Ok (SChar (decimal_text (x <? 0) ds fs)) /\
    digits 10 ds /\ digits 10 fs /\ canonical ds fs /\ (length fs <= 3)%nat /\
    (Qabs (decimal_val (x <? 0)%Z ds fs - val x) < 1 # 1000)%Q.
Proof.
  intros x H1 H2 H3. destruct (print_shape x H1 H2 H3) as [ds [fs [m [A [B [C [D [_ [E [F G]]]]]]]]]].
  exists ds, fs. unfold func_str. rewrite A. repeat split; try assumption; try apply D; try lia.
  eapply print_close; eauto.
Qed.
Print Assumptions C10_print_partial.
(** PRINT 4095/4096 shows "0.:"; STR$ of the most negative number is undefined *)
Theorem C10_print_refuted : func_str 4095 = Ok (SChar [48;46;58]) /\ func_str (-2147483648) = UB.
Proof. split; reflexivity. Qed.
Print Assumptions C10_print_refuted.
(** printing is stable under reading back, except for "-0" *)
Theorem C10_stable_partial : forall g x s, fixp x -> x <> -2147483648 -> Z.abs x mod 4096 < 4094 ->
  func_str x = Ok s -> exists y, func_val g s = Ok y /\ fixp y /\
    (func_str y = func_str x \/ s = SChar [45; 48] /\ y = 0).
Proof. exact print_stable. Qed.
Print Assumptions C10_stable_partial.
Example C10_ok : func_str (-6144) = Ok (SChar [45;49;46;53]) /\ func_str (100*4096+1) = Ok (SChar [49;48;48]) /\
  func_str (4096/8) = Ok (SChar [48;46;49;50;53]) /\ func_str (-1) = Ok (SChar [45;48]).
Proof. repeat split. Qed.

(** C20, HEX$ half *)
Theorem C20_hex : forall n, -524288 <= n <= 524287 -> exists ds,
  func_hex (n * 4096) None = Ok (SChar (map digit_char ds)) /\ digits 16 ds /\
  (1 <= length ds <= 5)%nat /\ numeral 16 ds = n mod 1048576 /\
  (n <> 0 -> exists d t, ds = d :: t /\ d <> 0).
Proof. exact hex_plain. Qed.
Print Assumptions C20_hex.
Theorem C20_hex_width : forall n d, -524288 <= n <= 524287 -> 1 <= d <= 5 ->
  (- (16 ^ d / 2) <= n < 16 ^ d -> exists ds,
    func_hex (n * 4096) (Some (d * 4096)) = Ok (SChar (map digit_char ds)) /\ digits 16 ds /\
    Z.of_nat (length ds) = d /\ numeral 16 ds = n mod 16 ^ d) /\
  (~ (- (16 ^ d / 2) <= n < 16 ^ d) ->
    func_hex (n * 4096) (Some (d * 4096)) = Err ERR_ILLEGAL_FUNCTION_CALL).
Proof. exact hex_width. Qed.
Print Assumptions C20_hex_width.
Theorem C20_hex_val : forall g n s, -524288 <= n <= 524287 -> func_hex (n * 4096) None = Ok s ->
  exists t, op_add_str (SBc [38; 72]) s = Ok t /\ func_val g t = Ok (n * 4096).
Proof. exact hex_back. Qed.
Print Assumptions C20_hex_val.
Example C20_hex_ok : func_hex (-4096) None = Ok (SChar [70;70;70;70;70]) /\
  func_hex (255*4096) (Some (4*4096)) = Ok (SChar [48;48;70;70]) /\
  func_hex (256*4096) (Some (2*4096)) = Err ERR_ILLEGAL_FUNCTION_CALL.
Proof. repeat split. Qed.
