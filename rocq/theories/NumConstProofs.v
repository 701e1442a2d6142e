(** HEX$ and number constants in bytecode: proofs. *)
From Verif Require Import Base BaseLemmas Strs StrFuncs StrSpec StrProofs NumSpec NumText NumTextSpec NumTextProofs.
Open Scope Z_scope.
Ltac Zify.zify_post_hook ::= Z.div_mod_to_equations.

Lemma lor_shift y x k : 0 <= k -> 0 <= x < 2 ^ k -> Z.lor (Z.shiftl y k) x = y * 2 ^ k + x.
Proof.
  intros Hk Hx. rewrite <- Z.shiftl_mul_pow2 by lia. symmetry.
  rewrite <- Z.lxor_lor, Z.add_nocarry_lxor; [reflexivity| |].
  all: apply Z.bits_inj'; intros i Hi; rewrite Z.land_spec, Z.bits_0.
  all: destruct (Z.ltb_spec i k) as [G|G];
    [rewrite Z.shiftl_spec_low by lia; reflexivity|].
  all: replace x with (x mod 2 ^ k) by (apply Z.mod_small; lia);
    rewrite Z.mod_pow2_bits_high by lia; apply andb_false_r.
Qed.

Lemma be_bytes w : 0 <= w < 2 ^ 32 ->
  Z.lor (Z.lor (Z.lor (Z.shiftl (w / 2 ^ 24 mod 256) 24) (Z.shiftl (w / 2 ^ 16 mod 256) 16))
     (Z.shiftl (w / 2 ^ 8 mod 256) 8)) (w mod 256) = w.
Proof.
  intros H. change (2^32) with 4294967296 in H.
  set (a := w / 2^24 mod 256). set (b := w / 2^16 mod 256). set (c := w / 2^8 mod 256). set (d := w mod 256).
  assert (Ea : w = ((a * 256 + b) * 256 + c) * 256 + d).
  { unfold a, b, c, d. change (2^24) with 16777216. change (2^16) with 65536. change (2^8) with 256. lia. }
  assert (0 <= a < 256 /\ 0 <= b < 256 /\ 0 <= c < 256 /\ 0 <= d < 256) as [Ha [Hb [Hc Hd]]]
    by (unfold a, b, c, d; repeat split; lia).
  clearbody a b c d.
  rewrite (lor_shift a) by (rewrite ?Z.shiftl_mul_pow2 by lia; change (2^24) with 16777216; change (2^16) with 65536; lia).
  rewrite !Z.shiftl_mul_pow2 by lia. 
  replace (a * 2^24 + b * 2^16) with ((a * 256 + b) * 2^16) by (change (2^24) with 16777216; change (2^16) with 65536; lia).
  rewrite <- (Z.shiftl_mul_pow2 (a * 256 + b) 16) by lia.
  rewrite lor_shift by (change (2^16) with 65536; change (2^8) with 256; lia).
  replace ((a * 256 + b) * 2^16 + c * 2^8) with (((a * 256 + b) * 256 + c) * 2^8) by (change (2^16) with 65536; change (2^8) with 256; lia).
  rewrite <- (Z.shiftl_mul_pow2 _ 8) by lia.
  rewrite lor_shift by (change (2^8) with 256; lia).
  change (2^8) with 256. lia.
Qed.

Lemma land_4096 n : Z.land n (-4096) = n / 4096 * 4096.
Proof.
  change (-4096) with (Z.lnot (Z.ones 12)). rewrite <- Z.ldiff_land.
  rewrite Z.ldiff_ones_r by lia. rewrite Z.shiftl_mul_pow2, Z.shiftr_div_pow2 by lia. reflexivity.
Qed.

Lemma s32_u32 n : s32 (u32 n) = s32 n.
Proof. unfold s32, u32. change (2^32) with 4294967296. change (2^31) with 2147483648. lia. Qed.

Lemma emit_run n dec rest :
  (dec = true /\ 2147483648 <= n <= 4294967295 -> emit_number n dec = Err ERR_OVERFLOW) /\
  (~ (dec = true /\ 2147483648 <= n <= 4294967295) ->
   exists code, emit_number n dec = Ok code /\ Nat.even (length code) = true /\
     Forall (fun b => 0 <= b < 256) code /\ run_number (code ++ rest) = Ok (s32 n, rest)).
Proof.
  unfold emit_number. split.
  - intros [-> H]. replace ((2147483648 <=? n) && (n <=? 4294967295) && true) with true by lia. reflexivity.
  - intros H. destruct ((2147483648 <=? n) && (n <=? 4294967295) && dec) eqn:E.
    { exfalso. apply H. destruct dec; lia. }
    rewrite land_4096.
    destruct ((0 <=? n) && (n <? 409600) && (n =? n / 4096 * 4096)) eqn:G.
    + eexists. split; [reflexivity|]. split; [reflexivity|].
      assert (K : u8 (FP_TO_INT n) = n / 4096) by (unfold u8, FP_TO_INT; change (2^8) with 256; lia).
      rewrite K. split; [repeat constructor; lia|].
      cbn [app run_number]. change (110 =? 110) with true. cbv iota.
      replace (n / 4096 <=? 99) with true by lia. f_equal. f_equal.
      unfold s32. change (2^32) with 4294967296. change (2^31) with 2147483648. lia.
    + eexists. split; [reflexivity|]. split; [reflexivity|].
      split. { repeat (constructor; [apply Z.mod_pos_bound; lia || lia|]); repeat constructor; lia. }
      cbn [app run_number]. change (78 =? 110) with false. change (78 =? 78) with true. cbv iota.
      rewrite be_bytes; [rewrite s32_u32; reflexivity|].
      unfold u32. change (2^32) with 4294967296. lia.
Qed.

(** HEX$ *)
Lemma hex_digits_spec fuel n acc : 0 <= n < 16 ^ Z.of_nat fuel -> (0 < fuel)%nat ->
  exists ds, hex_digits fuel n acc = map digit_char ds ++ acc /\ digits 16 ds /\ numeral 16 ds = n /\
    ds <> [] /\ (forall j, (0 < j)%nat -> n < 16 ^ Z.of_nat j -> (length ds <= j)%nat) /\
    (n <> 0 -> exists d t, ds = d :: t /\ d <> 0).
Proof.
  revert n acc. induction fuel as [|k IH]; intros n acc H Hf; [lia|].
  cbn [hex_digits]. destruct (n <? 16) eqn:E.
  - exists [n]. repeat split; [constructor; [lia|constructor]|discriminate| |].
    + intros j Hj _. simpl. lia.
    + intros N. exists n, []. auto.
  - rewrite Nat2Z.inj_succ, Z.pow_succ_r in H by lia.
    assert (K : (0 < k)%nat). { destruct k; [simpl in H; lia|lia]. }
    destruct (IH (n / 16) (hex_char (n mod 16) :: acc)) as [ds [A [B [C [D [F G]]]]]]; [lia|exact K|].
    exists (ds ++ [n mod 16]). rewrite A. rewrite map_app, <- app_assoc. repeat split.
    + apply Forall_app; split; [exact B|constructor; [lia|constructor]].
    + unfold numeral in *. rewrite num_of_app. simpl. rewrite C. lia.
    + destruct ds; discriminate.
    + intros j Hj Hn. rewrite app_length. simpl. destruct j as [|j]; [lia|].
      rewrite Nat2Z.inj_succ, Z.pow_succ_r in Hn by lia.
      assert ((length ds <= j)%nat); [|lia]. destruct j; [simpl in Hn; lia|].
      apply F; [lia|]. apply Z.div_lt_upper_bound; lia.
    + intros _. destruct (G ltac:(lia)) as [d [t [-> Hd]]]. exists d, (t ++ [n mod 16]). auto.
Qed.

Lemma land_ones20 n : Z.land n 1048575 = n mod 1048576.
Proof. change 1048575 with (Z.ones 20). rewrite Z.land_ones by lia. reflexivity. Qed.

Lemma text_hex ds : digits 16 ds -> (length ds <= 5)%nat -> ptc_text (map digit_char ds).
Proof.
  intros H L. split; [|rewrite map_length; lia].
  clear L. induction H as [|d t Hd Ht IH]; simpl; constructor; auto.
  unfold digit_char. destruct (d <? 10); lia.
Qed.

Lemma hex_plain n : -524288 <= n <= 524287 -> exists ds,
  func_hex (n * 4096) None = Ok (SChar (map digit_char ds)) /\ digits 16 ds /\
  (1 <= length ds <= 5)%nat /\ numeral 16 ds = n mod 1048576 /\
  (n <> 0 -> exists d t, ds = d :: t /\ d <> 0).
Proof.
  intros H. unfold func_hex. cbn [bind]. unfold FP_TO_INT. rewrite Z.div_mul by lia.
  change (0 =? 0) with true. cbn [negb andb]. cbv iota zeta. rewrite land_ones20.
  unfold printf_0X. destruct (hex_digits_spec 8 (n mod 1048576) []) as [ds [A [B [C [D [F G]]]]]].
  { change (16 ^ Z.of_nat 8) with 4294967296. lia. } { lia. }
  rewrite A, app_nil_r. unfold zlen. rewrite map_length.
  replace (Z.to_nat (0 - Z.of_nat (length ds))) with 0%nat by lia.
  exists ds. split; [reflexivity|]. split; [exact B|].
  specialize (F 5%nat ltac:(lia)). change (16 ^ Z.of_nat 5) with 1048576 in F.
  destruct ds; [congruence|]. split; [|split; [exact C|]].
  - simpl in *. lia.
  - intros N. apply G. lia.
Qed.

Lemma hex_back g n s : -524288 <= n <= 524287 -> func_hex (n * 4096) None = Ok s ->
  exists t, op_add_str (SBc [38; 72]) s = Ok t /\ func_val g t = Ok (n * 4096).
Proof.
  intros H E. destruct (hex_plain n H) as [ds [A [B [C [D _]]]]]. rewrite A in E. injection E as <-.
  assert (T : ptc_text (map digit_char ds)) by (apply text_hex; [exact B|lia]).
  destruct (add_str_spec (SBc [38;72]) (SChar (map digit_char ds)) [38;72] (map digit_char ds)) as [S1 _].
  { repeat split; try (repeat constructor; lia); simpl; lia. }
  { apply spells_schar; exact T. }
  destruct S1 as [t [S1 S2]]. { rewrite app_length, map_length. simpl. lia. }
  exists t. split; [exact S1|].
  rewrite (val_prefixed g t 16 72 ds []); [|rewrite app_nil_r; exact S2|left; auto|exact B|rewrite D; lia|exact I].
  rewrite D. f_equal. destruct (n mod 1048576 <? 524288) eqn:G; lia.
Qed.

Lemma numeral_zeros k base ds : numeral base (repeat 0 k ++ ds) = numeral base ds.
Proof. induction k; [reflexivity|]. unfold numeral in *. simpl. exact IHk. Qed.

Lemma hex_width n d : -524288 <= n <= 524287 -> 1 <= d <= 5 ->
  (- (16 ^ d / 2) <= n < 16 ^ d -> exists ds,
    func_hex (n * 4096) (Some (d * 4096)) = Ok (SChar (map digit_char ds)) /\ digits 16 ds /\
    Z.of_nat (length ds) = d /\ numeral 16 ds = n mod 16 ^ d) /\
  (~ (- (16 ^ d / 2) <= n < 16 ^ d) ->
    func_hex (n * 4096) (Some (d * 4096)) = Err ERR_ILLEGAL_FUNCTION_CALL).
Proof.
  intros H Hd. unfold func_hex. unfold FP_TO_INT. rewrite !Z.div_mul by lia.
  replace ((d <? 1) || (d >? 5)) with false by lia. cbn [bind].
  replace (negb (d =? 0)) with true by lia. cbn [andb].
  assert (P1 : 2 ^ (4 * d) = 16 ^ d). { rewrite Z.pow_mul_r by lia. reflexivity. }
  assert (P2 : 2 ^ (4 * d - 1) = 16 ^ d / 2).
  { rewrite <- P1. replace (4 * d) with (Z.succ (4 * d - 1)) at 2 by lia. rewrite Z.pow_succ_r by lia.
    rewrite (Z.mul_comm 2), Z.div_mul by lia. reflexivity. }
  rewrite P1, P2. 
  assert (P16 : 16 <= 16 ^ d <= 1048576).
  { assert (d = 1 \/ d = 2 \/ d = 3 \/ d = 4 \/ d = 5) as K by lia.
    destruct K as [K|[K|[K|[K|K]]]]; subst d; vm_compute; split; discriminate. }
  split.
  - intros R. replace ((n >=? 16 ^ d) || (n <? - (16 ^ d / 2))) with false by lia.
    cbv zeta. replace (d =? 0) with false by lia.
    assert (M : Z.land (Z.land n 1048575) (Z.shiftr 1048575 (4 * (5 - d))) = n mod 16 ^ d).
    { change 1048575 with (Z.ones 20). rewrite Z.land_ones by lia.
      replace (Z.shiftr (Z.ones 20) (4 * (5 - d))) with (Z.ones (4 * d)).
      - rewrite Z.land_ones by lia. rewrite P1.
        assert (E : 2 ^ 20 = 16 ^ d * 16 ^ (5 - d)).
        { rewrite <- Z.pow_add_r by lia. replace (d + (5 - d)) with 5 by lia. reflexivity. }
        assert (0 < 16 ^ (5 - d)) by (apply Z.pow_pos_nonneg; lia).
        rewrite E, Z.rem_mul_r by lia.
        rewrite Z.mul_comm, Z.mod_add by lia. apply Z.mod_mod; lia.
      - assert (d = 1 \/ d = 2 \/ d = 3 \/ d = 4 \/ d = 5) as K by lia.
        destruct K as [K|[K|[K|[K|K]]]]; subst d; reflexivity. }
    rewrite M. unfold printf_0X.
    assert (Hm : 0 <= n mod 16 ^ d < 16 ^ d) by (apply Z.mod_pos_bound; lia).
    destruct (hex_digits_spec 8 (n mod 16 ^ d) []) as [ds [A [B [C [D [F G]]]]]].
    { change (16 ^ Z.of_nat 8) with 4294967296. lia. } { lia. }
    rewrite A, app_nil_r. unfold zlen. rewrite map_length.
    specialize (F (Z.to_nat d) ltac:(lia)). rewrite Z2Nat.id in F by lia. specialize (F (proj2 Hm)).
    set (k := Z.to_nat (d - Z.of_nat (length ds))).
    exists (repeat 0 k ++ ds). repeat split.
    + rewrite map_app. f_equal. f_equal. f_equal. clearbody k. induction k; simpl; [reflexivity|f_equal; assumption].
    + apply Forall_app; split; [|exact B]. apply Forall_forall. intros x Hx. apply repeat_spec in Hx. lia.
    + rewrite app_length, repeat_length. lia.
    + rewrite numeral_zeros. exact C.
  - intros R. replace ((n >=? 16 ^ d) || (n <? - (16 ^ d / 2))) with true by lia. reflexivity.
Qed.

Lemma overflow_loop ds r : digits 10 ds -> forall first acc neg, 0 <= acc < 524288 ->
  524288 <= num_of 10 acc ds < 1048576 ->
  num_loop 10 true (wtext ds ++ r) first acc neg = (num_of 10 acc ds, (0, 1), neg).
Proof.
  intros H. induction H as [|d t Hd Ht IH]; intros first acc neg Ha Hn; [simpl in Hn; lia|].
  unfold wtext in *. simpl map. simpl app. cbn [num_loop]. cbv zeta.
  rewrite dv_digit by lia. cbn [num_of] in *.
  replace ((0 <=? d) && (d <? 10)) with true by lia.
  rewrite (u32_small (acc * 10)) by (change (2^32) with 4294967296; lia).
  rewrite u32_small by (change (2^32) with 4294967296; lia).
  destruct (acc * 10 + d >=? 524288) eqn:E.
  - destruct t as [|d2 t2]; [reflexivity|]. exfalso. inversion Ht; subst. cbn [num_of] in Hn.
    pose proof (num_of_ge 10 t2 ((acc * 10 + d) * 10 + d2) ltac:(lia) ltac:(assumption) ltac:(lia)). lia.
  - apply IH; lia.
Qed.

Lemma literal_overflow ds r : digits 10 ds -> 524288 <= numeral 10 ds < 1048576 ->
  literal_decimal (map digit_char ds ++ r) = Err ERR_OVERFLOW.
Proof.
  intros Hd Hn. unfold literal_decimal, u8_to_num, u8_to_number, str_to_number.
  rewrite map_app. fold (wtext ds). unfold numeral in Hn. rewrite overflow_loop by (auto; lia).
  change (1 =? 0) with false. cbv iota. change (u32 (4096 * 0) / 1) with 0.
  cbn [bind]. unfold emit_number.
  replace ((2147483648 <=? num_of 10 0 ds * 4096 + 0) && (num_of 10 0 ds * 4096 + 0 <=? 4294967295) && true) with true by lia.
  reflexivity.
Qed.

Lemma literal_ok ds fs rest : digits 10 ds -> digits 10 fs -> numeral 10 ds < 524288 -> (length fs <= 6)%nat ->
  exists code, literal_decimal (decimal_text false ds fs) = Ok code /\
    run_number (code ++ rest) =
    Ok (numeral 10 ds * 4096 + 4096 * numeral 10 fs / 10 ^ Z.of_nat (length fs), rest).
Proof.
  intros Hd Hf Hn Hl. unfold literal_decimal, decimal_text.
  pose proof (num_of_ge 10 ds 0 ltac:(lia) Hd ltac:(lia)) as Hn0. fold (numeral 10 ds) in Hn0.
  pose proof (num_of_bound 10 fs ltac:(lia) Hf) as Hfb. fold (numeral 10 fs) in Hfb.
  pose proof (pow10_6 _ Hl) as Hp.
  assert (Hq : 0 <= 4096 * numeral 10 fs / 10 ^ Z.of_nat (length fs) < 4096).
  { split; [apply Z.div_pos; lia|]. apply Z.div_lt_upper_bound; lia. }
  set (v := numeral 10 ds * 4096 + 4096 * numeral 10 fs / 10 ^ Z.of_nat (length fs)) in *.
  assert (E : u8_to_num ([] ++ map digit_char ds ++ match fs with [] => [] | _ :: _ => 46 :: map digit_char fs end) = Ok v).
  { destruct fs as [|f0 ft].
    - pose proof (read_integer false ds [] Hd Hn I) as R. rewrite app_nil_r in R. cbn [sgn_text] in R.
      rewrite app_nil_r. rewrite R. f_equal. unfold v. unfold numeral at 3. simpl num_of.
      change (10 ^ Z.of_nat (@length Z [])) with 1. lia.
    - pose proof (read_decimal false ds (f0 :: ft) [] Hd Hf Hn Hl I) as R. cbn [sgn_text] in R.
      rewrite app_nil_r in R. exact R. }
  rewrite E. cbn [bind]. destruct (emit_run v true rest) as [_ G].
  destruct G as [code [G1 [_ [_ G2]]]]; [unfold v in *; lia|].
  exists code. split; [exact G1|]. rewrite G2. f_equal. f_equal.
  apply s32_id. unfold is_s32, INT_MIN, INT_MAX. change (2^31) with 2147483648. unfold v in *. lia.
Qed.

Lemma literal_based_ok base ds rest : base = 16 \/ base = 2 -> digits base ds -> numeral base ds < 1048576 ->
  exists code, literal_based base (map digit_char ds) = Ok code /\
    run_number (code ++ rest) =
    Ok ((if numeral base ds <? 524288 then numeral base ds else numeral base ds - 1048576) * 4096, rest).
Proof.
  intros Hb Hd Hn. assert (B : 2 <= base <= 16) by (destruct Hb; lia).
  pose proof (num_of_ge base ds 0 ltac:(lia) Hd ltac:(lia)) as Hn0. fold (numeral base ds) in Hn0.
  unfold literal_based. pose proof (read_based base ds [] B Hd Hn I) as R. rewrite app_nil_r in R.
  rewrite R. cbn [bind]. destruct (emit_run (numeral base ds * 4096) false rest) as [_ G].
  destruct G as [code [G1 [_ [_ G2]]]]; [intros [K _]; discriminate|].
  exists code. split; [exact G1|]. rewrite G2, s32_sext by lia. reflexivity.
Qed.
