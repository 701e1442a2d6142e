From Verif Require Import Base BaseLemmas Strs StrFuncs StrSpec StrProofs NumSpec NumText NumTextSpec.
From Coq Require Import QArith Lqa Qabs Qround.
Open Scope Z_scope.
Ltac Zify.zify_post_hook ::= Z.div_mod_to_equations.

Lemma dv_digit d : 0 <= d < 16 -> digit_value (to_wide (digit_char d)) = d.
Proof.
  intros H. assert (In d (map Z.of_nat (seq 0 16))).
  { apply in_map_iff. exists (Z.to_nat d). split; [lia|]. apply in_seq. lia. }
  assert (B : forallb (fun d => digit_value (to_wide (digit_char d)) =? d) (map Z.of_nat (seq 0 16)) = true)
    by reflexivity.
  rewrite forallb_forall in B. apply Z.eqb_eq, B, H0.
Qed.

Lemma codes_forall (P : Z -> bool) : forallb P all_codes = true -> forall c, 0 <= c < 256 -> P c = true.
Proof. intros B c H. rewrite forallb_forall in B. apply B, all_codes_in, H. Qed.

Lemma dv_range c : 0 <= c < 256 ->
  digit_value (to_wide c) = (if (48 <=? c) && (c <=? 57) then c - 48
                              else if (65 <=? c) && (c <=? 70) then c - 55 else -1).
Proof.
  intros H. apply Z.eqb_eq.
  apply (codes_forall (fun c => digit_value (to_wide c) =? (if (48 <=? c) && (c <=? 57) then c - 48
                              else if (65 <=? c) && (c <=? 70) then c - 55 else -1))); [reflexivity|exact H].
Qed.

Lemma num_of_ge base ds acc : 2 <= base -> digits base ds -> 0 <= acc -> acc <= num_of base acc ds.
Proof.
  intros Hb H. revert acc. induction H as [|d t Hd Ht IH]; simpl; intros acc Ha; [lia|].
  specialize (IH (acc * base + d)). nia.
Qed.
Lemma num_of_app base a b acc : num_of base acc (a ++ b) = num_of base (num_of base acc a) b.
Proof. revert acc; induction a; simpl; intros; auto. Qed.
Lemma num_of_pow base ds acc : num_of base acc ds = acc * base ^ Z.of_nat (length ds) + num_of base 0 ds.
Proof.
  revert acc. induction ds as [|d t IH]; simpl length; intros acc; [simpl; lia|].
  cbn [num_of]. rewrite IH, (IH (0 * base + d)).
  rewrite Nat2Z.inj_succ, Z.pow_succ_r by lia. ring.
Qed.
Lemma num_of_bound base ds : 2 <= base -> digits base ds -> 0 <= num_of base 0 ds < base ^ Z.of_nat (length ds).
Proof.
  intros Hb H. induction H as [|d t Hd Ht IH]; [simpl; lia|].
  cbn [num_of length]. rewrite num_of_pow, Nat2Z.inj_succ, Z.pow_succ_r by lia. nia.
Qed.

Definition wtext (ds : list Z) := map to_wide (map digit_char ds).

Lemma u32_small z : 0 <= z < 2 ^ 32 -> u32 z = z.
Proof. unfold u32. change (2 ^ 32) with 4294967296. intros; lia. Qed.

Lemma pow10_pos k : 1 <= 10 ^ Z.of_nat k.
Proof. pose proof (Z.pow_pos_nonneg 10 (Z.of_nat k)). lia. Qed.

Lemma num_loop_digits base dec ds r : 2 <= base <= 16 -> digits base ds -> forall first acc neg,
  0 <= acc < 524288 -> num_of base acc ds < 524288 ->
  num_loop base dec (wtext ds ++ r) first acc neg =
  num_loop base dec r (match ds with [] => first | _ => false end) (num_of base acc ds) neg.
Proof.
  intros Hb H. induction H as [|d t Hd Ht IH]; intros first acc neg Ha Hn; [reflexivity|].
  unfold wtext in *. simpl map. simpl app. cbn [num_loop].
  rewrite dv_digit by lia. cbn [num_of] in *.
  pose proof (num_of_ge base t (acc * base + d) ltac:(lia) Ht ltac:(nia)) as G.
  replace ((0 <=? d) && (d <? base)) with true by lia. cbv zeta.
  rewrite (u32_small (acc * base)) by (change (2^32) with 4294967296; nia).
  rewrite u32_small by (change (2^32) with 4294967296; nia).
  replace (acc * base + d >=? 524288) with false by lia.
  rewrite IH by (try lia; nia). destruct t; reflexivity.
Qed.

Lemma frac_loop_digits ds r : digits 10 ds -> forall f m,
  0 <= f -> num_of 10 f ds < 2 ^ 32 -> 0 <= m -> m * 10 ^ Z.of_nat (length ds) < 2 ^ 32 ->
  frac_loop 10 (wtext ds ++ r) f m = frac_loop 10 r (num_of 10 f ds) (m * 10 ^ Z.of_nat (length ds)).
Proof.
  intros H. induction H as [|d t Hd Ht IH]; intros f m Hf Hn Hm HM.
  - simpl. f_equal. lia.
  - unfold wtext in *. simpl map. simpl app. cbn [frac_loop].
    rewrite dv_digit by lia. cbn [num_of] in *. cbv zeta.
    replace ((0 <=? d) && (d <? 10)) with true by lia.
    pose proof (num_of_ge 10 t (f * 10 + d) ltac:(lia) Ht ltac:(lia)) as G.
    cbn [length] in *. rewrite Nat2Z.inj_succ, Z.pow_succ_r in * by lia.
    assert (1 <= 10 ^ Z.of_nat (length t)) by (apply pow10_pos).
    change (2^32) with 4294967296 in *.
    rewrite (u32_small (f * 10)) by (change (2^32) with 4294967296; lia).
    rewrite (u32_small (f * 10 + d)) by (change (2^32) with 4294967296; lia).
    rewrite (u32_small (m * 10)) by (change (2^32) with 4294967296; nia).
    rewrite IH; try lia; try nia. f_equal. ring.
Qed.

Lemma stop_dec c : 0 <= c < 256 -> ~ dec_char c ->
  (0 <=? digit_value (to_wide c)) && (digit_value (to_wide c) <? 10) = false.
Proof. intros H N. unfold dec_char in N. rewrite (dv_range c H).
  destruct ((48 <=? c) && (c <=? 57)) eqn:E; [lia|]. destruct ((65 <=? c) && (c <=? 70)) eqn:E2; lia. Qed.

Lemma frac_stop r f m : stops dec_char r -> frac_loop 10 (map to_wide r) f m = (f, m).
Proof.
  destruct r as [|c t]; [reflexivity|]. intros [Hc N]. simpl map. cbn [frac_loop]. cbv zeta.
  rewrite (stop_dec c Hc N). reflexivity.
Qed.

Lemma wide_eqb a b : 0 <= a < 256 -> 0 <= b < 256 -> (to_wide a =? to_wide b) = (a =? b).
Proof.
  intros Ha Hb. destruct (a =? b) eqn:E; [apply Z.eqb_eq in E; subst; apply Z.eqb_refl|].
  apply Z.eqb_neq. intro G. apply to_wide_inj in G; try assumption. lia.
Qed.

(** a stop character for the integer part *)
Definition int_stop (c : Z) : Prop := dec_char c \/ c = 46 \/ c = 45.

Lemma num_stop r first n neg : stops int_stop r ->
  num_loop 10 true (map to_wide r) first n neg = (n, (0, 1), neg).
Proof.
  destruct r as [|c t]; [reflexivity|]. intros [Hc N]. unfold int_stop in N. simpl map. cbn [num_loop]. cbv zeta.
  rewrite stop_dec by tauto.
  rewrite !wide_eqb by lia. replace (c =? 46) with false by lia. replace (c =? 45) with false by lia.
  rewrite andb_false_r. reflexivity.
Qed.

Lemma dec_point n neg first t : num_loop 10 true (to_wide 46 :: t) first n neg = (n, frac_loop 10 t 0 1, neg).
Proof. reflexivity. Qed.

Definition sgn_text (neg : bool) : list Z := if neg then [45] else [].

Lemma pow10_6 k : (k <= 6)%nat -> 1 <= 10 ^ Z.of_nat k <= 1000000.
Proof. intros H. split; [apply pow10_pos|].
  change 1000000 with (10 ^ 6). apply Z.pow_le_mono_r; lia. Qed.

(** decimal text without / with fraction *)
Lemma read_decimal neg ds fs r : digits 10 ds -> digits 10 fs -> numeral 10 ds < 524288 ->
  (length fs <= 6)%nat -> stops dec_char r ->
  u8_to_num (sgn_text neg ++ map digit_char ds ++ 46 :: map digit_char fs ++ r) =
  Ok (let v := numeral 10 ds * 4096 + 4096 * numeral 10 fs / 10 ^ Z.of_nat (length fs) in
      if neg then - v else v).
Proof.
  intros Hd Hf Hn Hl Hr. unfold u8_to_num, u8_to_number, str_to_number.
  pose proof (num_of_ge 10 ds 0 ltac:(lia) Hd ltac:(lia)) as Hn0.
  pose proof (num_of_bound 10 fs ltac:(lia) Hf) as Hfb.
  pose proof (pow10_6 _ Hl) as Hp.
  unfold numeral in *.
  assert (Core : forall first, num_loop 10 true
     (map to_wide (map digit_char ds ++ 46 :: map digit_char fs ++ r)) first 0 neg =
     (num_of 10 0 ds, (num_of 10 0 fs, 10 ^ Z.of_nat (length fs)), neg)).
  { intros first. rewrite map_app. fold (wtext ds). rewrite num_loop_digits by (try lia; auto).
    simpl map. rewrite dec_point. rewrite map_app. fold (wtext fs).
    rewrite frac_loop_digits; auto; try lia;
      try (change (2^32) with 4294967296; lia).
    rewrite frac_stop by exact Hr. rewrite Z.mul_1_l. reflexivity. }
  assert (E : num_loop 10 true (map to_wide (sgn_text neg ++ map digit_char ds ++ 46 :: map digit_char fs ++ r)) true 0 false =
     (num_of 10 0 ds, (num_of 10 0 fs, 10 ^ Z.of_nat (length fs)), neg)).
  { destruct neg; [|exact (Core true)]. rewrite <- (Core false). reflexivity. }
  rewrite E.
  replace (10 ^ Z.of_nat (length fs) =? 0) with false by lia.
  rewrite (u32_small (4096 * num_of 10 0 fs)) by (change (2^32) with 4294967296; lia).
  destruct neg; [|reflexivity]. f_equal.
  set (F := 4096 * num_of 10 0 fs / 10 ^ Z.of_nat (length fs)).
  unfold INT_TO_FP, s32, u32. change (2^32) with 4294967296. change (2^31) with 2147483648. lia.
Qed.

Lemma read_integer neg ds r : digits 10 ds -> numeral 10 ds < 524288 -> stops int_stop r ->
  u8_to_num (sgn_text neg ++ map digit_char ds ++ r) =
  Ok (if neg then - (numeral 10 ds * 4096) else numeral 10 ds * 4096).
Proof.
  intros Hd Hn Hr. unfold u8_to_num, u8_to_number, str_to_number.
  pose proof (num_of_ge 10 ds 0 ltac:(lia) Hd ltac:(lia)) as Hn0.
  unfold numeral in *.
  assert (Core : forall first, num_loop 10 true (map to_wide (map digit_char ds ++ r)) first 0 neg =
     (num_of 10 0 ds, (0, 1), neg)).
  { intros first. rewrite map_app. fold (wtext ds). rewrite num_loop_digits by (try lia; auto).
    apply num_stop; exact Hr. }
  assert (E : num_loop 10 true (map to_wide (sgn_text neg ++ map digit_char ds ++ r)) true 0 false =
     (num_of 10 0 ds, (0, 1), neg)).
  { destruct neg; [|exact (Core true)]. rewrite <- (Core false). reflexivity. }
  rewrite E. cbv beta iota. change (1 =? 0) with false. cbv iota.
  destruct neg; f_equal; unfold INT_TO_FP, s32, u32;
  change (2^32) with 4294967296; change (2^31) with 2147483648; lia.
Qed.

(** prefixed numbers *)
Definition base_stop (base c : Z) : Prop := 
  (48 <= c <= 57 /\ c - 48 < base) \/ (65 <= c <= 70 /\ c - 55 < base) \/ c = 45.

Lemma based_stop base r first n neg : stops (base_stop base) r ->
  num_loop base false (map to_wide r) first n neg = (n, (0, 1), neg).
Proof.
  destruct r as [|c t]; [reflexivity|]. intros [Hc N]. unfold base_stop in N.
  simpl map. cbn [num_loop]. cbv zeta. rewrite andb_false_r, !wide_eqb by lia.
  replace (c =? 45) with false by lia. rewrite andb_false_r, dv_range by exact Hc.
  destruct ((48 <=? c) && (c <=? 57)) eqn:E1; [replace ((0 <=? c - 48) && (c - 48 <? base)) with false by lia; reflexivity|].
  destruct ((65 <=? c) && (c <=? 70)) eqn:E2; [replace ((0 <=? c - 55) && (c - 55 <? base)) with false by lia; reflexivity|].
  reflexivity.
Qed.

Lemma based_loop base ds r : 2 <= base <= 16 -> digits base ds -> stops (base_stop base) r ->
  forall first acc neg, 0 <= acc < 524288 -> num_of base acc ds < 1048576 ->
  num_loop base false (wtext ds ++ map to_wide r) first acc neg = (num_of base acc ds, (0, 1), neg).
Proof.
  intros Hb H Hr. induction H as [|d t Hd Ht IH]; intros first acc neg Ha Hn.
  - simpl. apply based_stop; exact Hr.
  - unfold wtext in *. simpl map. simpl app. cbn [num_loop]. cbv zeta.
    rewrite dv_digit by lia. cbn [num_of] in *.
    pose proof (num_of_ge base t (acc * base + d) ltac:(lia) Ht ltac:(nia)) as G.
    replace ((0 <=? d) && (d <? base)) with true by lia.
    rewrite (u32_small (acc * base)) by (change (2^32) with 4294967296; nia).
    rewrite u32_small by (change (2^32) with 4294967296; nia).
    destruct (acc * base + d >=? 524288) eqn:E.
    + destruct t as [|d2 t2]; [reflexivity|]. exfalso. inversion Ht; subst.
      cbn [num_of] in Hn.
      pose proof (num_of_ge base t2 ((acc * base + d) * base + d2) ltac:(lia) ltac:(assumption) ltac:(nia)). nia.
    + apply IH; [nia|exact Hn].
Qed.

Lemma read_based base ds r : 2 <= base <= 16 -> digits base ds -> numeral base ds < 1048576 ->
  stops (base_stop base) r ->
  u8_to_number (map digit_char ds ++ r) base false = Ok (numeral base ds * 4096).
Proof.
  intros Hb Hd Hn Hr. unfold u8_to_number, str_to_number. rewrite map_app. fold (wtext ds).
  rewrite based_loop by (auto; lia). change (1 =? 0) with false. cbv iota.
  change (u32 (4096 * 0) / 1) with 0. unfold numeral. f_equal. lia.
Qed.

(** VAL *)
Lemma s32_sext n : 0 <= n < 1048576 ->
  s32 (n * 4096) = (if n <? 524288 then n else n - 1048576) * 4096.
Proof. intros H. unfold s32. change (2^32) with 4294967296. change (2^31) with 2147483648.
  destruct (n <? 524288) eqn:E; lia. Qed.

Lemma stops_mono (P Q : Z -> Prop) r : (forall c, Q c -> P c) -> stops P r -> stops Q r.
Proof. destruct r; simpl; [auto|]. intros H [A B]. split; auto. Qed.

Lemma val_prefixed g s base pre ds r : spells s (38 :: pre :: map digit_char ds ++ r) ->
  pre = 72 /\ base = 16 \/ pre = 66 /\ base = 2 ->
  digits base ds -> numeral base ds < 1048576 -> stops (base_stop base) r ->
  func_val g s = Ok ((if numeral base ds <? 524288 then numeral base ds else numeral base ds - 1048576) * 4096).
Proof.
  intros Hs Hp Hd Hn Hr. unfold func_val. rewrite (spells_char_copy _ _ Hs), (spells_len _ _ Hs).
  cbv zeta. cbn [app nth skipn]. change (38 =? 38) with true. cbv iota.
  assert (L : zlen (38 :: pre :: map digit_char ds ++ r) <? 2 = false).
  { unfold zlen. cbn [length]. lia. }
  rewrite L.
  assert (0 <= numeral base ds).
  { apply (num_of_ge base ds 0); auto; lia. }
  destruct Hp as [[-> ->]|[-> ->]]; cbn [Z.eqb Pos.eqb]; rewrite read_based by (auto; lia);
    cbn [bind]; rewrite s32_sext by lia; reflexivity.
Qed.

Lemma val_decimal g s neg ds fs r : spells s (sgn_text neg ++ map digit_char ds ++ 46 :: map digit_char fs ++ r) ->
  digits 10 ds -> digits 10 fs -> numeral 10 ds < 524288 -> (length fs <= 6)%nat -> stops dec_char r ->
  func_val g s = Ok (let v := numeral 10 ds * 4096 + 4096 * numeral 10 fs / 10 ^ Z.of_nat (length fs) in
      if neg then - v else v).
Proof.
  intros Hs Hd Hf Hn Hl Hr. unfold func_val. rewrite (spells_char_copy _ _ Hs). cbv zeta.
  set (T := sgn_text neg ++ map digit_char ds ++ 46 :: map digit_char fs ++ r) in *.
  assert (E : nth 0 (T ++ skipn (length T) g) 0 =? 38 = false).
  { apply Z.eqb_neq. unfold T. destruct neg; simpl; [lia|].
    destruct ds as [|d t]; simpl; [lia|]. inversion Hd; subst. unfold digit_char. destruct (d <? 10) eqn:E; lia. }
  rewrite E. unfold T. rewrite read_decimal by auto. cbn [bind]. f_equal.
  pose proof (num_of_ge 10 ds 0 ltac:(lia) Hd ltac:(lia)) as Hn0.
  pose proof (num_of_bound 10 fs ltac:(lia) Hf) as Hfb. fold (numeral 10 ds) in Hn0. fold (numeral 10 fs) in Hfb.
  pose proof (pow10_6 _ Hl) as Hp.
  assert (0 <= 4096 * numeral 10 fs / 10 ^ Z.of_nat (length fs) < 4096).
  { split; [apply Z.div_pos; lia|]. apply Z.div_lt_upper_bound; lia. }
  cbv zeta. apply s32_id. unfold is_s32, INT_MIN, INT_MAX. change (2^31) with 2147483648.
  destruct neg; lia.
Qed.

Lemma val_integer g s neg ds r : spells s (sgn_text neg ++ map digit_char ds ++ r) ->
  sgn_text neg ++ map digit_char ds ++ r <> [] ->
  (forall t, sgn_text neg ++ map digit_char ds ++ r <> 38 :: t) ->
  digits 10 ds -> numeral 10 ds < 524288 -> stops int_stop r ->
  func_val g s = Ok (if neg then - (numeral 10 ds * 4096) else numeral 10 ds * 4096).
Proof.
  intros Hs Hne Hamp Hd Hn Hr. unfold func_val. rewrite (spells_char_copy _ _ Hs). cbv zeta.
  set (T := sgn_text neg ++ map digit_char ds ++ r) in *.
  assert (E : nth 0 (T ++ skipn (length T) g) 0 =? 38 = false).
  { apply Z.eqb_neq. destruct T as [|c t]; [congruence|]. simpl. intros ->. exact (Hamp t eq_refl). }
  rewrite E. unfold T. rewrite read_integer by auto. cbn [bind]. f_equal.
  pose proof (num_of_ge 10 ds 0 ltac:(lia) Hd ltac:(lia)) as Hn0. fold (numeral 10 ds) in Hn0.
  apply s32_id. unfold is_s32, INT_MIN, INT_MAX. change (2^31) with 2147483648.
  destruct neg; lia.
Qed.
