(** C44, C45, C52: frame counter, dates and times, waiting. *)
From Verif Require Import Base BaseLemmas Strs SysVars SysVarsSpec.
Ltac Zify.zify_post_hook ::= Z.div_mod_to_equations.

(** ** C44: the two halves determine the counter modulo 2^40: both are whole numbers, and their
    remainders modulo 2^20 are the low and the high 20 bits *)
Theorem C44_halves : forall t, 0 <= t -> exists l h,
  sys_maincntl t = 4096 * l /\ sys_maincnth t = 4096 * h /\ - 2 ^ 19 <= l < 2 ^ 19 /\ - 2 ^ 19 <= h < 2 ^ 19 /\
  (h mod 2 ^ 20) * 2 ^ 20 + l mod 2 ^ 20 = t mod 2 ^ 40.
Proof.
  intros t Ht. unfold sys_maincntl, sys_maincnth.
  replace 1048575 with (Z.ones 20) by reflexivity. rewrite Z.land_ones by lia.
  replace 1099510579200 with (Z.shiftl (Z.ones 20) 20) by reflexivity.
  rewrite Z.shiftr_land, Z.shiftr_shiftl_l by lia. replace (20 - 20) with 0 by lia. rewrite Z.shiftl_0_r, Z.land_ones, Z.shiftr_div_pow2 by lia.
  unfold INT_TO_FP, s32, u32. change (2 ^ 32) with 4294967296. change (2 ^ 31) with 2147483648. change (2 ^ 20) with 1048576. change (2 ^ 40) with 1099511627776. change (2 ^ 19) with 524288.
  exists (((t mod 1048576) + 524288) mod 1048576 - 524288), (((t / 1048576) mod 1048576 + 524288) mod 1048576 - 524288).
  assert (A : forall x, 0 <= x < 1048576 -> (x mod 4294967296 * 4096 + 2147483648) mod 4294967296 - 2147483648 = 4096 * ((x + 524288) mod 1048576 - 524288)) by (intros x X; lia).
  assert (B : forall x, 0 <= x < 1048576 -> ((x + 524288) mod 1048576 - 524288) mod 1048576 = x) by (intros x X; lia).
  split; [apply A; lia|]. split; [apply A; lia|]. split; [lia|]. split; [lia|]. rewrite !B by lia. lia.
Qed.
Print Assumptions C44_halves.
(** so differences of MAINCNTL measure elapsed frames as long as the low half does not pass 2^19 *)
Theorem C44_elapsed : forall t n, 0 <= t -> 0 <= n -> t mod 2 ^ 20 + n < 2 ^ 19 \/ 2 ^ 19 <= t mod 2 ^ 20 /\ t mod 2 ^ 20 + n < 2 ^ 20 ->
  sys_maincntl (t + n) - sys_maincntl t = 4096 * n.
Proof.
  intros t n Ht Hn D. unfold sys_maincntl. replace 1048575 with (Z.ones 20) by reflexivity. rewrite !Z.land_ones by lia.
  unfold INT_TO_FP, s32, u32 in *. change (2 ^ 32) with 4294967296. change (2 ^ 31) with 2147483648. change (2 ^ 20) with 1048576 in *. change (2 ^ 19) with 524288 in *. 
  assert (E : (t + n) mod 1048576 = t mod 1048576 + n) by lia. rewrite E. clear E. set (x := t mod 1048576) in *.
  assert (0 <= x < 1048576) by (unfold x; lia). clearbody x. lia.
Qed.
Print Assumptions C44_elapsed.
(** frame 5000000 = 4 * 2^20 + 805696: the low half is shown as 805696 - 2^20 *)
Example C44_case : sys_maincntl 5000000 = 4096 * (805696 - 1048576) /\ sys_maincnth 5000000 = 4096 * 4 /\ 4 * 2 ^ 20 + 805696 = 5000000.
Proof. repeat split. Qed.
Example C44_elapsed_case : sys_maincntl (5000000 + 60) - sys_maincntl 5000000 = 60 * 4096.
Proof. reflexivity. Qed.
(** The remainders are needed: MAINCNTL itself is negative
    half of the time (first after 2^19 frames, about two and a half hours). *)
Theorem C44_low_half_is_signed : sys_maincntl 524288 = - 524288 * 4096 /\ sys_maincnth 524288 = 0.
Proof. split; reflexivity. Qed.

(** ** C45 *)
Lemma at_char b i c : nth_error b (Z.to_nat i) = Some c -> 0 <= i < 65536 -> str_at_char (SChar b) i = Ok c /\ str_at_char (SBc b) i = Ok c.
Proof. intros E R. unfold str_at_char, u16. change (2 ^ 16) with 65536. rewrite Z.mod_small by lia. rewrite E. split; reflexivity. Qed.

Definition byte_string (s : str) (b : list Z) : Prop := (s = SChar b \/ s = SBc b) /\ Forall (fun c => 0 <= c < 256) b.
Lemma u8_id c : 0 <= c < 256 -> u8 c = c. Proof. intros. unfold u8. change (2 ^ 8) with 256. lia. Qed.
Lemma num_spec c : is_number c = true <-> exists d, c = 48 + d /\ 0 <= d < 10.
Proof. unfold is_number. split; [intros A; exists (c - 48); lia|intros [d [-> D]]; lia]. Qed.

Lemma dec4 y : 0 <= y <= 9999 -> (48 + y / 10 / 10 / 10 mod 10 - 48) * 1000 + (48 + y / 10 / 10 mod 10 - 48) * 100 + (48 + y / 10 mod 10 - 48) * 10 + (48 + y mod 10 - 48) = y.
Proof. intros. lia. Qed.
Lemma dec2 y : 0 <= y <= 99 -> (48 + y / 10 mod 10 - 48) * 10 + (48 + y mod 10 - 48) = y.
Proof. intros. lia. Qed.
Lemma dec2' y : 0 <= y <= 99 -> 10 * (48 + y / 10 mod 10 - 48) + (48 + y mod 10 - 48) = y.
Proof. intros. lia. Qed.
(** DTREAD stores the fields of exactly the strings YYYY/MM/DD and rejects every other string *)
Theorem C45_dtread : forall s b, byte_string s b ->
  (forall y m d, 0 <= y <= 9999 -> two_digits m -> two_digits d -> b = date_text y m d -> cmd_dtread s = Ok (4096 * y, 4096 * m, 4096 * d)) /\
  (forall r, cmd_dtread s = Ok r -> exists y m d, r = (4096 * y, 4096 * m, 4096 * d) /\ 0 <= y <= 9999 /\ two_digits m /\ two_digits d /\ b = date_text y m d) /\
  ((~ exists y m d, 0 <= y <= 9999 /\ two_digits m /\ two_digits d /\ b = date_text y m d) -> cmd_dtread s = Err ERR_SYNTAX).
Proof.
  intros s b [Hs Hb].
  assert (At : forall i c, nth_error b (Z.to_nat i) = Some c -> 0 <= i < 65536 -> str_at_char s i = Ok c /\ u8 c = c).
  { intros i c E R. destruct (at_char b i c E R). split; [destruct Hs as [-> | ->]; assumption|]. apply u8_id. apply nth_error_In in E. rewrite Forall_forall in Hb. apply Hb, E. }
  assert (Ln : str_len s = Z.of_nat (length b)) by (destruct Hs as [-> | ->]; reflexivity).
  unfold cmd_dtread. rewrite Ln.
  assert (Key : length b = 10%nat -> exists a0 a1 a2 a3 a4 a5 a6 a7 a8 a9, b = [a0; a1; a2; a3; a4; a5; a6; a7; a8; a9]).
  { intros L. do 10 (destruct b as [|? b]; [discriminate|]); destruct b; [|discriminate]. do 10 eexists. reflexivity. }
  destruct (Z.eqb_spec (Z.of_nat (length b)) 10) as [L|L]; cbn [negb].
  2: { split; [intros y m d _ _ _ ->; exfalso; apply L; reflexivity|]. split; [intros r W; discriminate W|]. reflexivity. }
  assert (L' : length b = 10%nat) by lia. destruct (Key L') as (a0 & a1 & a2 & a3 & a4 & a5 & a6 & a7 & a8 & a9 & E). clear Key L L' Ln Hs.
  assert (R : forall i c, nth_error b (Z.to_nat i) = Some c -> 0 <= i < 10 -> str_at_char s i = Ok c /\ u8 c = c) by (intros; apply At; [assumption|lia]).
  clear At. rewrite E in *.
  destruct (R 0 a0 eq_refl ltac:(lia)) as [R0 U0]. destruct (R 1 a1 eq_refl ltac:(lia)) as [R1 U1]. destruct (R 2 a2 eq_refl ltac:(lia)) as [R2 U2].
  destruct (R 3 a3 eq_refl ltac:(lia)) as [R3 U3]. destruct (R 4 a4 eq_refl ltac:(lia)) as [R4 U4]. destruct (R 5 a5 eq_refl ltac:(lia)) as [R5 U5].
  destruct (R 6 a6 eq_refl ltac:(lia)) as [R6 U6]. destruct (R 7 a7 eq_refl ltac:(lia)) as [R7 U7]. destruct (R 8 a8 eq_refl ltac:(lia)) as [R8 U8].
  destruct (R 9 a9 eq_refl ltac:(lia)) as [R9 U9]. clear R.
  assert (Ck : check_format s date_format 47 0 = if is_number a0 && is_number a1 && is_number a2 && is_number a3 && (a4 =? 47) && is_number a5 && is_number a6 && (a7 =? 47) && is_number a8 && is_number a9 then Ok tt else Err ERR_SYNTAX).
  { cbn [check_format date_format Z.add Pos.add Pos.succ]. change (78 =? 78) with true. change (78 =? 47) with false. change (47 =? 78) with false. change (47 =? 47) with true. cbn [andb].
    rewrite R0, R1, R2, R3, R4, R5, R6, R7, R8, R9. cbn [bind]. rewrite U0, U1, U2, U3, U4, U5, U6, U7, U8, U9.
    destruct (is_number a0), (is_number a1), (is_number a2), (is_number a3), (a4 =? 47), (is_number a5), (is_number a6), (a7 =? 47), (is_number a8), (is_number a9); reflexivity. }
  rewrite Ck, R0, R1, R2, R3, R5, R6, R8, R9. cbn [bind]. rewrite U0, U1, U2, U3, U5, U6, U8, U9.
  destruct (is_number a0 && is_number a1 && is_number a2 && is_number a3 && (a4 =? 47) && is_number a5 && is_number a6 && (a7 =? 47) && is_number a8 && is_number a9) eqn:C; cbn [bind].
  - repeat (apply andb_prop in C; destruct C as [C ?]). unfold is_number in *.
    assert (T : [a0; a1; a2; a3; a4; a5; a6; a7; a8; a9] = date_text ((a0 - 48) * 1000 + (a1 - 48) * 100 + (a2 - 48) * 10 + (a3 - 48)) ((a5 - 48) * 10 + (a6 - 48)) ((a8 - 48) * 10 + (a9 - 48))).
    { unfold date_text. cbn [decimal app]. f_equal; [lia|]. f_equal; [lia|]. f_equal; [lia|]. f_equal; [lia|]. f_equal; [lia|]. f_equal; [lia|]. f_equal; [lia|]. f_equal; [lia|]. f_equal; [lia|]. f_equal. lia. }
    split; [|split].
    + intros y m d Y M D TT. unfold two_digits in *. unfold date_text in TT. cbn [decimal app] in TT. assert (E0 := f_equal (fun l => nth 0 l 0) TT). assert (E1 := f_equal (fun l => nth 1 l 0) TT). assert (E2 := f_equal (fun l => nth 2 l 0) TT). assert (E3 := f_equal (fun l => nth 3 l 0) TT). assert (E4 := f_equal (fun l => nth 4 l 0) TT). assert (E5 := f_equal (fun l => nth 5 l 0) TT). assert (E6 := f_equal (fun l => nth 6 l 0) TT). assert (E7 := f_equal (fun l => nth 7 l 0) TT). assert (E8 := f_equal (fun l => nth 8 l 0) TT). assert (E9 := f_equal (fun l => nth 9 l 0) TT). cbn [nth] in E0, E1, E2, E3, E4, E5, E6, E7, E8, E9. f_equal. f_equal; [f_equal; [rewrite E0, E1, E2, E3|rewrite E5, E6]|rewrite E8, E9]; clear - Y M D; lia.
    + intros r [= <-]. do 3 eexists. split; [|split; [|split; [|split; [|exact T]]]]; [rewrite !(Z.mul_comm _ 4096); reflexivity| | |]; unfold two_digits; lia.
    + intros N. exfalso. apply N. do 3 eexists. split; [|split; [|split; [|exact T]]]; unfold two_digits; lia.
  - split; [|split; [intros r W; discriminate W|reflexivity]].
    intros y m d Y M D TT. exfalso. unfold two_digits in *. unfold date_text in TT. cbn [decimal app] in TT. assert (E0 := f_equal (fun l => nth 0 l 0) TT). assert (E1 := f_equal (fun l => nth 1 l 0) TT). assert (E2 := f_equal (fun l => nth 2 l 0) TT). assert (E3 := f_equal (fun l => nth 3 l 0) TT). assert (E4 := f_equal (fun l => nth 4 l 0) TT). assert (E5 := f_equal (fun l => nth 5 l 0) TT). assert (E6 := f_equal (fun l => nth 6 l 0) TT). assert (E7 := f_equal (fun l => nth 7 l 0) TT). assert (E8 := f_equal (fun l => nth 8 l 0) TT). assert (E9 := f_equal (fun l => nth 9 l 0) TT). cbn [nth] in E0, E1, E2, E3, E4, E5, E6, E7, E8, E9.
    unfold is_number in C. lia.
Qed.
Print Assumptions C45_dtread.

Theorem C45_tmread : forall s b, byte_string s b ->
  (forall h m n, two_digits h -> two_digits m -> two_digits n -> b = time_text h m n -> cmd_tmread s = Ok (4096 * h, 4096 * m, 4096 * n)) /\
  (forall r, cmd_tmread s = Ok r -> exists h m n, r = (4096 * h, 4096 * m, 4096 * n) /\ two_digits h /\ two_digits m /\ two_digits n /\ b = time_text h m n) /\
  ((~ exists h m n, two_digits h /\ two_digits m /\ two_digits n /\ b = time_text h m n) -> cmd_tmread s = Err ERR_SYNTAX).
Proof.
  intros s b [Hs Hb].
  assert (At : forall i c, nth_error b (Z.to_nat i) = Some c -> 0 <= i < 65536 -> str_at_char s i = Ok c /\ u8 c = c).
  { intros i c E R. destruct (at_char b i c E R). split; [destruct Hs as [-> | ->]; assumption|]. apply u8_id. apply nth_error_In in E. rewrite Forall_forall in Hb. apply Hb, E. }
  assert (Ln : str_len s = Z.of_nat (length b)) by (destruct Hs as [-> | ->]; reflexivity).
  unfold cmd_tmread. rewrite Ln.
  assert (Key : length b = 8%nat -> exists a0 a1 a2 a3 a4 a5 a6 a7, b = [a0; a1; a2; a3; a4; a5; a6; a7]).
  { intros L. do 8 (destruct b as [|? b]; [discriminate|]); destruct b; [|discriminate]. do 8 eexists. reflexivity. }
  destruct (Z.eqb_spec (Z.of_nat (length b)) 8) as [L|L]; cbn [negb].
  2: { split; [intros y m d _ _ _ ->; exfalso; apply L; reflexivity|]. split; [intros r W; discriminate W|]. reflexivity. }
  assert (L' : length b = 8%nat) by lia. destruct (Key L') as (a0 & a1 & a2 & a3 & a4 & a5 & a6 & a7 & E). clear Key L L' Ln Hs.
  assert (R : forall i c, nth_error b (Z.to_nat i) = Some c -> 0 <= i < 10 -> str_at_char s i = Ok c /\ u8 c = c) by (intros; apply At; [assumption|lia]).
  clear At. rewrite E in *.
  destruct (R 0 a0 eq_refl ltac:(lia)) as [R0 U0]. destruct (R 1 a1 eq_refl ltac:(lia)) as [R1 U1]. destruct (R 2 a2 eq_refl ltac:(lia)) as [R2 U2].
  destruct (R 3 a3 eq_refl ltac:(lia)) as [R3 U3]. destruct (R 4 a4 eq_refl ltac:(lia)) as [R4 U4]. destruct (R 5 a5 eq_refl ltac:(lia)) as [R5 U5].
  destruct (R 6 a6 eq_refl ltac:(lia)) as [R6 U6]. destruct (R 7 a7 eq_refl ltac:(lia)) as [R7 U7]. clear R.
  assert (Ck : check_format s time_format 58 0 = if is_number a0 && is_number a1 && (a2 =? 58) && is_number a3 && is_number a4 && (a5 =? 58) && is_number a6 && is_number a7 then Ok tt else Err ERR_SYNTAX).
  { cbn [check_format time_format Z.add Pos.add Pos.succ]. change (78 =? 78) with true. change (78 =? 58) with false. change (58 =? 78) with false. change (58 =? 58) with true. cbn [andb].
    rewrite R0, R1, R2, R3, R4, R5, R6, R7. cbn [bind]. rewrite U0, U1, U2, U3, U4, U5, U6, U7.
    destruct (is_number a0), (is_number a1), (a2 =? 58), (is_number a3), (is_number a4), (a5 =? 58), (is_number a6), (is_number a7); reflexivity. }
  rewrite Ck, R0, R1, R3, R4, R6, R7. cbn [bind].
  destruct (is_number a0 && is_number a1 && (a2 =? 58) && is_number a3 && is_number a4 && (a5 =? 58) && is_number a6 && is_number a7) eqn:C; cbn [bind].
  - repeat (apply andb_prop in C; destruct C as [C ?]). unfold is_number in *.
    assert (T : [a0; a1; a2; a3; a4; a5; a6; a7] = time_text (10 * (a0 - 48) + (a1 - 48)) (10 * (a3 - 48) + (a4 - 48)) (10 * (a6 - 48) + (a7 - 48))).
    { unfold time_text. cbn [decimal app]. f_equal; [lia|]. f_equal; [lia|]. f_equal; [lia|]. f_equal; [lia|]. f_equal; [lia|]. f_equal; [lia|]. f_equal; [lia|]. f_equal. lia. }
    split; [|split].
    + intros y m d Y M D TT. unfold two_digits in *. unfold time_text in TT. cbn [decimal app] in TT. assert (E0 := f_equal (fun l => nth 0 l 0) TT). assert (E1 := f_equal (fun l => nth 1 l 0) TT). assert (E2 := f_equal (fun l => nth 2 l 0) TT). assert (E3 := f_equal (fun l => nth 3 l 0) TT). assert (E4 := f_equal (fun l => nth 4 l 0) TT). assert (E5 := f_equal (fun l => nth 5 l 0) TT). assert (E6 := f_equal (fun l => nth 6 l 0) TT). assert (E7 := f_equal (fun l => nth 7 l 0) TT). cbn [nth] in E0, E1, E2, E3, E4, E5, E6, E7. f_equal. f_equal; [f_equal; [rewrite E0, E1|rewrite E3, E4]|rewrite E6, E7]; clear - Y M D; lia.
    + intros r [= <-]. do 3 eexists. split; [|split; [|split; [|split; [|exact T]]]]; [rewrite !(Z.mul_comm _ 4096); reflexivity| | |]; unfold two_digits; lia.
    + intros N. exfalso. apply N. do 3 eexists. split; [|split; [|split; [|exact T]]]; unfold two_digits; lia.
  - split; [|split; [intros r W; discriminate W|reflexivity]].
    intros y m d Y M D TT. exfalso. unfold two_digits in *. unfold time_text in TT. cbn [decimal app] in TT. assert (E0 := f_equal (fun l => nth 0 l 0) TT). assert (E1 := f_equal (fun l => nth 1 l 0) TT). assert (E2 := f_equal (fun l => nth 2 l 0) TT). assert (E3 := f_equal (fun l => nth 3 l 0) TT). assert (E4 := f_equal (fun l => nth 4 l 0) TT). assert (E5 := f_equal (fun l => nth 5 l 0) TT). assert (E6 := f_equal (fun l => nth 6 l 0) TT). assert (E7 := f_equal (fun l => nth 7 l 0) TT). cbn [nth] in E0, E1, E2, E3, E4, E5, E6, E7.
    unfold is_number in C. lia.
Qed.
Print Assumptions C45_tmread.

(** DATE$ and TIME$ spell the fields of the clock, so DTREAD DATE$ and TMREAD TIME$ give them back *)
Theorem C45_clock : forall y mo d h mi s, 0 <= y <= 9999 -> 1 <= mo <= 12 -> 1 <= d <= 31 -> 0 <= h <= 23 -> 0 <= mi <= 59 -> 0 <= s <= 60 ->
  sys_date y mo d = date_text y mo d /\ sys_time h mi s = time_text h mi s /\
  cmd_dtread (SChar (sys_date y mo d)) = Ok (4096 * y, 4096 * mo, 4096 * d) /\
  cmd_tmread (SChar (sys_time h mi s)) = Ok (4096 * h, 4096 * mi, 4096 * s).
Proof.
  intros y mo d h mi s Y MO D Hh MI Sc.
  assert (Dg : forall n, 0 <= n <= 9 -> digit n = 48 + n) by (intros n N; unfold digit, u8; change (2 ^ 8) with 256; lia).
  assert (A : sys_date y mo d = date_text y mo d).
  { unfold sys_date, date_text. cbn [decimal app]. rewrite !Z.quot_div_nonneg by lia. rewrite !Z.rem_mod_nonneg by lia. rewrite !Dg by lia. repeat (apply f_equal2; [lia|]). reflexivity. }
  assert (B : sys_time h mi s = time_text h mi s).
  { unfold sys_time, time_text. cbn [decimal app]. rewrite !Z.quot_div_nonneg by lia. rewrite !Z.rem_mod_nonneg by lia. rewrite !Dg by lia. repeat (apply f_equal2; [lia|]). reflexivity. }
  split; [exact A|]. split; [exact B|]. rewrite A, B.
  assert (F : forall y m d, 0 <= y <= 9999 -> two_digits m -> two_digits d -> Forall (fun c => 0 <= c < 256) (date_text y m d))
    by (intros; unfold date_text, two_digits in *; cbn [decimal app]; repeat constructor; lia).
  assert (G : forall y m d, two_digits y -> two_digits m -> two_digits d -> Forall (fun c => 0 <= c < 256) (time_text y m d))
    by (intros; unfold time_text, two_digits in *; cbn [decimal app]; repeat constructor; lia).
  split.
  - apply (proj1 (C45_dtread _ (date_text y mo d) (conj (or_introl eq_refl) (F y mo d Y ltac:(unfold two_digits; lia) ltac:(unfold two_digits; lia))))); [lia| | |reflexivity]; unfold two_digits; lia.
  - apply (proj1 (C45_tmread _ (time_text h mi s) (conj (or_introl eq_refl) (G h mi s ltac:(unfold two_digits; lia) ltac:(unfold two_digits; lia) ltac:(unfold two_digits; lia))))); [| | |reflexivity]; unfold two_digits; lia.
Qed.
Print Assumptions C45_clock.
(** 2013/09/27, 9999/99/99 (accepted, as in the original), 2013-09-27 *)
Example C45_case : date_text 2013 9 27 = [50; 48; 49; 51; 47; 48; 57; 47; 50; 55] /\
  cmd_dtread (SBc [50; 48; 49; 51; 47; 48; 57; 47; 50; 55]) = Ok (4096 * 2013, 4096 * 9, 4096 * 27) /\
  cmd_dtread (SChar [57; 57; 57; 57; 47; 57; 57; 47; 57; 57]) = Ok (4096 * 9999, 4096 * 99, 4096 * 99) /\
  cmd_dtread (SChar [50; 48; 49; 51; 45; 48; 57; 45; 50; 55]) = Err ERR_SYNTAX /\ sys_time 23 5 0 = [50; 51; 58; 48; 53; 58; 48; 48].
Proof. repeat split. Qed.
(** A date copied to MEM$ (a wide string) is rejected: its digits are the full-width ones *)
Theorem C45_wide_refuted : cmd_dtread (SWide (map to_wide (date_text 2013 9 27))) = Err ERR_SYNTAX /\ cmd_tmread (SWide (map to_wide (time_text 23 5 0))) = Err ERR_SYNTAX.
Proof. split; reflexivity. Qed.
(** and TMREAD checks the low byte but uses the whole character: U+0130 ... gives 2560 hours *)
Theorem C45_wide_value_refuted : cmd_tmread (SWide [304; 48; 58; 48; 48; 58; 48; 48]) = Ok (4096 * 2560, 0, 0).
Proof. reflexivity. Qed.

(** ** C52: WAIT n / VSYNC n, for every sequence of clock readings and every moment of a Break *)
Theorem C52_wait : forall fuel start v clock broken k, cmd_wait fuel start v clock broken = Some k ->
  (broken k = false -> v / 4096 <= clock k - start) /\ (forall j, (j < k)%nat -> clock j - start < v / 4096 /\ broken j = false).
Proof.
  intros fuel start v clock broken k E. unfold cmd_wait, FP_TO_INT in E. set (dl := v / 4096) in *. clearbody dl.
  assert (G : forall fuel i, wait_loop fuel start dl clock broken i = Some k -> (i <= k)%nat /\ (broken k = false -> dl <= clock k - start) /\ (forall j, (i <= j < k)%nat -> clock j - start < dl /\ broken j = false)).
  { clear E fuel. induction fuel as [|f IH]; intros i E; cbn [wait_loop] in E; destruct ((clock i - start <? dl) && negb (broken i)) eqn:C.
    - discriminate E.
    - injection E as <-. split; [lia|]. split; [intros B; rewrite B in C; cbn in C; lia|]. intros; lia.
    - apply IH in E. destruct E as [E1 [E2 E3]]. split; [lia|]. split; [exact E2|]. intros j J. destruct (Nat.eq_dec j i) as [-> |]; [|apply E3; lia].
      apply andb_prop in C. destruct C as [C D]. split; [lia|destruct (broken i); [discriminate D|reflexivity]].
    - injection E as <-. split; [lia|]. split; [intros B; rewrite B in C; cbn in C; lia|]. intros; lia. }
  destruct (G _ _ E) as [_ [G1 G2]]. split; [exact G1|]. intros j J. apply G2. lia.
Qed.
Print Assumptions C52_wait.
(** it does end: at a Break, and once the clock has advanced far enough *)
Theorem C52_ends : forall start v clock broken k, v / 4096 <= clock k - start \/ broken k = true -> exists fuel j, cmd_wait fuel start v clock broken = Some j /\ (j <= k)%nat.
Proof.
  intros start v clock broken k D. unfold cmd_wait, FP_TO_INT. set (dl := v / 4096) in *. clearbody dl.
  assert (G : forall n i, (k = i + n)%nat -> exists j, wait_loop n start dl clock broken i = Some j /\ (j <= k)%nat).
  { induction n as [|n IH]; intros i E; cbn [wait_loop]; destruct ((clock i - start <? dl) && negb (broken i)) eqn:C.
    - exfalso. replace i with k in C by lia. destruct D as [D|D]; [lia|rewrite D in C; cbn in C; rewrite andb_false_r in C; discriminate C].
    - exists i. split; [reflexivity|lia].
    - apply IH. lia.
    - exists i. split; [reflexivity|lia]. }
  destruct (G k 0%nat ltac:(lia)) as [j J]. exists k, j. exact J.
Qed.
Print Assumptions C52_ends.
Example C52_case : cmd_wait 10 100 (3 * 4096) (fun k => 100 + Z.of_nat k) (fun _ => false) = Some 3%nat /\
  cmd_wait 10 100 (3 * 4096) (fun k => 100 + Z.of_nat k) (fun k => Nat.eqb k 1) = Some 1%nat /\ cmd_wait 10 100 (- 4096) (fun k => 100 + Z.of_nat k) (fun _ => false) = Some 0%nat.
Proof. repeat split. Qed.
