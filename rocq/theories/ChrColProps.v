(** C40: CHRSET/CHRREAD and COLSET/COLREAD. *)
From Coq Require Import String Ascii.
From Verif Require Import Base BaseLemmas Strs StrSpec StrProofs Memory MemorySpec MemoryProps Resources ResourcesSpec ResourcesProofs ResourcesProps ChrCol.
Ltac Zify.zify_post_hook ::= Z.div_mod_to_equations.
Open Scope Z_scope.

Definition is_hex (c : Z) : Prop := exists d, hex_value c = Some d.
Definition hexv (c : Z) : Z := match hex_value c with Some d => d | None => -1 end.

Lemma hex_b : forallb (fun c => digit_value (to_wide c) =? hexv c) all_codes = true.
Proof. vm_compute. reflexivity. Qed.
Lemma digit_hex c : 0 <= c < 256 -> digit_value (to_wide c) = hexv c.
Proof. intros H. pose proof hex_b as B. rewrite forallb_forall in B. apply Z.eqb_eq, B, all_codes_in, H. Qed.
Lemma hexv_range c : is_hex c -> 0 <= hexv c < 16.
Proof.
  intros (d & E). unfold hexv. rewrite E. unfold hex_value in E.
  destruct ((48 <=? c) && (c <=? 57)) eqn:A; [injection E as <-; lia|].
  destruct ((65 <=? c) && (c <=? 70)) eqn:B; [injection E as <-; lia|discriminate E].
Qed.
Lemma hexv_not c : ~ is_hex c -> hexv c = -1.
Proof. intro N. unfold hexv. destruct (hex_value c) as [d|] eqn:E; [exfalso; apply N; exists d; exact E|reflexivity]. Qed.
Lemma hex_digit_hexv c : is_hex c -> hex_digit (hexv c) = c.
Proof.
  intros (d & E). unfold hexv. rewrite E. unfold hex_value in E.
  destruct ((48 <=? c) && (c <=? 57)) eqn:A.
  - injection E as <-. assert (c = 48 \/ c = 49 \/ c = 50 \/ c = 51 \/ c = 52 \/ c = 53 \/ c = 54 \/ c = 55 \/ c = 56 \/ c = 57) as C by lia.
    destruct C as [C|[C|[C|[C|[C|[C|[C|[C|[C|C]]]]]]]]]; subst c; reflexivity.
  - destruct ((65 <=? c) && (c <=? 70)) eqn:B; [|discriminate E]. injection E as <-.
    assert (c = 65 \/ c = 66 \/ c = 67 \/ c = 68 \/ c = 69 \/ c = 70) as C by lia.
    destruct C as [C|[C|[C|[C|[C|C]]]]]; subst c; reflexivity.
Qed.
Lemma is_hex_dec c : {is_hex c} + {~ is_hex c}.
Proof.
  unfold is_hex. destruct (hex_value c) as [d|]; [left; eauto|right; intros (d & E); discriminate E].
Qed.

(** the bytes of a character from its 64 digits: two digits a byte, the low half first *)
Fixpoint pack (cs : list Z) : list Z :=
  match cs with a :: b :: r => hexv a + 16 * hexv b :: pack r | _ => [] end.
Lemma nibbles a b : 0 <= a < 16 -> 0 <= b < 16 -> u8 (Z.lor (Z.shiftl b 4) a) = a + 16 * b.
Proof.
  intros Ha Hb.
  assert (K : forallb (fun x => forallb (fun y => u8 (Z.lor (Z.shiftl y 4) x) =? x + 16 * y) (map Z.of_nat (seq 0 16))) (map Z.of_nat (seq 0 16)) = true) by (vm_compute; reflexivity).
  assert (I : forall x, 0 <= x < 16 -> In x (map Z.of_nat (seq 0 16))).
  { intros x Hx. apply in_map_iff. exists (Z.to_nat x). split; [lia|]. apply in_seq. lia. }
  rewrite forallb_forall in K. specialize (K a (I a Ha)). cbv beta in K. rewrite forallb_forall in K. specialize (K b (I b Hb)). lia.
Qed.
Lemma skipn_two {A} (l : list A) k d : (k + 1 < length l)%nat -> skipn k l = nth k l d :: nth (k + 1) l d :: skipn (k + 2) l.
Proof.
  revert l. induction k as [|k IH]; intros l Hl.
  - destruct l as [|a [|b l]]; cbn in *; try lia. reflexivity.
  - destruct l as [|a l]; cbn in Hl; [lia|]. cbn [skipn nth plus]. rewrite IH by lia. reflexivity.
Qed.
Lemma chr_bytes_spec : forall n data cs i, spells data cs -> 0 <= i -> 2 * i + 2 * Z.of_nat n <= zlen cs ->
  let part := firstn (2 * n) (skipn (Z.to_nat (2 * i)) cs) in
  (Forall is_hex part -> chr_bytes data i n = Ok (pack part)) /\
  (~ Forall is_hex part -> chr_bytes data i n = Err ERR_ILLEGAL_FUNCTION_CALL).
Proof.
  induction n as [|n IH]; intros data cs i Hs Hi Hl part.
  - unfold part. cbn [Nat.mul firstn chr_bytes pack]. split; [reflexivity|]. intro N. exfalso. apply N. constructor.
  - cbn [chr_bytes]. rewrite (spells_at_wide data cs (2 * i) Hs) by lia. rewrite (spells_at_wide data cs (2 * i + 1) Hs) by lia. cbn [bind].
    assert (T := proj1 (spells_text _ _ Hs)).
    set (a := nth (Z.to_nat (2 * i)) cs 0). set (b := nth (Z.to_nat (2 * i + 1)) cs 0).
    assert (R : forall k, 0 <= k < zlen cs -> 0 <= nth (Z.to_nat k) cs 0 < 256).
    { intros k Hk. rewrite Forall_nth in T. apply T. unfold zlen in Hk. lia. }
    rewrite !digit_hex by (apply R; lia).
    assert (P : part = a :: b :: firstn (2 * n) (skipn (Z.to_nat (2 * (i + 1))) cs)).
    { unfold part. replace (2 * S n)%nat with (S (S (2 * n))) by lia. rewrite (skipn_two cs (Z.to_nat (2 * i)) 0) by (unfold zlen in Hl; lia).
      cbn [firstn]. unfold a, b. replace (Z.to_nat (2 * i + 1)) with (Z.to_nat (2 * i) + 1)%nat by lia.
      replace (Z.to_nat (2 * (i + 1))) with (Z.to_nat (2 * i) + 2)%nat by lia. reflexivity. }
    destruct (IH data cs (i + 1) Hs ltac:(lia) ltac:(lia)) as (I1 & I2). cbv zeta in I1, I2.
    set (rest := firstn (2 * n) (skipn (Z.to_nat (2 * (i + 1))) cs)) in *.
    assert (BAD : forall c, ~ is_hex c -> (u8 (hexv c) >? 16) = true) by (intros c Hc; rewrite hexv_not by exact Hc; reflexivity).
    assert (GOOD : forall c, is_hex c -> u8 (hexv c) = hexv c).
    { intros c Hc. apply hexv_range in Hc. unfold u8. change (2 ^ 8) with 256. apply Z.mod_small. lia. }
    rewrite P. destruct (is_hex_dec a) as [Ha|Ha].
    2:{ rewrite (BAD a Ha). cbn [orb]. split; [|reflexivity]. intro F. inversion F. contradiction. }
    destruct (is_hex_dec b) as [Hb|Hb].
    2:{ rewrite (BAD b Hb), orb_true_r. split; [|reflexivity]. intro F. inversion F as [|x l _ F']. inversion F'. contradiction. }
    rewrite (GOOD a Ha), (GOOD b Hb). assert (Va := hexv_range a Ha). assert (Vb := hexv_range b Hb).
    destruct (Z.gtb_spec (hexv a) 16); [lia|]. destruct (Z.gtb_spec (hexv b) 16); [lia|]. cbn [orb].
    split.
    + intro F. inversion F as [|x l _ F']. inversion F' as [|x' l' _ F'']. subst. rewrite (I1 F''). cbn [bind].
      rewrite nibbles by lia. reflexivity.
    + intro N. rewrite I2; [reflexivity|]. intro F. apply N. constructor; [exact Ha|]. constructor; [exact Hb|exact F].
Qed.
Lemma pack_length : forall n cs, length cs = (2 * n)%nat -> length (pack cs) = n.
Proof.
  induction n as [|n IH]; intros cs L; [destruct cs; [reflexivity|discriminate L]|].
  destruct cs as [|a [|b r]]; cbn in L; try lia. cbn [pack length]. rewrite IH; lia.
Qed.
Lemma chr_text_pack : forall n cs, length cs = (2 * n)%nat -> Forall is_hex cs -> chr_text (pack cs) = cs.
Proof.
  induction n as [|n IH]; intros cs L F; [destruct cs; [reflexivity|discriminate L]|].
  destruct cs as [|a [|b r]]; cbn in L; try lia. inversion F as [|x l Ha F']. inversion F' as [|x' l' Hb F'']. subst.
  cbn [pack chr_text]. rewrite IH by (auto; lia).
  assert (Va := hexv_range a Ha). assert (Vb := hexv_range b Hb).
  change 15 with (Z.ones 4). rewrite Z.land_ones by lia. rewrite Z.shiftr_div_pow2 by lia. change (2 ^ 4) with 16.
  replace ((hexv a + 16 * hexv b) mod 16) with (hexv a) by lia. replace ((hexv a + 16 * hexv b) / 16) with (hexv b) by lia.
  rewrite !hex_digit_hexv by assumption. reflexivity.
Qed.
Lemma overwrite_length old ofs new : 0 <= ofs -> (Z.to_nat ofs + length new <= length old)%nat -> length (overwrite old ofs new) = length old.
Proof. intros H L. unfold overwrite. rewrite !app_length, firstn_length, skipn_length. lia. Qed.
Lemma overwrite_in old ofs new : 0 <= ofs -> (Z.to_nat ofs + length new <= length old)%nat ->
  firstn (length new) (skipn (Z.to_nat ofs) (overwrite old ofs new)) = new.
Proof.
  intros H L. unfold overwrite. rewrite skipn_app.
  rewrite skipn_all2 by (rewrite firstn_length; lia). rewrite firstn_length. replace (Z.to_nat ofs - Nat.min (Z.to_nat ofs) (length old))%nat with 0%nat by lia.
  cbn [skipn app]. rewrite firstn_app, Nat.sub_diag, firstn_all. cbn [firstn]. apply app_nil_r.
Qed.
Lemma overwrite_nth old ofs new k : 0 <= ofs -> (Z.to_nat ofs + length new <= length old)%nat ->
  nth k (overwrite old ofs new) 0 = if (Z.to_nat ofs <=? k)%nat && (k <? Z.to_nat ofs + length new)%nat then nth (k - Z.to_nat ofs) new 0 else nth k old 0.
Proof.
  intros H L. unfold overwrite. set (o := Z.to_nat ofs) in *.
  assert (F : length (firstn o old) = o) by (rewrite firstn_length; lia).
  destruct (Nat.leb_spec o k) as [A|A].
  - rewrite app_nth2 by lia. rewrite F. destruct (Nat.ltb_spec k (o + length new)) as [B|B]; cbn [andb].
    + rewrite app_nth1 by lia. reflexivity.
    + rewrite app_nth2 by lia. rewrite <- (firstn_skipn (o + length new) old) at 2.
      rewrite app_nth2; rewrite firstn_length; [|lia]. f_equal. lia.
  - cbn [andb]. rewrite app_nth1 by lia. rewrite <- (firstn_skipn o old) at 2. rewrite app_nth1 by lia. reflexivity.
Qed.

Section Chr.
Context (p : pages) (t : list Z) (b : Z).
Hypothesis (Hp : page_ok p) (Ht : type_name t) (Hb : get_resource_ptr p t = Ok (Chr b)).
Lemma chr_designates : get_verified_resource_type p (SBc t) = Ok (mkInfo t [] TYPE_CHR (Chr b)).
Proof. destruct (C41_chr_partial p t Hp Ht) as (b' & E & E'). rewrite Hb in E'. injection E' as <-. exact E. Qed.
End Chr.

(** CHRSET stores the 64 digits: CHRREAD gives them back, pixel [k] of the character is digit [k], no other
    character, character set or palette changes *)
Theorem C40_chr_roundtrip : forall p t b r id data cs, page_ok p -> type_name t -> get_resource_ptr p t = Ok (Chr b) ->
  zlen (chr r b) = 8192 -> 0 <= FP_TO_INT id <= 255 -> spells data cs -> length cs = 64%nat -> Forall is_hex cs ->
  exists r', cmd_chrset p r (SBc t) id data = (r', Done) /\
    cmd_chrread p r' (SBc t) id = Ok cs /\
    (forall k, (k < 32)%nat -> nth (Z.to_nat (32 * FP_TO_INT id) + k) (chr r' b) 0 = hexv (nth (2 * k) cs 0) + 16 * hexv (nth (2 * k + 1) cs 0)) /\
    (forall b' k, b' <> b \/ ~ (32 * FP_TO_INT id <= Z.of_nat k < 32 * FP_TO_INT id + 32) -> nth k (chr r' b') 0 = nth k (chr r b') 0) /\
    (forall b', length (chr r' b') = length (chr r b')) /\ col r' = col r.
Proof.
  intros p t b r id data cs Hp Ht Hb L8 Hid Hs L64 F. unfold zlen in L8.
  assert (E := chr_designates p t b Hp Ht Hb).
  assert (CB : chr_bytes data 0 32 = Ok (pack cs)).
  { destruct (chr_bytes_spec 32 data cs 0 Hs ltac:(lia)) as (A & _); [unfold zlen; lia|].
    cbv zeta in A. change (Z.to_nat (2 * 0)) with 0%nat in A. cbn [skipn] in A. rewrite firstn_all2 in A by lia. exact (A F). }
  assert (PL : length (pack cs) = 32%nat) by (apply pack_length; lia).
  set (n := FP_TO_INT id) in *.
  assert (Fit : (Z.to_nat (32 * n) + length (pack cs) <= length (chr r b))%nat) by lia.
  exists (mkBanks (set_bank (chr r) b (overwrite (chr r b) (32 * n) (pack cs))) (col r)).
  assert (RNG : (n <? 0) || (n >? 255) = false) by lia.
  split.
  { unfold cmd_chrset. fold n. rewrite RNG. rewrite (spells_len _ _ Hs). unfold zlen. rewrite L64. change (Z.of_nat 64 =? 64) with true. cbn [negb].
    rewrite E. cbn [i_id i_data]. rewrite CB. reflexivity. }
  assert (SB : set_bank (chr r) b (overwrite (chr r b) (32 * n) (pack cs)) b = overwrite (chr r b) (32 * n) (pack cs)) by (unfold set_bank; rewrite Z.eqb_refl; reflexivity).
  split.
  { unfold cmd_chrread. fold n. rewrite RNG, E. cbn [bind i_id i_data chr]. rewrite SB. rewrite <- PL, overwrite_in by lia.
    rewrite (chr_text_pack 32) by (auto; lia). reflexivity. }
  cbn [chr col]. split; [|split; [|split; [|reflexivity]]].
  - intros k Hk. rewrite SB, overwrite_nth by lia.
    destruct (Nat.leb_spec (Z.to_nat (32 * n)) (Z.to_nat (32 * n) + k)); [|lia].
    destruct (Nat.ltb_spec (Z.to_nat (32 * n) + k) (Z.to_nat (32 * n) + length (pack cs))); [|lia]. cbn [andb].
    replace (Z.to_nat (32 * n) + k - Z.to_nat (32 * n))%nat with k by lia.
    clear - L64 Hk. revert k Hk. assert (G : forall m l, length l = (2 * m)%nat -> forall k, (k < m)%nat -> nth k (pack l) 0 = hexv (nth (2 * k) l 0) + 16 * hexv (nth (2 * k + 1) l 0)).
    { induction m as [|m IH]; intros l Ll k Hk; [lia|]. destruct l as [|x [|y l]]; cbn in Ll; try lia.
      destruct k as [|k]; [reflexivity|]. cbn [pack nth]. rewrite IH by lia.
      replace (2 * S k)%nat with (S (S (2 * k))) by lia. cbn [nth plus]. reflexivity. }
    apply (G 32%nat cs). lia.
  - intros b' k Hk. unfold set_bank. destruct (Z.eqb_spec b' b) as [->|N]; [|reflexivity].
    destruct Hk as [Hk|Hk]; [contradiction|]. rewrite overwrite_nth by lia.
    destruct (Nat.leb_spec (Z.to_nat (32 * n)) k); destruct (Nat.ltb_spec k (Z.to_nat (32 * n) + length (pack cs))); cbn [andb]; try reflexivity. exfalso. apply Hk. lia.
  - intro b'. unfold set_bank. destruct (Z.eqb_spec b' b) as [->|N]; [|reflexivity]. apply overwrite_length; lia.
Qed.
(** anything else is refused and changes nothing *)
Theorem C40_chr_reject : forall p t b r id data cs, page_ok p -> type_name t -> get_resource_ptr p t = Ok (Chr b) -> spells data cs ->
  ~ (0 <= FP_TO_INT id <= 255 /\ length cs = 64%nat /\ Forall is_hex cs) ->
  exists e, cmd_chrset p r (SBc t) id data = (r, Raised e).
Proof.
  intros p t b r id data cs Hp Ht Hb Hs N. assert (E := chr_designates p t b Hp Ht Hb). unfold cmd_chrset.
  destruct (Z.ltb_spec (FP_TO_INT id) 0); [eexists; reflexivity|]. destruct (Z.gtb_spec (FP_TO_INT id) 255); [eexists; reflexivity|]. cbn [orb].
  rewrite (spells_len _ _ Hs). destruct (Z.eqb_spec (zlen cs) 64) as [L|L]; [|eexists; reflexivity]. cbn [negb]. rewrite E. cbn [i_id i_data].
  unfold zlen in L.
  destruct (chr_bytes_spec 32 data cs 0 Hs ltac:(lia)) as (_ & B); [unfold zlen; lia|].
  cbv zeta in B. change (Z.to_nat (2 * 0)) with 0%nat in B. cbn [skipn] in B. rewrite firstn_all2 in B by lia.
  rewrite B; [eexists; reflexivity|]. intro F. apply N. split; [lia|]. split; [lia|exact F].
Qed.
(** a resource that is not a character set is refused by CHRREAD and CHRSET *)
Theorem C40_chr_other_type : forall p t r id data b, page_ok p -> type_name t -> get_resource_ptr p t = Ok b -> (forall i, b <> Chr i) ->
  (exists e, cmd_chrset p r (SBc t) id data = (r, Raised e)) /\ exists e, cmd_chrread p r (SBc t) id = Err e.
Proof.
  intros p t r id data b Hp Ht Hb N. destruct (C41_chr_partial p t Hp Ht) as (b' & E & E'). rewrite Hb in E'. injection E' as <-.
  unfold cmd_chrset, cmd_chrread. rewrite E.
  destruct (Z.ltb_spec (FP_TO_INT id) 0); [split; eexists; reflexivity|]. destruct (Z.gtb_spec (FP_TO_INT id) 255); [split; eexists; reflexivity|]. cbn [orb].
  destruct b as [i|i|i|i| |]; [exfalso; exact (N i eq_refl)| | | | |]; (split; [destruct (negb (str_len data =? 64)); eexists; reflexivity|eexists; reflexivity]).
Qed.
(** reading any character and writing it back changes nothing *)
Theorem C40_chr_read_back : forall p t b r id, page_ok p -> type_name t -> get_resource_ptr p t = Ok (Chr b) ->
  zlen (chr r b) = 8192 -> Forall (fun x => 0 <= x < 256) (chr r b) -> 0 <= FP_TO_INT id <= 255 ->
  exists cs, cmd_chrread p r (SBc t) id = Ok cs /\ length cs = 64%nat /\ Forall is_hex cs /\
    forall b' k, nth k (chr (fst (cmd_chrset p r (SBc t) id (SChar cs))) b') 0 = nth k (chr r b') 0.
Proof.
  intros p t b r id Hp Ht Hb L8 By Hid. assert (L8' := L8). unfold zlen in L8'. assert (E := chr_designates p t b Hp Ht Hb). set (n := FP_TO_INT id) in *.
  assert (RNG : (n <? 0) || (n >? 255) = false) by lia.
  set (part := firstn 32 (skipn (Z.to_nat (32 * n)) (chr r b))).
  assert (Lp : length part = 32%nat) by (unfold part; rewrite firstn_length, skipn_length; lia).
  assert (Bp : Forall (fun x => 0 <= x < 256) part).
  { unfold part. rewrite Forall_forall in *. intros x I. apply By.
    rewrite <- (firstn_skipn (Z.to_nat (32 * n)) (chr r b)). apply in_or_app. right.
    rewrite <- (firstn_skipn 32 (skipn (Z.to_nat (32 * n)) (chr r b))). apply in_or_app. left. exact I. }
  assert (T : forall l, Forall (fun x => 0 <= x < 256) l -> length (chr_text l) = (2 * length l)%nat /\ Forall is_hex (chr_text l) /\ Forall (fun c => 0 <= c < 256) (chr_text l) /\ pack (chr_text l) = l).
  { intros l Hl. induction Hl as [|x l Hx Hl (I1 & I2 & I3 & I4)]; [repeat split; constructor|].
    cbn [chr_text length pack].
    change 15 with (Z.ones 4). rewrite Z.land_ones by lia. rewrite Z.shiftr_div_pow2 by lia. change (2 ^ 4) with 16.
    assert (V1 := hex_digit_value (x mod 16) ltac:(lia)). assert (V2 := hex_digit_value (x / 16) ltac:(lia)).
    assert (H1 : is_hex (hex_digit (x mod 16))) by (eexists; exact V1). assert (H2 : is_hex (hex_digit (x / 16))) by (eexists; exact V2).
    assert (Rng : forall c, is_hex c -> 0 <= c < 256).
    { intros c (d & Ed). unfold hex_value in Ed. destruct ((48 <=? c) && (c <=? 57)) eqn:A; [lia|]. destruct ((65 <=? c) && (c <=? 70)) eqn:B; [lia|discriminate Ed]. }
    split; [lia|]. split; [auto|]. split; [auto|].
    rewrite I4. unfold hexv. rewrite V1, V2. apply f_equal2; [lia|reflexivity]. }
  destruct (T part Bp) as (T1 & T2 & T3 & T4).
  exists (chr_text part). split.
  { unfold cmd_chrread. fold n. rewrite RNG, E. reflexivity. }
  split; [lia|]. split; [exact T2|].
  assert (Sp : spells (SChar (chr_text part)) (chr_text part)) by (apply spells_schar; split; [exact T3|lia]).
  destruct (C40_chr_roundtrip p t b r id (SChar (chr_text part)) (chr_text part) Hp Ht Hb L8 Hid Sp ltac:(lia) T2) as (r' & E' & _ & P' & O' & _).
  fold n in P', O'. rewrite E'. cbn [fst]. intros b' k.
  destruct (Z.eq_dec b' b) as [->|N]; [|apply O'; left; exact N].
  destruct (Z_le_dec (32 * n) (Z.of_nat k)) as [A|A]; [|apply O'; right; lia].
  destruct (Z_lt_dec (Z.of_nat k) (32 * n + 32)) as [B|B]; [|apply O'; right; lia].
  set (j := (k - Z.to_nat (32 * n))%nat). replace k with (Z.to_nat (32 * n) + j)%nat by (unfold j; lia).
  rewrite P' by (unfold j; lia).
  assert (G : forall m l, length l = (2 * m)%nat -> forall k, (k < m)%nat -> nth k (pack l) 0 = hexv (nth (2 * k) l 0) + 16 * hexv (nth (2 * k + 1) l 0)).
  { induction m as [|m IH]; intros l Ll k0 Hk0; [lia|]. destruct l as [|x [|y l]]; cbn in Ll; try lia.
    destruct k0 as [|k0]; [reflexivity|]. cbn [pack nth]. rewrite IH by lia.
    replace (2 * S k0)%nat with (S (S (2 * k0))) by lia. cbn [nth plus]. reflexivity. }
  rewrite <- (G 32%nat) by (unfold j; lia). rewrite T4. unfold part.
  rewrite <- (firstn_skipn 32 (skipn (Z.to_nat (32 * n)) (chr r b))) in *.
  assert (Q : nth j (firstn 32 (skipn (Z.to_nat (32 * n)) (chr r b))) 0 = nth j (skipn (Z.to_nat (32 * n)) (chr r b)) 0).
  { rewrite <- (firstn_skipn 32 (skipn (Z.to_nat (32 * n)) (chr r b))) at 2. rewrite app_nth1; [reflexivity|]. fold part. unfold j. lia. }
  rewrite firstn_skipn. rewrite Q. rewrite <- (firstn_skipn (Z.to_nat (32 * n)) (chr r b)) at 2.
  rewrite app_nth2; rewrite firstn_length; [|lia]. f_equal. lia.
Qed.
Example C40_chr_ok : let cs := repeat 65 64 in
  page_ok (mkPages 1 0 0) /\ type_name (text "SPU3") /\ get_resource_ptr (mkPages 1 0 0) (text "SPU3") = Ok (Chr 15) /\
  0 <= FP_TO_INT (200 * 4096) <= 255 /\ spells (SChar cs) cs /\ length cs = 64%nat /\ Forall is_hex cs.
Proof.
  cbv zeta. split; [unfold page_ok; cbn; auto|]. split; [change (text "SPU3") with (text "SPU" ++ [48 + 3]); eapply type_bank with (n := 8); [cbn; auto 20|lia]|].
  split; [reflexivity|]. split; [vm_compute; split; congruence|]. split; [split; [split; [apply Forall_forall; intros x I; apply repeat_spec in I; lia|cbn; lia]|reflexivity]|].
  split; [reflexivity|]. apply Forall_forall. intros x I. apply repeat_spec in I. subst x. exists 10. reflexivity.
Qed.

(** ** Colours *)
Definition all_cols : list (Z * Z * Z) :=
  flat_map (fun r => flat_map (fun g => map (fun b => (r, g, b)) (map Z.of_nat (seq 0 32))) (map Z.of_nat (seq 0 64))) (map Z.of_nat (seq 0 32)).
Lemma cols_in r g b : 0 <= r < 32 -> 0 <= g < 64 -> 0 <= b < 32 -> In (r, g, b) all_cols.
Proof.
  intros Hr Hg Hb.
  assert (I : forall n x, 0 <= x < Z.of_nat n -> In x (map Z.of_nat (seq 0 n))).
  { intros n x Hx. apply in_map_iff. exists (Z.to_nat x). split; [lia|]. apply in_seq. lia. }
  unfold all_cols. apply in_flat_map. exists r. split; [apply I; lia|]. apply in_flat_map. exists g. split; [apply I; lia|].
  apply in_map_iff. exists b. split; [reflexivity|]. apply I. lia.
Qed.
Lemma cols_b : forallb (fun '(r, g, b) => let c := col_pack r g b in (0 <=? c) && (c <? 65536) &&
   (col_r c =? 8 * r + r / 4) && (col_g c =? 4 * g + g / 16) && (col_b c =? 8 * b + b / 4)) all_cols = true.
Proof. vm_compute. reflexivity. Qed.
Lemma pack_comps r g b : 0 <= r < 32 -> 0 <= g < 64 -> 0 <= b < 32 -> let c := col_pack r g b in
  0 <= c < 65536 /\ col_r c = 8 * r + r / 4 /\ col_g c = 4 * g + g / 16 /\ col_b c = 8 * b + b / 4.
Proof.
  intros Hr Hg Hb c. assert (K := cols_b). rewrite forallb_forall in K. specialize (K _ (cols_in r g b Hr Hg Hb)). cbv beta iota zeta in K. fold c in K. lia.
Qed.
Lemma comp5 a b : 0 <= a < 16 -> 0 <= b < 16 -> Z.lor (Z.shiftl a 1) (Z.shiftr b 3) = (16 * a + b) / 8.
Proof.
  intros Ha Hb.
  assert (K : forallb (fun x => forallb (fun y => Z.lor (Z.shiftl x 1) (Z.shiftr y 3) =? (16 * x + y) / 8) (map Z.of_nat (seq 0 16))) (map Z.of_nat (seq 0 16)) = true) by (vm_compute; reflexivity).
  assert (I : forall x, 0 <= x < 16 -> In x (map Z.of_nat (seq 0 16))) by (intros x Hx; apply in_map_iff; exists (Z.to_nat x); split; [lia|apply in_seq; lia]).
  rewrite forallb_forall in K. specialize (K a (I a Ha)). cbv beta in K. rewrite forallb_forall in K. specialize (K b (I b Hb)). apply Z.eqb_eq in K. exact K.
Qed.
Lemma comp6 a b : 0 <= a < 16 -> 0 <= b < 16 -> Z.lor (Z.shiftl a 2) (Z.shiftr b 2) = (16 * a + b) / 4.
Proof.
  intros Ha Hb.
  assert (K : forallb (fun x => forallb (fun y => Z.lor (Z.shiftl x 2) (Z.shiftr y 2) =? (16 * x + y) / 4) (map Z.of_nat (seq 0 16))) (map Z.of_nat (seq 0 16)) = true) by (vm_compute; reflexivity).
  assert (I : forall x, 0 <= x < 16 -> In x (map Z.of_nat (seq 0 16))) by (intros x Hx; apply in_map_iff; exists (Z.to_nat x); split; [lia|apply in_seq; lia]).
  rewrite forallb_forall in K. specialize (K a (I a Ha)). cbv beta in K. rewrite forallb_forall in K. specialize (K b (I b Hb)). apply Z.eqb_eq in K. exact K.
Qed.

(** the palette that a name means, on the current page of its layer *)
Inductive palette (p : pages) : list Z -> Z -> Prop :=
| pal_bg : palette p (text "BG") (3 * bg_page p + 0)
| pal_sp : palette p (text "SP") (3 * sp_page p + 1)
| pal_grp : palette p (text "GRP") (3 * grp_screen p + 2).
Lemma palette_col p name s i : page_ok p -> palette p name i -> spells s name -> get_col_resource p s = Ok (Col i) /\ 0 <= i < 6.
Proof.
  intros Hp P Hs. unfold get_col_resource.
  assert (B : forall n, In n ["BG"; "SP"; "GRP"]%string -> spells (SBc (zs n)) (text n)).
  { intros n [<-|[<-|[<-|[]]]]; (split; [split; [cbn; repeat constructor; lia|cbn; lia]|split; [reflexivity|cbn; lia]]). }
  destruct (str_comp_spec s _ name _ Hs (B "BG"%string ltac:(cbn; auto))) as (a & Ea & Ia).
  destruct (str_comp_spec s _ name _ Hs (B "SP"%string ltac:(cbn; auto))) as (b & Eb & Ib).
  destruct (str_comp_spec s _ name _ Hs (B "GRP"%string ltac:(cbn; auto))) as (c & Ec & Ic).
  rewrite Ea, Eb, Ec. cbn [bind]. apply in_pages in Hp.
  destruct P.
  - assert (a = true) as -> by (apply Ia; reflexivity). repeat (destruct Hp as [<-|Hp]; [split; [reflexivity|cbn; lia]|]). destruct Hp.
  - assert (a = false) as -> by (destruct a; [assert (W := proj1 Ia eq_refl); discriminate W|reflexivity]). assert (b = true) as -> by (apply Ib; reflexivity).
    repeat (destruct Hp as [<-|Hp]; [split; [reflexivity|cbn; lia]|]). destruct Hp.
  - assert (a = false) as -> by (destruct a; [assert (W := proj1 Ia eq_refl); discriminate W|reflexivity]).
    assert (b = false) as -> by (destruct b; [assert (W := proj1 Ib eq_refl); discriminate W|reflexivity]). assert (c = true) as -> by (apply Ic; reflexivity).
    repeat (destruct Hp as [<-|Hp]; [split; [reflexivity|cbn; lia]|]). destruct Hp.
Qed.
Lemma palette_none p name s : page_ok p -> (forall i, ~ palette p name i) -> spells s name -> get_col_resource p s = Err ERR_INVALID_RESOURCE_TYPE.
Proof.
  intros Hp N Hs. unfold get_col_resource.
  assert (B : forall n, In n ["BG"; "SP"; "GRP"]%string -> spells (SBc (zs n)) (text n)).
  { intros n [<-|[<-|[<-|[]]]]; (split; [split; [cbn; repeat constructor; lia|cbn; lia]|split; [reflexivity|cbn; lia]]). }
  destruct (str_comp_spec s _ name _ Hs (B "BG"%string ltac:(cbn; auto))) as (a & Ea & Ia).
  destruct (str_comp_spec s _ name _ Hs (B "SP"%string ltac:(cbn; auto))) as (b & Eb & Ib).
  destruct (str_comp_spec s _ name _ Hs (B "GRP"%string ltac:(cbn; auto))) as (c & Ec & Ic).
  rewrite Ea, Eb, Ec. cbn [bind].
  assert (a = false) as -> by (destruct a; [exfalso; rewrite (proj1 Ia eq_refl) in N; exact (N _ (pal_bg p))|reflexivity]).
  assert (b = false) as -> by (destruct b; [exfalso; rewrite (proj1 Ib eq_refl) in N; exact (N _ (pal_sp p))|reflexivity]).
  assert (c = false) as -> by (destruct c; [exfalso; rewrite (proj1 Ic eq_refl) in N; exact (N _ (pal_grp p))|reflexivity]).
  reflexivity.
Qed.

Definition byte_string (s : str) (cs : list Z) : Prop := spells s cs /\ forall w, s <> SWide w.
Lemma byte_at s cs i : byte_string s cs -> 0 <= i < zlen cs -> str_at_char s i = Ok (nth (Z.to_nat i) cs 0).
Proof.
  intros (Hs & Nw) Hi. destruct Hs as ((F & L) & E). unfold str_at_char. rewrite u16_small by (unfold zlen in Hi; lia).
  assert (Q : nth_error cs (Z.to_nat i) = Some (nth (Z.to_nat i) cs 0)) by (apply nth_error_nth'; unfold zlen in Hi; lia).
  destruct s as [b|w|b]; [subst b; rewrite Q; reflexivity|exfalso; exact (Nw w eq_refl)|destruct E as (-> & _); rewrite Q; reflexivity].
Qed.
Lemma col_check_spec : forall n s cs i, byte_string s cs -> 0 <= i -> i + Z.of_nat n <= zlen cs ->
  let part := firstn n (skipn (Z.to_nat i) cs) in
  (Forall is_hex part -> col_check s i n = Ok tt) /\ (~ Forall is_hex part -> col_check s i n = Err ERR_ILLEGAL_FUNCTION_CALL).
Proof.
  induction n as [|n IH]; intros s cs i Hs Hi Hl part.
  - unfold part. cbn [firstn col_check]. split; [reflexivity|]. intro N. exfalso. apply N. constructor.
  - cbn [col_check]. rewrite (byte_at s cs i Hs) by lia. cbn [bind]. set (c := nth (Z.to_nat i) cs 0).
    assert (Rc : 0 <= c < 256).
    { destruct Hs as (((F & _) & _) & _). rewrite Forall_nth in F. apply F. unfold zlen in Hl. lia. }
    assert (P : part = c :: firstn n (skipn (Z.to_nat (i + 1)) cs)).
    { unfold part. rewrite (skipn_cons_nth cs (Z.to_nat i) 0) by (unfold zlen in Hl; lia). cbn [firstn]. replace (Z.to_nat (i + 1)) with (S (Z.to_nat i)) by lia. reflexivity. }
    destruct (IH s cs (i + 1) Hs ltac:(lia) ltac:(lia)) as (I1 & I2). cbv zeta in I1, I2. rewrite P.
    assert (Q : (negb (is_number_char c) && negb ((c >=? 65) && (c <=? 70))) = if is_hex_dec c then false else true).
    { assert (D : is_number_char c = ((48 <=? c) && (c <=? 57))).
      { unfold is_number_char, s8. change (2 ^ 7) with 128. change (2 ^ 8) with 256. cbv zeta. destruct (Z.ltb_spec c 128); lia. }
      rewrite D. destruct (is_hex_dec c) as [(d & Ed)|N].
      - unfold hex_value in Ed. destruct ((48 <=? c) && (c <=? 57)) eqn:A; [reflexivity|]. destruct ((65 <=? c) && (c <=? 70)) eqn:B; [|discriminate Ed]. lia.
      - destruct ((48 <=? c) && (c <=? 57)) eqn:A; [exfalso; apply N; exists (c - 48); unfold hex_value; rewrite A; reflexivity|].
        destruct ((65 <=? c) && (c <=? 70)) eqn:B; [exfalso; apply N; exists (c - 55); unfold hex_value; rewrite A, B; reflexivity|]. lia. }
    rewrite Q. destruct (is_hex_dec c) as [Hc|Hc].
    + split; [intro F; inversion F; subst; auto|]. intro N. apply I2. intro F. apply N. constructor; assumption.
    + split; [intro F; inversion F; contradiction|reflexivity].
Qed.

(** COLSET "RRGGBB" sets the entry to that colour as precisely as 5, 6 and 5 bits allow: COLREAD returns
    components with the same leading bits; no other colour or character changes *)
Theorem C40_col_roundtrip : forall p name s i r n rgb d0 d1 d2 d3 d4 d5, page_ok p -> palette p name i -> spells s name ->
  length (col r i) = 256%nat -> 0 <= FP_TO_INT n <= 255 -> byte_string rgb [d0; d1; d2; d3; d4; d5] -> Forall is_hex [d0; d1; d2; d3; d4; d5] ->
  let R := 16 * hexv d0 + hexv d1 in let G := 16 * hexv d2 + hexv d3 in let B := 16 * hexv d4 + hexv d5 in
  exists r' R' G' B', cmd_colset p r s n rgb = (r', Done) /\ cmd_colread p r' s n = Ok (4096 * R', 4096 * G', 4096 * B') /\
    R' = 8 * (R / 8) + R / 32 /\ G' = 4 * (G / 4) + G / 64 /\ B' = 8 * (B / 8) + B / 32 /\
    (forall j k, j <> i \/ Z.of_nat k <> FP_TO_INT n -> nth k (col r' j) 0 = nth k (col r j) 0) /\
    (forall j, length (col r' j) = length (col r j)) /\ chr r' = chr r.
Proof.
  intros p name s i r n rgb d0 d1 d2 d3 d4 d5 Hp P Hs L Hn Hrgb F R G B.
  destruct (palette_col p name s i Hp P Hs) as (E & Hi).
  set (cs := [d0; d1; d2; d3; d4; d5]) in *.
  destruct (col_check_spec 6 rgb cs 0 Hrgb ltac:(lia)) as (CC & _); [cbn; lia|]. cbv zeta in CC. change (firstn 6 (skipn (Z.to_nat 0) cs)) with cs in CC. specialize (CC F).
  assert (Sp := proj1 Hrgb). assert (T := proj1 (spells_text _ _ Sp)).
  inversion F as [|? ? h0 F0]. inversion F0 as [|? ? h1 F1]. inversion F1 as [|? ? h2 F2]. inversion F2 as [|? ? h3 F3]. inversion F3 as [|? ? h4 F4]. inversion F4 as [|? ? h5 F5]. subst.
  assert (V0 := hexv_range _ h0). assert (V1 := hexv_range _ h1). assert (V2 := hexv_range _ h2). assert (V3 := hexv_range _ h3). assert (V4 := hexv_range _ h4). assert (V5 := hexv_range _ h5).
  assert (RNG : (FP_TO_INT n <? 0) || (FP_TO_INT n >? 255) = false) by lia.
  assert (BR : forall k, 0 <= k < 6 -> 0 <= nth (Z.to_nat k) cs 0 < 256) by (intros k Hk; rewrite Forall_nth in T; apply T; cbn; lia).
  destruct (pack_comps (R / 8) (G / 4) (B / 8)) as (PC & PR & PG & PB); [unfold R; lia|unfold G; lia|unfold B; lia|].
  set (c := col_pack (R / 8) (G / 4) (B / 8)) in *.
  exists (mkBanks (chr r) (set_bank (col r) i (upd (col r i) (Z.to_nat (FP_TO_INT n)) c))), (col_r c), (col_g c), (col_b c).
  split.
  { unfold cmd_colset. rewrite RNG, E. rewrite (spells_len _ _ Sp). change (zlen cs =? 6) with true. cbn [negb]. rewrite CC. cbn [bind].
    rewrite (spells_at_wide rgb cs 0 Sp), (spells_at_wide rgb cs 1 Sp), (spells_at_wide rgb cs 2 Sp), (spells_at_wide rgb cs 3 Sp), (spells_at_wide rgb cs 4 Sp), (spells_at_wide rgb cs 5 Sp) by (cbn; lia).
    cbn [bind]. rewrite !digit_hex by (apply BR; lia).
    change (nth (Z.to_nat 0) cs 0) with d0. change (nth (Z.to_nat 1) cs 0) with d1. change (nth (Z.to_nat 2) cs 0) with d2.
    change (nth (Z.to_nat 3) cs 0) with d3. change (nth (Z.to_nat 4) cs 0) with d4. change (nth (Z.to_nat 5) cs 0) with d5.
    rewrite !comp5, comp6 by assumption. reflexivity. }
  assert (SB : set_bank (col r) i (upd (col r i) (Z.to_nat (FP_TO_INT n)) c) i = upd (col r i) (Z.to_nat (FP_TO_INT n)) c) by (unfold set_bank; rewrite Z.eqb_refl; reflexivity).
  split.
  { unfold cmd_colread. rewrite RNG, E. cbn [bind col]. rewrite SB. rewrite nth_error_upd_same by lia. rewrite !INT_TO_FP_exact; [f_equal; f_equal; [f_equal|]; lia| | |];
    change (2 ^ 19) with 524288; unfold R, G, B in *; lia. }
  split; [rewrite PR; unfold R; lia|]. split; [rewrite PG; unfold G; lia|]. split; [rewrite PB; unfold B; lia|].
  cbn [col chr]. split; [|split; [|reflexivity]].
  - intros j k Hk. unfold set_bank. destruct (Z.eqb_spec j i) as [->|N]; [|reflexivity]. destruct Hk as [Hk|Hk]; [contradiction|]. apply nth_upd_other. lia.
  - intro j. unfold set_bank. destruct (Z.eqb_spec j i) as [->|N]; [|reflexivity]. apply upd_length.
Qed.
(** hence each component is off by at most 7, and black and white are exact *)
Theorem C40_col_precision : forall X, 0 <= X < 256 ->
  (let Y := 8 * (X / 8) + X / 32 in 0 <= Y < 256 /\ Y / 8 = X / 8 /\ Z.abs (Y - X) <= 7) /\
  (let Y := 4 * (X / 4) + X / 64 in 0 <= Y < 256 /\ Y / 4 = X / 4 /\ Z.abs (Y - X) <= 3) /\
  (X = 0 -> 8 * (X / 8) + X / 32 = 0 /\ 4 * (X / 4) + X / 64 = 0) /\
  (X = 255 -> 8 * (X / 8) + X / 32 = 255 /\ 4 * (X / 4) + X / 64 = 255).
Proof. intros X HX. cbv zeta. repeat split; lia. Qed.
(** everything else is refused without a change *)
Theorem C40_col_reject : forall p name s r n rgb cs, page_ok p -> spells s name -> byte_string rgb cs ->
  ~ ((exists i, palette p name i) /\ 0 <= FP_TO_INT n <= 255 /\ length cs = 6%nat /\ Forall is_hex cs) ->
  exists e, cmd_colset p r s n rgb = (r, Raised e).
Proof.
  intros p name s r n rgb cs Hp Hs Hrgb N. unfold cmd_colset.
  destruct (Z.ltb_spec (FP_TO_INT n) 0); [eexists; reflexivity|]. destruct (Z.gtb_spec (FP_TO_INT n) 255); [eexists; reflexivity|]. cbn [orb].
  assert (D : (exists i, palette p name i) \/ forall i, ~ palette p name i).
  { destruct (list_eqb name (text "BG")) eqn:A; [apply list_eqb_eq in A; subst; left; eexists; constructor|].
    destruct (list_eqb name (text "SP")) eqn:B; [apply list_eqb_eq in B; subst; left; eexists; constructor|].
    destruct (list_eqb name (text "GRP")) eqn:C; [apply list_eqb_eq in C; subst; left; eexists; constructor|].
    right. intros i P. destruct P; [discriminate A|discriminate B|discriminate C]. }
  destruct D as [(i & P)|D]; [|rewrite (palette_none p name s Hp D Hs); eexists; reflexivity].
  destruct (palette_col p name s i Hp P Hs) as (E & Hi). rewrite E. rewrite (spells_len _ _ (proj1 Hrgb)).
  destruct (Z.eqb_spec (zlen cs) 6) as [L|L]; [|eexists; reflexivity]. cbn [negb].
  destruct (col_check_spec 6 rgb cs 0 Hrgb ltac:(lia)) as (_ & CC); [cbn; lia|]. cbv zeta in CC.
  change (Z.to_nat 0) with 0%nat in CC. cbn [skipn] in CC. rewrite firstn_all2 in CC by (unfold zlen in L; lia).
  rewrite CC; [eexists; reflexivity|]. intro F. apply N. split; [eexists; exact P|]. split; [lia|]. split; [unfold zlen in L; lia|exact F].
Qed.
(** the components read back identify the stored colour *)
Theorem C40_col_read_back : forall r g b, 0 <= r < 32 -> 0 <= g < 64 -> 0 <= b < 32 ->
  let c := col_pack r g b in col_r c / 8 = r /\ col_g c / 4 = g /\ col_b c / 8 = b.
Proof. intros r g b Hr Hg Hb c. destruct (pack_comps r g b Hr Hg Hb) as (_ & A & B & C). fold c in A, B, C. lia. Qed.
Example C40_col_ok : page_ok (mkPages 0 1 0) /\ palette (mkPages 0 1 0) (text "SP") 4 /\ byte_string (SBc (text "FF8013")) (text "FF8013") /\ Forall is_hex (text "FF8013").
Proof.
  split; [unfold page_ok; cbn; auto|]. split; [exact (pal_sp (mkPages 0 1 0))|]. split.
  - split; [split; [split; [cbn; repeat constructor; lia|cbn; lia]|split; [reflexivity|cbn; lia]]|intros w W; discriminate W].
  - cbn. repeat constructor; eexists; reflexivity.
Qed.
(** MEM$ can hold the same text but is refused as a colour: its characters are compared as wide codes *)
Theorem C40_col_mem_refuted : exists rgb, spells rgb (text "FF8013") /\
  forall p r, page_ok p -> cmd_colset p r (SBc (text "BG")) 0 rgb = (r, Raised ERR_ILLEGAL_FUNCTION_CALL).
Proof.
  exists (SWide (map to_wide (text "FF8013"))). split.
  - split; [split; [cbn; repeat constructor; lia|cbn; lia]|reflexivity].
  - intros p r Hp. apply in_pages in Hp. repeat (destruct Hp as [<-|Hp]; [reflexivity|]). destruct Hp.
Qed.
Print Assumptions C40_chr_roundtrip.
Print Assumptions C40_col_roundtrip.
