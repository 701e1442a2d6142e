From Verif Require Import Base BaseLemmas Compress CompressSpec.
Open Scope Z_scope.
Ltac Zify.zify_post_hook ::= Z.div_mod_to_equations.

Lemma at_byte l i : bytes l -> byte (at_ l i).
Proof.
  intros H. unfold at_. destruct (nth_in_or_default (Z.to_nat i) l 0) as [I|I].
  - eapply Forall_forall in H; eauto.
  - rewrite I. unfold byte. lia.
Qed.
Lemma at_upd l i j x : 0 <= i < Z.of_nat (length l) -> 0 <= j -> at_ (upd l (Z.to_nat i) x) j = if j =? i then x else at_ l j.
Proof.
  intros Hi Hj. unfold at_. destruct (j =? i) eqn:E.
  - replace j with i by lia. apply nth_upd_same. lia.
  - apply nth_upd_other. lia.
Qed.
Lemma Forall_upd' {A} (P : A -> Prop) l i x : Forall P l -> P x -> Forall P (upd l i x).
Proof. intros H Hx. revert i. induction H; intros [|i]; simpl; constructor; auto. Qed.
Lemma byte_lor a b : byte a -> byte b -> byte (Z.lor a b).
Proof.
  unfold byte. intros Ha Hb. split; [apply Z.lor_nonneg; lia|].
  destruct (Z.eq_dec (Z.lor a b) 0) as [->|N]; [lia|].
  assert (0 < Z.lor a b) by (pose proof (proj2 (Z.lor_nonneg a b)); lia).
  change 256 with (2 ^ 8). apply Z.log2_lt_pow2; [lia|]. rewrite Z.log2_lor by lia.
  assert (Z.log2 a < 8 /\ Z.log2 b < 8).
  { split; (destruct (Z.eq_dec a 0) as [->|]; [simpl; try lia|]); try (destruct (Z.eq_dec b 0) as [->|]; [simpl; lia|]);
      apply Z.log2_lt_pow2; simpl; lia. }
  lia.
Qed.

(** writing *)
Lemma write_bits_spec buf idx v n : bytes buf -> 0 <= idx -> 0 <= n <= 8 -> 0 <= v < 2 ^ n ->
  match write_bits buf idx v n with
  | Ok buf' => length buf' = length buf /\ bytes buf' /\ idx / 8 + 1 < Z.of_nat (length buf) /\
      forall k, 0 <= k -> getbit buf' k =
        getbit buf k || ((idx <=? k) && (k <? idx + n) && Z.testbit v (n - 1 - (k - idx)))
  | Err _ => False
  | UB => Z.of_nat (length buf) <= idx / 8 + 1
  end.
Proof.
  intros B Hi Hn Hv. unfold write_bits. set (q := idx / 8). set (sh := 8 - idx mod 8 + (8 - n)). set (w := v * 2 ^ sh).
  assert (Hm : 0 <= idx mod 8 < 8) by (apply Z.mod_pos_bound; lia).
  assert (Hq : 0 <= q) by (unfold q; apply Z.div_pos; lia).
  assert (Hsh : 0 <= sh <= 16) by (unfold sh; lia).
  assert (Wr : 0 <= w < 65536).
  { unfold w. split; [apply Z.mul_nonneg_nonneg; [lia|apply Z.pow_nonneg; lia]|].
    apply Z.lt_le_trans with (2 ^ n * 2 ^ sh).
    - apply Z.mul_lt_mono_pos_r; [apply Z.pow_pos_nonneg; lia|lia].
    - rewrite <- Z.pow_add_r by lia. change 65536 with (2 ^ 16). apply Z.pow_le_mono_r; [lia|]. unfold sh. lia. }
  assert (Bit : forall j, 0 <= j -> Z.testbit w j = (sh <=? j) && Z.testbit v (j - sh)).
  { intros j Hj. unfold w. rewrite Z.mul_pow2_bits by lia. destruct (sh <=? j) eqn:E; [reflexivity|].
    simpl. apply Z.testbit_neg_r. lia. }
  assert (Vb : forall j, n <= j -> Z.testbit v j = false).
  { intros j Hj. destruct (Z.eq_dec v 0) as [->|]; [apply Z.bits_0|]. apply Z.bits_above_log2; [lia|].
    apply Z.lt_le_trans with n; [|lia]. apply Z.log2_lt_pow2; lia. }
  destruct (q + 1 <? Z.of_nat (length buf)) eqn:G; [|lia].
  rewrite !upd_length. split; [reflexivity|].
  pose proof (at_byte buf q B) as Bq. pose proof (at_byte buf (q + 1) B) as Bq1.
  set (b1 := upd buf (Z.to_nat q) _). assert (L1 : length b1 = length buf) by (unfold b1; apply upd_length).
  assert (A1 : at_ b1 (q + 1) = at_ buf (q + 1)).
  { unfold b1. rewrite at_upd by lia. replace (q + 1 =? q) with false by lia. reflexivity. }
  rewrite A1.
  assert (B1 : bytes b1).
  { unfold b1. apply Forall_upd'; [exact B|]. apply byte_lor; [exact Bq|]. unfold byte. lia. }
  split. { apply Forall_upd'; [exact B1|]. apply byte_lor; [exact Bq1|]. unfold byte. lia. }
  split; [lia|]. intros k Hk. unfold getbit at 1. rewrite at_upd by lia.
  assert (Hk8 : 0 <= k mod 8 < 8) by (apply Z.mod_pos_bound; lia).
  assert (Kd : k = 8 * (k / 8) + k mod 8) by (apply Z.div_mod; lia).
  assert (Id : idx = 8 * q + idx mod 8) by (apply Z.div_mod; lia).
  assert (Pick : forall a b c : bool, b = c -> a || b = a || c) by (intros; congruence).
  destruct (k / 8 =? q + 1) eqn:E1.
  - rewrite Z.lor_spec. unfold getbit. replace (k / 8) with (q + 1) by lia. apply Pick.
    change 256 with (2 ^ 8). rewrite Z.mod_pow2_bits_low by lia. rewrite Bit by lia.
    replace (7 - k mod 8 - sh) with (n - 1 - (k - idx)) by (unfold sh; lia).
    replace (idx <=? k) with true by lia. cbn [andb].
    destruct (sh <=? 7 - k mod 8) eqn:E2; destruct (k <? idx + n) eqn:E3; cbn [andb]; try reflexivity; exfalso; clear - E2 E3 Id Kd E1 Hm Hk8 Hsh; unfold sh in *; clear sh Hsh; lia.
  - unfold b1. rewrite at_upd by lia. destruct (k / 8 =? q) eqn:E2.
    + rewrite Z.lor_spec. unfold getbit. replace (k / 8) with q by lia. apply Pick.
      change 256 with (2 ^ 8). rewrite Z.div_pow2_bits by lia. rewrite Bit by lia.
      replace (7 - k mod 8 + 8 - sh) with (n - 1 - (k - idx)) by (unfold sh; lia).
      destruct (idx <=? k) eqn:E4; cbn [andb].
      * destruct (sh <=? 7 - k mod 8 + 8) eqn:E5; destruct (k <? idx + n) eqn:E3; cbn [andb]; try reflexivity; exfalso; clear - E2 E3 E4 E5 Id Kd E1 Hm Hk8 Hsh; unfold sh in *; clear sh Hsh; lia.
      * rewrite Vb by lia. apply andb_false_r.
    + unfold getbit. destruct (getbit buf k) eqn:Q; unfold getbit in Q; rewrite Q; [reflexivity|].
      destruct ((idx <=? k) && (k <? idx + n)) eqn:E6; [|reflexivity]. exfalso. lia.
Qed.

(** reading *)
Lemma read_bits_spec mem src idx n : bytes mem -> 0 <= src -> 0 <= idx -> 0 <= n <= 8 ->
  src + (idx + Z.max 0 (n - 1)) / 8 < Z.of_nat (length mem) ->
  exists v, read_bits mem src idx n = Ok v /\ 0 <= v < 2 ^ n /\
    forall j, 0 <= j < n -> Z.testbit v j = getbit mem (8 * src + idx + (n - 1 - j)).
Proof.
  intros B Hs Hi Hn Len. unfold read_bits.
  set (q := src + idx / 8). set (b := idx mod 8).
  assert (Hm : 0 <= b < 8) by (apply Z.mod_pos_bound; lia).
  assert (Id : idx = 8 * (idx / 8) + b) by (apply Z.div_mod; lia).
  assert (Hq : 0 <= idx / 8) by (apply Z.div_pos; lia).
  assert (P2 : 0 < 2 ^ n) by (apply Z.pow_pos_nonneg; lia).
  assert (Idx : forall j, 0 <= j < n -> (8 * src + idx + (n - 1 - j)) / 8 = q + (b + (n - 1 - j)) / 8 /\
                          (8 * src + idx + (n - 1 - j)) mod 8 = (b + (n - 1 - j)) mod 8).
  { intros j Hj. unfold q. lia. }
  destruct (b + n <=? 8) eqn:E.
  - replace ((0 <=? q) && (q <? Z.of_nat (length mem))) with true by (unfold q; lia).
    eexists. split; [reflexivity|]. split; [apply Z.mod_pos_bound; lia|].
    intros j Hj. rewrite Z.mod_pow2_bits_low by lia. rewrite Z.div_pow2_bits by lia.
    unfold getbit. destruct (Idx j Hj) as [-> ->].
    replace ((b + (n - 1 - j)) / 8) with 0 by lia. rewrite Z.add_0_r. f_equal. lia.
  - replace ((0 <=? q) && (q <? Z.of_nat (length mem)) && ((0 <=? q + 1) && (q + 1 <? Z.of_nat (length mem)))) with true by (unfold q; lia).
    eexists. split; [reflexivity|]. split; [apply Z.mod_pos_bound; lia|].
    intros j Hj. rewrite Z.mod_pow2_bits_low by lia. rewrite Z.div_pow2_bits by lia.
    unfold getbit. destruct (Idx j Hj) as [-> ->].
    pose proof (at_byte mem (q + 1) B) as B1. unfold byte in B1.
    set (p := j + (16 - b - n)).
    destruct (Z_lt_ge_dec p 8) as [Lt|Ge].
    + replace ((b + (n - 1 - j)) / 8) with 1 by (unfold p in *; lia).
      rewrite <- (Z.mod_pow2_bits_low _ 8 p) by lia. change (2 ^ 8) with 256.
      replace ((at_ mem q * 256 + at_ mem (q + 1)) mod 256) with (at_ mem (q + 1)) by lia.
      f_equal. unfold p in *. lia.
    + replace ((b + (n - 1 - j)) / 8) with 0 by (unfold p in *; lia). rewrite Z.add_0_r.
      replace p with ((p - 8) + 8) by lia. rewrite <- Z.div_pow2_bits by lia. change (2 ^ 8) with 256.
      replace ((at_ mem q * 256 + at_ mem (q + 1)) / 256) with (at_ mem q) by lia.
      f_equal. unfold p in *. lia.
Qed.

Lemma cache_search_spec x cache i c : cache_search x cache i = Some c ->
  i <= c < i + Z.of_nat (length cache) /\ at_ cache (c - i) = x.
Proof.
  revert i. induction cache as [|h t IH]; simpl; intros i H; [discriminate|].
  destruct (x =? h) eqn:E.
  - injection H as <-. split; [lia|]. rewrite Z.sub_diag. unfold at_. simpl. lia.
  - apply IH in H. destruct H as [R A]. split; [lia|]. revert A. unfold at_.
    replace (Z.to_nat (c - i)) with (S (Z.to_nat (c - (i + 1)))) by lia. simpl. auto.
Qed.
Lemma msb_bits_length n v : 0 <= n -> Z.of_nat (length (msb_bits n v)) = n.
Proof. intros. unfold msb_bits. rewrite map_length, seq_length. lia. Qed.
Lemma msb_bits_nth n v j : 0 <= j < n -> nth (Z.to_nat j) (msb_bits n v) false = Z.testbit v (n - 1 - j).
Proof.
  intros H. unfold msb_bits.
  rewrite nth_indep with (d' := Z.testbit v (n - 1 - Z.of_nat 0)) by (rewrite map_length, seq_length; lia).
  change (Z.testbit v (n - 1 - Z.of_nat 0)) with ((fun j => Z.testbit v (n - 1 - Z.of_nat j)) 0%nat).
  rewrite map_nth. rewrite seq_nth by lia. f_equal. lia.
Qed.

Lemma stream_app buf k l1 l2 : stream buf k (l1 ++ l2) <-> stream buf k l1 /\ stream buf (k + Z.of_nat (length l1)) l2.
Proof.
  unfold stream. rewrite app_length. split.
  - intros H. split; intros j Hj.
    + rewrite H by lia. apply app_nth1. lia.
    + rewrite <- Z.add_assoc. rewrite H by lia. rewrite app_nth2 by lia. f_equal. lia.
  - intros [H1 H2] j Hj. destruct (Z_lt_ge_dec j (Z.of_nat (length l1))).
    + rewrite H1 by lia. symmetry. apply app_nth1. lia.
    + replace (k + j) with (k + Z.of_nat (length l1) + (j - Z.of_nat (length l1))) by lia.
      rewrite H2 by lia. rewrite app_nth2 by lia. f_equal. lia.
Qed.
Lemma stream_one buf k b : stream buf k [b] <-> getbit buf k = b.
Proof.
  unfold stream. simpl. split.
  - intros H. specialize (H 0 ltac:(lia)). rewrite Z.add_0_r in H. exact H.
  - intros H j Hj. replace j with 0 by lia. rewrite Z.add_0_r. exact H.
Qed.

(** one write into cleared space *)
Lemma write_clear buf idx v n top : bytes buf -> 0 <= idx -> 0 <= n <= 8 -> 0 <= v < 2 ^ n ->
  idx / 8 + 1 < Z.of_nat (length buf) -> (forall k, idx <= k < top -> getbit buf k = false) ->
  exists buf', write_bits buf idx v n = Ok buf' /\ length buf' = length buf /\ bytes buf' /\
    (forall k, idx + n <= k < top -> getbit buf' k = false) /\
    (forall k, 0 <= k < idx -> getbit buf' k = getbit buf k) /\
    (idx + n <= top -> stream buf' idx (msb_bits n v)).
Proof.
  intros B Hi Hn Hv L Z0. pose proof (write_bits_spec buf idx v n B Hi Hn Hv) as W.
  destruct (write_bits buf idx v n) as [buf'| |]; [|contradiction|lia].
  destruct W as (W1 & W2 & _ & W3). exists buf'. split; [reflexivity|]. split; [exact W1|]. split; [exact W2|].
  split; [|split].
  - intros k Hk. rewrite W3 by lia. rewrite Z0 by lia. replace (k <? idx + n) with false by lia.
    rewrite andb_false_r. reflexivity.
  - intros k Hk. rewrite W3 by lia. replace (idx <=? k) with false by lia. apply orb_false_r.
  - intros T j Hj. rewrite msb_bits_length in Hj by lia. rewrite W3 by lia. rewrite Z0 by lia.
    rewrite msb_bits_nth by lia. replace (idx <=? idx + j) with true by lia. replace (idx + j <? idx + n) with true by lia.
    cbn [andb orb]. f_equal. lia.
Qed.

Lemma bytes_of_bits_lt idx n : 0 <= idx -> (bytes_of_bits idx < n <-> idx <= 8 * (n - 1)).
Proof. intros H. unfold bytes_of_bits. destruct (idx mod 8 =? 0) eqn:E; lia. Qed.

Definition cache_ok (bits : Z) (cache : list Z) (next : Z) : Prop :=
  0 <= bits <= 7 /\ Z.of_nat (length cache) = 2 ^ bits /\ 0 <= next < 2 ^ bits.
Lemma cache_ok_upd bits cache next x : cache_ok bits cache next ->
  cache_ok bits (upd cache (Z.to_nat next) x) ((next + 1) mod 2 ^ bits).
Proof. intros (B & L & N). split; [exact B|]. rewrite upd_length. split; [exact L|]. apply Z.mod_pos_bound. lia. Qed.
Lemma cache_ok_init bits : 0 <= bits <= 7 -> cache_ok bits (init_cache bits) 0.
Proof.
  intros H. assert (0 < 2 ^ bits) by (apply Z.pow_pos_nonneg; lia).
  split; [exact H|]. unfold init_cache. rewrite map_length, seq_length. lia.
Qed.

Lemma compress_loop_spec size bits : 0 <= bits <= 7 -> forall src cache next idx buf,
  cache_ok bits cache next -> bytes src -> bytes buf -> 0 <= idx ->
  size + 1 <= Z.of_nat (length buf) -> (forall k, idx <= k < 8 * size -> getbit buf k = false) ->
  exists idx' buf', compress_loop src size bits 8 cache next idx buf = Ok (idx', buf') /\
    length buf' = length buf /\ bytes buf' /\
    (forall k, 0 <= k < idx -> getbit buf' k = getbit buf k) /\
    let total := idx + Z.of_nat (length (encode bits src cache next)) in
    if total <=? 8 * (size - 1)
    then idx' = total /\ stream buf' idx (encode bits src cache next)
    else 8 * (size - 1) < idx' /\ idx <= idx'.
Proof.
  intros Hb. induction src as [|x t IH]; intros cache next idx buf CO Bs Bb Hi Len Zr.
  - exists idx, buf. cbn [compress_loop encode length]. split; [reflexivity|]. split; [reflexivity|]. split; [exact Bb|].
    split; [reflexivity|]. cbv zeta. rewrite Z.add_0_r. destruct (idx <=? 8 * (size - 1)) eqn:E; [|lia].
    split; [reflexivity|]. intros j Hj. simpl in Hj. lia.
  - inversion Bs as [|? ? Bx Bt]; subst. cbn [compress_loop encode].
    destruct (bytes_of_bits idx <? size) eqn:E.
    2:{ exists idx, buf. split; [reflexivity|]. split; [reflexivity|]. split; [exact Bb|]. split; [reflexivity|].
        assert (8 * (size - 1) < idx) by (pose proof (bytes_of_bits_lt idx size Hi); lia).
        cbv zeta. destruct (_ <=? _) eqn:E2; lia. }
    assert (Hidx : idx <= 8 * (size - 1)) by (apply bytes_of_bits_lt; lia).
    assert (Step : forall flag n v cache' next' rest, 0 <= n <= 8 -> 0 <= v < 2 ^ n -> 0 <= flag < 2 ^ 1 ->
      cache_ok bits cache' next' -> rest = encode bits t cache' next' ->
      exists idx' buf',
        (let* buf0 := write_bits buf idx flag 1 in
         let* buf1 := write_bits buf0 (idx + 1) v n in
         compress_loop t size bits 8 cache' next' (idx + 1 + n) buf1) = Ok (idx', buf') /\
        length buf' = length buf /\ bytes buf' /\ (forall k, 0 <= k < idx -> getbit buf' k = getbit buf k) /\
        let total := idx + Z.of_nat (length (Z.testbit flag 0 :: msb_bits n v ++ rest)) in
        if total <=? 8 * (size - 1) then idx' = total /\ stream buf' idx (Z.testbit flag 0 :: msb_bits n v ++ rest)
        else 8 * (size - 1) < idx' /\ idx <= idx').
    { intros flag n v cache' next' rest Hn Hv Hf CO' ->.
      destruct (write_clear buf idx flag 1 (8 * size) Bb Hi ltac:(lia) Hf ltac:(lia) Zr) as (b1 & -> & L1 & B1 & Z1 & P1 & S1).
      cbn [bind].
      destruct (write_clear b1 (idx + 1) v n (8 * size) B1 ltac:(lia) Hn Hv ltac:(lia) ltac:(intros; apply Z1; lia)) as (b2 & -> & L2 & B2 & Z2 & P2 & S2).
      cbn [bind].
      destruct (IH cache' next' (idx + 1 + n) b2 CO' Bt B2 ltac:(lia) ltac:(lia) Z2) as (idx' & buf' & -> & L3 & B3 & P3 & F).
      exists idx', buf'. split; [reflexivity|]. split; [lia|]. split; [exact B3|].
      split. { intros k Hk. rewrite P3 by lia. rewrite P2 by lia. apply P1. lia. }
      cbv zeta in *. cbn [length]. rewrite app_length. rewrite Nat2Z.inj_succ, Nat2Z.inj_add, msb_bits_length by lia.
      replace (idx + Z.succ (n + Z.of_nat (length (encode bits t cache' next')))) with
        (idx + 1 + n + Z.of_nat (length (encode bits t cache' next'))) by lia.
      destruct (_ <=? _) eqn:T; [|lia]. destruct F as [-> St]. split; [reflexivity|].
      change (Z.testbit flag 0 :: msb_bits n v ++ encode bits t cache' next') with ([Z.testbit flag 0] ++ msb_bits n v ++ encode bits t cache' next').
      apply stream_app. split.
      { apply stream_one. rewrite P3 by lia. rewrite P2 by lia. specialize (S1 ltac:(lia)).
        specialize (S1 0). rewrite msb_bits_length in S1 by lia. specialize (S1 ltac:(lia)).
        rewrite Z.add_0_r in S1. rewrite S1. rewrite msb_bits_nth by lia. reflexivity. }
      apply stream_app. change (Z.of_nat (length [Z.testbit flag 0])) with 1. split.
      { intros j Hj. rewrite msb_bits_length in Hj by lia. rewrite P3 by lia. apply S2; [lia|]. rewrite msb_bits_length by lia. lia. }
      rewrite msb_bits_length by lia. exact St. }
    destruct CO as (CB & CL & CN).
    destruct (cache_search x cache 0) as [c|] eqn:CS.
    + apply cache_search_spec in CS. destruct CS as [CR _].
      apply (Step 0 bits c cache next); [lia|lia|lia|split; auto|reflexivity].
    + apply (Step 1 8 x); [lia|exact Bx|lia|apply cache_ok_upd; split; auto|reflexivity].
Qed.

Lemma bytes_repeat0 n : bytes (repeat 0 n).
Proof. induction n; simpl; constructor; auto. unfold byte. lia. Qed.
Lemma bytes_app a b : bytes a -> bytes b -> bytes (a ++ b).
Proof. intros. apply Forall_app; auto. Qed.
Lemma bytes_skipn n l : bytes l -> bytes (skipn n l).
Proof. intros H. apply Forall_forall. intros x I. eapply Forall_forall in H; eauto. rewrite <- (firstn_skipn n l). apply in_or_app. auto. Qed.
Lemma bytes_firstn n l : bytes l -> bytes (firstn n l).
Proof. intros H. apply Forall_forall. intros x I. eapply Forall_forall in H; eauto. rewrite <- (firstn_skipn n l). apply in_or_app. auto. Qed.

Lemma bytes_of_bits_ceil n : 0 <= n -> (n + 7) / 8 = bytes_of_bits n.
Proof. intros H. unfold bytes_of_bits. destruct (n mod 8 =? 0) eqn:E; lia. Qed.

Lemma compress_spec src out bits : 0 <= bits <= 7 -> bytes src -> bytes out ->
  (length src + 1 <= length out)%nat ->
  exists out', compress src out bits 8 =
      Ok (if packed_size bits src <? Z.of_nat (length src) then Some (packed_size bits src) else None, out') /\
    length out' = length out /\ bytes out' /\
    (packed_size bits src < Z.of_nat (length src) -> stream out' 0 (encode bits src (init_cache bits) 0)).
Proof.
  intros Hb Bs Bo L. unfold compress, packed_size, cost. rewrite firstn_all. rewrite bytes_of_bits_ceil by lia.
  set (enc := encode bits src (init_cache bits) 0).
  set (o := repeat 0 (length src) ++ skipn (length src) out).
  assert (Lo : length o = length out) by (unfold o; rewrite app_length, repeat_length, skipn_length; lia).
  destruct (compress_loop_spec (Z.of_nat (length src)) bits Hb src (init_cache bits) 0 0 o) as (idx & o' & -> & L' & B' & _ & F).
  - apply cache_ok_init; exact Hb.
  - exact Bs.
  - unfold o. apply bytes_app; [apply bytes_repeat0|apply bytes_skipn; exact Bo].
  - lia.
  - lia.
  - intros k Hk. unfold getbit, o, at_. rewrite app_nth1 by (rewrite repeat_length; lia). rewrite nth_repeat. apply Z.bits_0.
  - cbn [bind]. exists o'. cbv zeta in F. rewrite Z.add_0_l in F. fold enc in F.
    assert (Q : forall n, 0 <= n -> (bytes_of_bits n <? Z.of_nat (length src)) = (n <=? 8 * (Z.of_nat (length src) - 1))).
    { intros n Hn. pose proof (bytes_of_bits_lt n (Z.of_nat (length src)) Hn). lia. }
    pose proof (Q (Z.of_nat (length enc)) ltac:(lia)) as Q1.
    destruct (Z.of_nat (length enc) <=? 8 * (Z.of_nat (length src) - 1)) eqn:E.
    + destruct F as [-> St]. rewrite Q1. replace (_ >=? _) with false by lia. split; [reflexivity|]. split; [lia|]. split; [exact B'|]. intros _. exact St.
    + rewrite Q1. pose proof (Q idx ltac:(lia)). replace (_ >=? _) with true by lia. split; [reflexivity|]. split; [lia|]. split; [exact B'|]. lia.
Qed.

(** decoding *)
Lemma getbit_upd mem a x k : 0 <= a < Z.of_nat (length mem) -> 0 <= k -> k / 8 <> a -> getbit (upd mem (Z.to_nat a) x) k = getbit mem k.
Proof. intros Ha Hk N. unfold getbit. rewrite at_upd by lia. replace (k / 8 =? a) with false by lia. reflexivity. Qed.

Lemma bits_eq_msb v n w : 0 <= n -> 0 <= v < 2 ^ n -> 0 <= w < 2 ^ n -> (forall j, 0 <= j < n -> Z.testbit v j = Z.testbit w j) -> v = w.
Proof.
  intros Hn Hv Hw H. apply Z.bits_inj'. intros j Hj. destruct (Z_lt_ge_dec j n); [apply H; lia|].
  rewrite <- (Z.mod_small v (2 ^ n)), <- (Z.mod_small w (2 ^ n)) by lia. rewrite !Z.mod_pow2_bits_high by lia. reflexivity.
Qed.
Lemma read_stream mem src idx n v : bytes mem -> 0 <= src -> 0 <= idx -> 0 <= n <= 8 -> 0 <= v < 2 ^ n ->
  src + (idx + Z.max 0 (n - 1)) / 8 < Z.of_nat (length mem) -> stream mem (8 * src + idx) (msb_bits n v) ->
  read_bits mem src idx n = Ok v.
Proof.
  intros B Hs Hi Hn Hv L St. destruct (read_bits_spec mem src idx n B Hs Hi Hn L) as (w & -> & Hw & T).
  f_equal. apply bits_eq_msb with n; auto; [lia|]. intros j Hj. rewrite T by lia.
  specialize (St (n - 1 - j)). rewrite msb_bits_length in St by lia. specialize (St ltac:(lia)).
  rewrite <- Z.add_assoc in St |- *. rewrite St. rewrite msb_bits_nth by lia. f_equal. lia.
Qed.

(** Address of the first byte that is still to be read after [i] output bytes, given that
    the data starts at bit [k]. *)
Definition safe_writes (bits : Z) (xs cache : list Z) (next k w : Z) : Prop :=
  forall i, (S i < length xs)%nat ->
    8 * (w + Z.of_nat i + 1) <= k + Z.of_nat (length (encode bits (firstn (S i) xs) cache next)) \/
    k + Z.of_nat (length (encode bits xs cache next)) <= 8 * (w + Z.of_nat i).

Lemma encode_cons_length_firstn bits x t cache next i :
  length (encode bits (firstn (S i) (x :: t)) cache next) =
  (length (encode bits [x] cache next) +
   match cache_search x cache 0 with Some _ => length (encode bits (firstn i t) cache next)
   | None => length (encode bits (firstn i t) (upd cache (Z.to_nat next) x) ((next + 1) mod 2 ^ bits)) end)%nat.
Proof. cbn [firstn encode]. destruct (cache_search x cache 0); cbn [length]; rewrite !app_length; cbn [encode length]; lia. Qed.

Lemma decompress_loop_spec bits src dst : 0 <= bits <= 7 -> 0 <= src -> 0 <= dst -> forall xs cache next i idx mem,
  cache_ok bits cache next -> bytes xs -> bytes mem -> 0 <= i -> 0 <= idx ->
  dst + i + Z.of_nat (length xs) <= Z.of_nat (length mem) ->
  8 * src + idx + Z.of_nat (length (encode bits xs cache next)) + (if bits =? 0 then 1 else 0) <= 8 * Z.of_nat (length mem) ->
  stream mem (8 * src + idx) (encode bits xs cache next) ->
  safe_writes bits xs cache next (8 * src + idx) (dst + i) ->
  exists mem', decompress_loop (length xs) mem src dst i bits cache next idx = Ok mem' /\
    length mem' = length mem /\ bytes mem' /\
    (forall j, 0 <= j -> at_ mem' j = if (dst + i <=? j) && (j <? dst + i + Z.of_nat (length xs))
                                      then at_ xs (j - dst - i) else at_ mem j).
Proof.
  intros Hb Hs Hd. induction xs as [|x t IH]; intros cache next i idx mem CO Bx Bm Hi Hidx Ld Ls St Sf.
  - exists mem. cbn [length decompress_loop]. repeat split; auto. intros j Hj.
    replace (_ && _) with false by lia. reflexivity.
  - inversion Bx as [|? ? Bx0 Bt]; subst.
    assert (CO' := CO). destruct CO' as (_ & CL & CN).
    cbn [length] in Ld |- *. cbn [decompress_loop].
    assert (Wr : (0 <=? dst + i) && (dst + i <? Z.of_nat (length mem)) = true) by lia.
    set (mem1 := upd mem (Z.to_nat (dst + i)) x).
    assert (L1 : length mem1 = length mem) by apply upd_length.
    assert (B1 : bytes mem1) by (apply Forall_upd'; auto).
    assert (Step : forall flag n v cache' next', 0 <= n <= 8 -> 0 <= v < 2 ^ n -> cache_ok bits cache' next' ->
      (n = 0 -> bits = 0) ->
      encode bits (x :: t) cache next = flag :: msb_bits n v ++ encode bits t cache' next' ->
      (forall k, length (encode bits (firstn (S k) (x :: t)) cache next) = (1 + length (msb_bits n v) + length (encode bits (firstn k t) cache' next'))%nat) ->
      read_bits mem src idx 1 = Ok (b2z flag) /\ read_bits mem src (idx + 1) n = Ok v /\
      exists mem', decompress_loop (length t) mem1 src dst (i + 1) bits cache' next' (idx + 1 + n) = Ok mem' /\
        length mem' = length mem /\ bytes mem' /\
        (forall j, 0 <= j -> at_ mem' j = if (dst + i <=? j) && (j <? dst + i + Z.of_nat (S (length t)))
                                      then at_ (x :: t) (j - dst - i) else at_ mem j)).
    { intros flag n v cache' next' Hn Hv CO' N0 En Fl. rewrite En in St, Ls.
      change (flag :: msb_bits n v ++ encode bits t cache' next') with ([flag] ++ msb_bits n v ++ encode bits t cache' next') in St, Ls.
      rewrite !app_length, !Nat2Z.inj_add, msb_bits_length in Ls by lia. change (Z.of_nat (length [flag])) with 1 in Ls.
      apply stream_app in St. destruct St as [S1 St]. apply stream_app in St. destruct St as [S2 S3].
      change (Z.of_nat (length [flag])) with 1 in S2, S3. rewrite msb_bits_length in S3 by lia.
      split; [|split].
      - apply read_stream; auto; try lia.
        + destruct flag; simpl; lia.
        + change (Z.max 0 (1 - 1)) with 0. destruct (bits =? 0); lia.
        + replace (msb_bits 1 (b2z flag)) with [flag] by (destruct flag; reflexivity). exact S1.
      - apply read_stream; auto; try lia.
        + destruct (bits =? 0) eqn:E0; [lia|]. assert (n <> 0) by lia. lia.
        + replace (8 * src + (idx + 1)) with (8 * src + idx + 1) by lia. exact S2.
      - destruct (IH cache' next' (i + 1) (idx + 1 + n) mem1) as (mem' & E' & L' & B' & A'); auto; try lia.
        + intros j Hj. replace (8 * src + (idx + 1 + n) + j) with (8 * src + idx + 1 + n + j) by lia.
          rewrite <- S3 by lia. apply getbit_upd; [lia|lia|].
          assert (Lt : (0 < length t)%nat) by (destruct t; [simpl in Hj; lia|simpl; lia]).
          specialize (Sf 0%nat ltac:(simpl; lia)). rewrite Fl, En in Sf.
          cbn [firstn encode length] in Sf.
          rewrite ?app_length in Sf. pose proof (msb_bits_length n v ltac:(lia)).
          destruct Sf as [Sf|Sf]; lia.
        + intros k Hk. specialize (Sf (S k) ltac:(simpl; lia)). rewrite Fl, En in Sf.
          cbn [length] in Sf. rewrite app_length in Sf. pose proof (msb_bits_length n v ltac:(lia)).
          destruct Sf as [Sf|Sf]; [left|right]; lia.
        + exists mem'. split; [exact E'|]. split; [lia|]. split; [exact B'|]. intros j Hj. rewrite A' by lia.
          unfold mem1. rewrite at_upd by lia.
          destruct ((dst + (i + 1) <=? j) && (j <? dst + (i + 1) + Z.of_nat (length t))) eqn:E.
          * replace (_ && _) with true by lia. unfold at_.
            replace (Z.to_nat (j - dst - i)) with (S (Z.to_nat (j - dst - (i + 1)))) by lia. reflexivity.
          * destruct (j =? dst + i) eqn:E2.
            -- replace (_ && _) with true by lia. replace (j - dst - i) with 0 by lia. reflexivity.
            -- replace (_ && _) with false by lia. reflexivity. }
    destruct (cache_search x cache 0) as [c|] eqn:CS.
    + pose proof (cache_search_spec _ _ _ _ CS) as [CR CA]. rewrite Z.sub_0_r in CA.
      destruct (Step false bits c cache next) as (R1 & R2 & R3); auto; try lia.
      * cbn [encode]. rewrite CS. reflexivity.
      * intros k. rewrite encode_cons_length_firstn. rewrite CS. cbn [encode]. rewrite CS. cbn [length encode]. rewrite app_nil_r. lia.
      * rewrite R1. cbn [bind b2z]. cbn [Z.eqb]. rewrite R2. cbn [bind]. rewrite Wr. rewrite CA. exact R3.
    + destruct (Step true 8 x (upd cache (Z.to_nat next) x) ((next + 1) mod 2 ^ bits)) as (R1 & R2 & R3); auto; try lia.
      * apply cache_ok_upd. exact CO.
      * cbn [encode]. rewrite CS. reflexivity.
      * intros k. rewrite encode_cons_length_firstn. rewrite CS. cbn [encode]. rewrite CS. cbn [length encode]. rewrite app_nil_r. lia.
      * rewrite R1. cbn [bind b2z]. cbn [Z.eqb]. rewrite R2. cbn [bind]. rewrite Wr. exact R3.
Qed.

(** more room behind the buffer does not change a defined run *)
Lemma at_app_l a b i : 0 <= i < Z.of_nat (length a) -> at_ (a ++ b) i = at_ a i.
Proof. intros. unfold at_. apply app_nth1. lia. Qed.
Lemma write_bits_ext buf i v n ext buf' : 0 <= i -> write_bits buf i v n = Ok buf' -> write_bits (buf ++ ext) i v n = Ok (buf' ++ ext).
Proof.
  intros Hi. unfold write_bits. destruct (i / 8 + 1 <? Z.of_nat (length buf)) eqn:E; [|intro W; discriminate W].
  intros H. injection H as <-. rewrite app_length. replace (_ <? _) with true by lia. f_equal.
  rewrite at_app_l by lia. rewrite upd_app_l by lia. rewrite at_app_l by (rewrite upd_length; lia).
  rewrite upd_app_l by (rewrite upd_length; lia). reflexivity.
Qed.
Lemma compress_loop_ext size bits : 0 <= bits -> forall src cache next idx buf ext idx' buf', 0 <= idx ->
  compress_loop src size bits 8 cache next idx buf = Ok (idx', buf') ->
  compress_loop src size bits 8 cache next idx (buf ++ ext) = Ok (idx', buf' ++ ext).
Proof.
  intros Hb. induction src as [|x t IH]; intros cache next idx buf ext idx' buf' Hi H.
  - cbn [compress_loop] in *. injection H as <- <-. reflexivity.
  - cbn [compress_loop] in *. destruct (bytes_of_bits idx <? size); [|injection H as <- <-; reflexivity].
    destruct (cache_search x cache 0); apply bind_ok in H; destruct H as (b1 & E1 & H); apply bind_ok in H; destruct H as (b2 & E2 & H);
      (erewrite write_bits_ext; [|lia|exact E1]); cbn [bind];
      (erewrite write_bits_ext; [|lia|exact E2]); cbn [bind]; apply IH; auto; lia.
Qed.
Lemma compress_loop_length size bits : forall src cache next idx buf idx' buf',
  compress_loop src size bits 8 cache next idx buf = Ok (idx', buf') -> length buf' = length buf.
Proof.
  induction src as [|x t IH]; intros cache next idx buf idx' buf' H.
  - cbn [compress_loop] in *. injection H as <- <-. reflexivity.
  - cbn [compress_loop] in *. destruct (bytes_of_bits idx <? size); [|injection H as <- <-; reflexivity].
    assert (W : forall b i v n b', write_bits b i v n = Ok b' -> length b' = length b).
    { intros b i v n b'. unfold write_bits. destruct (_ <? _); intros Q; [|discriminate Q]. injection Q as <-. rewrite !upd_length. reflexivity. }
    destruct (cache_search x cache 0); apply bind_ok in H; destruct H as (b1 & E1 & H); apply bind_ok in H; destruct H as (b2 & E2 & H);
      apply IH in H; apply W in E1; apply W in E2; congruence.
Qed.
Lemma compress_ext src out bits ext r out' : 0 <= bits -> (length src <= length out)%nat ->
  compress src out bits 8 = Ok (r, out') -> compress src (out ++ ext) bits 8 = Ok (r, out' ++ ext) /\ length out' = length out.
Proof.
  intros Hb L H. unfold compress in *. apply bind_ok in H. destruct H as ([idx o] & E & H). injection H as <- <-.
  pose proof (compress_loop_length _ _ _ _ _ _ _ _ _ E) as LL. rewrite app_length, repeat_length, skipn_length in LL.
  apply (compress_loop_ext _ _ Hb _ _ _ _ _ ext) in E; [|lia]. rewrite <- app_assoc in E.
  rewrite skipn_app. replace (length src - length out)%nat with 0%nat by lia. cbn [skipn]. rewrite E. cbn [bind].
  split; [reflexivity|lia].
Qed.

(** what a run of the trial loop leaves *)
Definition best_ok (src : list Z) (tried : Z -> Prop) (best : Z * option Z) : Prop :=
  (forall b, tried b -> fst best <= packed_size b src) /\
  match snd best with
  | None => fst best = Z.of_nat (length src)
  | Some b => 0 <= b <= 7 /\ fst best = packed_size b src /\ fst best < Z.of_nat (length src)
  end.
Lemma try_bits_ok src : bytes src -> forall tries out best tried,
  (forall b, In b tries -> 0 <= b <= 7) -> bytes out -> (length src + 1 <= length out)%nat -> best_ok src tried best ->
  exists best' out', try_bits src out 8 tries best = Ok (best', out') /\ bytes out' /\ length out' = length out /\
    best_ok src (fun b => tried b \/ In b tries) best'.
Proof.
  intros Bs. induction tries as [|b t IH]; intros out best tried HT Bo L Bk.
  - exists best, out. repeat split; auto; try apply Bk. intros b [H|[]]. apply Bk. exact H.
  - cbn [try_bits]. destruct (compress_spec src out b (HT b (or_introl eq_refl)) Bs Bo L) as (o' & -> & L' & B' & _).
    cbn [bind].
    destruct (IH o' (match (if packed_size b src <? Z.of_nat (length src) then Some (packed_size b src) else None) with
                     | Some n => if n <? fst best then (n, Some b) else best | None => best end)
                 (fun c => tried c \/ c = b)) as (best' & o'' & E & B'' & L'' & K).
    + intros c Hc. apply HT. right. exact Hc.
    + exact B'.
    + lia.
    + destruct Bk as [K1 K2].
      assert (fst best <= Z.of_nat (length src)) by (destruct (snd best); lia).
      destruct (packed_size b src <? Z.of_nat (length src)) eqn:E; [destruct (packed_size b src <? fst best) eqn:E2|].
      * split; cbn [fst snd]; [|split; [apply HT; left; reflexivity|lia]]. intros c [Hc| ->]; [specialize (K1 c Hc); lia|lia].
      * split; [|exact K2]. intros c [Hc| ->]; [apply K1; exact Hc|lia].
      * split; [|exact K2]. intros c [Hc| ->]; [apply K1; exact Hc|lia].
    + exists best', o''. split; [exact E|]. split; [exact B''|]. split; [lia|].
      destruct K as [K1 K2]. split; [|exact K2]. intros c [Hc|[->|Hc]]; apply K1; auto.
Qed.
Lemma try_bits_ext src ext : forall tries out best best' out', (forall b, In b tries -> 0 <= b <= 7) -> (length src <= length out)%nat ->
  try_bits src out 8 tries best = Ok (best', out') ->
  try_bits src (out ++ ext) 8 tries best = Ok (best', out' ++ ext) /\ length out' = length out.
Proof.
  induction tries as [|b t IH]; intros out best best' out' HT L H; cbn [try_bits] in *.
  - injection H as <- <-. auto.
  - apply bind_ok in H. destruct H as ([r o] & E & H).
    apply (compress_ext _ _ _ ext) in E; [|apply HT; left; reflexivity|exact L]. destruct E as [-> Lo]. cbn [bind].
    apply IH in H; [|intros; apply HT; right; auto|lia]. destruct H as [-> L2]. split; [reflexivity|lia].
Qed.

Lemma stream_firstn out n l k : 0 <= k -> 0 <= n -> k + Z.of_nat (length l) <= 8 * n -> forall rest,
  stream out k l -> stream (firstn (Z.to_nat n) out ++ rest) k l \/ Z.of_nat (length out) < n.
Proof.
  intros Hk Hn L rest S. destruct (Z_lt_ge_dec (Z.of_nat (length out)) n); [right; assumption|left].
  intros j Hj. rewrite <- S by exact Hj. unfold getbit, at_. f_equal.
  rewrite app_nth1 by (rewrite firstn_length; lia).
  rewrite <- (firstn_skipn (Z.to_nat n) out) at 2. rewrite app_nth1; [reflexivity|]. rewrite firstn_length. lia.
Qed.

Lemma list_at_ext (a b : list Z) : length a = length b -> (forall j, 0 <= j < Z.of_nat (length a) -> at_ a j = at_ b j) -> a = b.
Proof.
  intros L H. apply nth_ext with (d := 0) (d' := 0); [exact L|]. intros n Hn. specialize (H (Z.of_nat n) ltac:(lia)).
  unfold at_ in H. rewrite !Nat2Z.id in H. exact H.
Qed.

Lemma decode_separate src out b n : 0 <= b <= 7 -> bytes src -> bytes out -> n = packed_size b src -> n <= Z.of_nat (length out) ->
  stream out 0 (encode b src (init_cache b) 0) -> forall dest, bytes dest -> length dest = length src ->
  decompress (firstn (Z.to_nat n) out ++ dest) 0 n (length src) b = Ok (firstn (Z.to_nat n) out ++ src).
Proof.
  intros Hb Bs Bo Hn Ln St dest Bd Ld. unfold decompress.
  replace ((b <? 0) || (7 <? b)) with false by lia.
  destruct (Nat.eq_dec (length src) 0) as [Z0|Z0].
  { destruct src; [|discriminate Z0]. destruct dest; [|discriminate Ld]. reflexivity. }
  assert (N : n = (Z.of_nat (length (encode b src (init_cache b) 0)) + 7) / 8).
  { rewrite Hn. unfold packed_size, cost. rewrite firstn_all. reflexivity. }
  assert (Lf : Z.of_nat (length (firstn (Z.to_nat n) out)) = n) by (rewrite firstn_length; lia).
  destruct (decompress_loop_spec b 0 n Hb ltac:(lia) ltac:(lia) src (init_cache b) 0 0 0 (firstn (Z.to_nat n) out ++ dest)) as (mem & -> & Lm & Bm & A).
  - apply cache_ok_init; exact Hb.
  - exact Bs.
  - apply bytes_app; [apply bytes_firstn; exact Bo|exact Bd].
  - lia.
  - lia.
  - rewrite app_length. lia.
  - rewrite app_length. destruct (b =? 0); lia.
  - change (8 * 0 + 0) with 0. destruct (stream_firstn out n (encode b src (init_cache b) 0) 0 ltac:(lia) ltac:(lia) ltac:(lia) dest St) as [S|S]; [exact S|lia].
  - intros i Hi. right. lia.
  - f_equal. apply list_at_ext; [rewrite Lm, !app_length; lia|]. rewrite Lm. intros j Hj. rewrite A by lia.
    rewrite app_length in Hj. rewrite Z.add_0_r. destruct ((n <=? j) && (j <? n + Z.of_nat (length src))) eqn:E.
    + unfold at_. rewrite app_nth2 by lia. f_equal. lia.
    + unfold at_. rewrite !app_nth1 by lia. reflexivity.
Qed.

Lemma optimal_lossless_slack src slack : bytes src -> (1 <= slack)%nat ->
  exists r, optimal_compress src 8 slack = Ok r /\ lossless src r.
Proof.
  intros Bs Hs. unfold optimal_compress.
  destruct (try_bits_ok src Bs [0;1;2;3;4;5;6;7] (repeat 0 (length src + slack)) (Z.of_nat (length src), None) (fun _ => False))
    as (best & out & -> & Bo & Lo & K1 & K2).
  - simpl. intros b H. lia.
  - apply bytes_repeat0.
  - rewrite repeat_length. lia.
  - split; [intros b []|reflexivity].
  - cbn [bind]. rewrite repeat_length in Lo. destruct best as [n c]. cbn [fst snd] in *.
    assert (M : forall b, 0 <= b <= 7 -> n <= packed_size b src).
    { intros b Hb. apply K1. right. simpl. lia. }
    destruct c as [b|].
    + destruct K2 as (Kb & Kn & Kl). destruct (compress_spec src out b Kb Bs Bo ltac:(lia)) as (out' & -> & L' & B' & S').
      cbn [bind]. eexists. split; [reflexivity|]. split; [exact M|]. split; [exact Kb|].
      assert (0 <= n) by (rewrite Kn; unfold packed_size, cost; lia).
      split; [lia|]. split; [exact Kn|]. split; [lia|]. split; [exact B'|]. split; [apply S'; lia|]. intros dest Bd Ld. apply decode_separate; auto; [lia|]. apply S'. lia.
    + eexists. split; [reflexivity|]. split; [exact M|]. split; [exact K2|]. rewrite firstn_app, firstn_all, Nat.sub_diag. cbn [firstn]. apply app_nil_r.
Qed.

Lemma lossless_ext src n c out ext : (length src <= length out)%nat -> lossless src (n, c, out ++ ext) -> lossless src (n, c, out).
Proof.
  intros L (M & H). split; [exact M|]. destruct c as [b|].
  - destruct H as (Hb & Hn & E & Ln & Bo & Sm & D). split; [exact Hb|]. split; [exact Hn|]. split; [exact E|]. split; [lia|].
    split; [apply Forall_app in Bo; apply Bo|]. split.
    { intros j Hj. rewrite <- Sm by exact Hj. unfold getbit. rewrite at_app_l; [reflexivity|].
      rewrite E in Ln, Hn. unfold packed_size, cost in Hn. rewrite firstn_all in Hn. lia. }
    intros dest Bd Ld. specialize (D dest Bd Ld). rewrite firstn_app in D. replace (Z.to_nat n - length out)%nat with 0%nat in D by lia.
    cbn [firstn] in D. rewrite app_nil_r in D. exact D.
  - destruct H as [E F]. split; [exact E|]. rewrite firstn_app in F. replace (length src - length out)%nat with 0%nat in F by lia.
    cbn [firstn] in F. rewrite app_nil_r in F. exact F.
Qed.

(** the code as it is (no slack), whenever the run is defined *)
Lemma optimal_lossless src slack r : bytes src -> optimal_compress src 8 slack = Ok r -> lossless src r.
Proof.
  intros Bs H. destruct (optimal_lossless_slack src (slack + 1) Bs ltac:(lia)) as (r' & E' & K).
  unfold optimal_compress in H, E'. apply bind_ok in H. destruct H as ([best out] & E & H).
  assert (TR : forall b, In b [0;1;2;3;4;5;6;7] -> 0 <= b <= 7) by (simpl; intros; lia).
  apply (try_bits_ext src (repeat 0 1)) in E; [|exact TR|rewrite repeat_length; lia].
  destruct E as [E Lo]. rewrite <- repeat_app in E. replace (length src + slack + 1)%nat with (length src + (slack + 1))%nat in E by lia.
  rewrite E in E'. cbn [bind] in E'. rewrite repeat_length in Lo. destruct best as [n c]. cbn [snd] in *. destruct c as [b|].
  - apply bind_ok in H. destruct H as ([r0 o] & C & H). injection H as <-.
    destruct (Z_le_gt_dec 0 b) as [Hb|Hb].
    + apply (compress_ext _ _ _ (repeat 0 1)) in C; [|exact Hb|lia]. destruct C as [C Lc]. rewrite C in E'. cbn [bind] in E'.
      injection E' as <-. apply lossless_ext with (repeat 0 1); [lia|exact K].
    + apply bind_ok in E'. destruct E' as ([r1 o1] & C1 & E'). injection E' as <-.
      destruct K as (_ & K & _). lia.
  - injection H as <-. injection E' as <-. rewrite skipn_app in K. replace (length src - length out)%nat with 0%nat in K by lia.
    cbn [skipn] in K. rewrite app_assoc in K. apply lossless_ext with (repeat 0 1); [rewrite app_length; lia|exact K].
Qed.

(** loading in place *)
Lemma load_in_place dest src data header b : 0 <= b <= 7 -> bytes src -> bytes data -> bytes header -> bytes dest ->
  length header = 8%nat -> length dest = length src -> (length header + length data <= length dest)%nat ->
  stream data 0 (encode b src (init_cache b) 0) ->
  cost b src (length src) + (if b =? 0 then 1 else 0) <= 8 * Z.of_nat (length data) ->
  (forall i, (0 < i < length src)%nat -> Z.of_nat i <= Z.of_nat (length src) - Z.of_nat (length data) + cost b src i / 8) ->
  load_compressed dest (header ++ data) b = Ok src.
Proof.
  intros Hb Bs Bd Bh Bt Lh Ld Lf St Lc Sf. unfold load_compressed. rewrite app_length.
  replace (Z.of_nat (length dest) - Z.of_nat (length header + length data) <? 0) with false by lia. unfold decompress.
  replace ((b <? 0) || (7 <? b)) with false by lia. rewrite Ld.
  set (pre := firstn (Z.to_nat (Z.of_nat (length src) - Z.of_nat (length header + length data))) dest).
  assert (Lp : Z.of_nat (length pre) = Z.of_nat (length src) - Z.of_nat (length header + length data)).
  { unfold pre. rewrite firstn_length. lia. }
  set (a := Z.of_nat (length src) - Z.of_nat (length header + length data) + 8).
  unfold cost in Lc. rewrite firstn_all in Lc.
  destruct (decompress_loop_spec b a 0 Hb ltac:(lia) ltac:(lia) src (init_cache b) 0 0 0 (pre ++ header ++ data)) as (mem & -> & Lm & Bm & A).
  - apply cache_ok_init; exact Hb.
  - exact Bs.
  - unfold pre. apply bytes_app; [apply bytes_firstn; exact Bt|apply bytes_app; assumption].
  - lia.
  - lia.
  - rewrite !app_length. lia.
  - rewrite !app_length. lia.
  - intros j Hj. rewrite <- St by exact Hj. unfold getbit, at_.
    rewrite app_assoc. rewrite app_nth2 by (rewrite app_length; lia). rewrite app_length.
    replace (Z.to_nat ((8 * a + 0 + j) / 8) - (length pre + length header))%nat with (Z.to_nat ((0 + j) / 8)) by lia.
    f_equal. lia.
  - intros i Hi. left. specialize (Sf (S i) ltac:(lia)). unfold cost in Sf. lia.
  - f_equal. apply list_at_ext; [rewrite Lm, !app_length; lia|]. rewrite Lm, !app_length. intros j Hj. rewrite A by lia.
    replace (_ && _) with true by lia. f_equal. lia.
Qed.

Lemma optimal_in_place src slack n b out dest header : bytes src -> bytes dest -> bytes header -> length header = 8%nat ->
  length dest = length src -> optimal_compress src 8 slack = Ok (n, Some b, out) ->
  n + 8 <= Z.of_nat (length dest) -> (b = 0 -> cost b src (length src) < 8 * n) ->
  (forall i, (0 < i < length src)%nat -> n - cost b src i / 8 <= Z.of_nat (length src - i)) ->
  load_compressed dest (header ++ firstn (Z.to_nat n) out) b = Ok src.
Proof.
  intros Bs Bd Bh Lh Ld H Ln B0 Sf. apply optimal_lossless in H; [|exact Bs].
  destruct H as (_ & Hb & Hn & E & Lo & Bo & St & _).
  assert (Lf : Z.of_nat (length (firstn (Z.to_nat n) out)) = n) by (rewrite firstn_length; lia).
  assert (C : cost b src (length src) = Z.of_nat (length (encode b src (init_cache b) 0))) by (unfold cost; rewrite firstn_all; reflexivity).
  assert (N : cost b src (length src) <= 8 * n) by (rewrite E; unfold packed_size; lia).
  apply load_in_place; auto.
  - apply bytes_firstn. exact Bo.
  - lia.
  - destruct (stream_firstn out n (encode b src (init_cache b) 0) 0 ltac:(lia) ltac:(lia) ltac:(lia) [] St) as [S|S]; [|lia].
    rewrite app_nil_r in S. exact S.
  - rewrite Lf. destruct (b =? 0) eqn:E0; [specialize (B0 ltac:(lia)); lia|lia].
  - intros i Hi. rewrite Lf. specialize (Sf i Hi). lia.
Qed.
