From Verif Require Import Base BaseLemmas Strs StrFuncs StrSpec StrProofs NumSpec NumText NumTextSpec NumTextProofs.
From Coq Require Import QArith Qabs Lqa.
Open Scope Z_scope.
Ltac Zify.zify_post_hook ::= Z.div_mod_to_equations.

Fixpoint divs (k : nat) : list Z := match k with O => [] | S j => 10 ^ Z.of_nat j :: divs j end.

Lemma dchar d : 0 <= d < 10 -> digit_char d = 48 + d.
Proof. unfold digit_char. intros. replace (d <? 10) with true by lia. reflexivity. Qed.

Lemma num_cons d t : numeral 10 (d :: t) = d * 10 ^ Z.of_nat (length t) + numeral 10 t.
Proof. unfold numeral. cbn [num_of]. rewrite num_of_pow. f_equal. Qed.

Lemma split10 k n : 0 <= n < 10 ^ Z.of_nat (S k) ->
  let p := 10 ^ Z.of_nat k in
  0 <= n / p < 10 /\ 0 <= n mod p < p /\ n = n / p * p + n mod p.
Proof.
  intros H p. rewrite Nat2Z.inj_succ, Z.pow_succ_r in H by lia. fold p in H.
  assert (1 <= p) by (apply pow10_pos).
  pose proof (Z.mod_pos_bound n p). pose proof (Z.div_mod n p).
  split; [split; [apply Z.div_pos; lia|apply Z.div_lt_upper_bound; lia]|]. split; lia.
Qed.

Lemma int_true k n : 0 <= n < 10 ^ Z.of_nat k -> exists ds,
  int_loop (divs k) n true = map digit_char ds /\ digits 10 ds /\ length ds = k /\ numeral 10 ds = n.
Proof.
  revert n. induction k as [|k IH]; intros n H.
  - exists []. simpl in *. unfold numeral. simpl. repeat split; [constructor|lia].
  - cbn [divs int_loop]. destruct (split10 k n H) as [Hq [Hr E]]. set (p := 10 ^ Z.of_nat k) in *.
    destruct (p >? n) eqn:G.
    + destruct (IH n ltac:(fold p; lia)) as [ds [A [B [C D]]]]. exists (0 :: ds).
      rewrite A. simpl. repeat split; [constructor; [lia|exact B]|lia|]. rewrite num_cons, C. lia.
    + destruct (IH (n mod p) Hr) as [ds [A [B [C D]]]]. exists (n / p :: ds).
      rewrite A. cbn [map]. rewrite (dchar (n / p)) by lia. cbn [length].
      repeat split; [constructor; [lia|exact B]|lia|]. rewrite num_cons, C. fold p. lia.
Qed.

Lemma int_false k n : 0 < n < 10 ^ Z.of_nat k -> exists d t,
  int_loop (divs k) n false = map digit_char (d :: t) /\ digits 10 (d :: t) /\
  (length (d :: t) <= k)%nat /\ d <> 0 /\ numeral 10 (d :: t) = n.
Proof.
  revert n. induction k as [|k IH]; intros n H; [simpl in H; lia|].
  cbn [divs int_loop]. destruct (split10 k n ltac:(lia)) as [Hq [Hr E]]. set (p := 10 ^ Z.of_nat k) in *.
  destruct (p >? n) eqn:G.
  - destruct (IH n ltac:(fold p; lia)) as [d [t [A [B [C D]]]]]. exists d, t. rewrite A.
    repeat split; [exact B|lia|apply D|apply D].
  - destruct (int_true k (n mod p) Hr) as [ds [A [B [C D]]]]. exists (n / p), ds.
    rewrite A. cbn [map length]. rewrite (dchar (n / p)) by lia.
    assert (n / p <> 0). { intro Z0. rewrite Z0 in E. lia. }
    repeat split; [constructor; [lia|exact B]|lia|assumption|]. rewrite num_cons, C. fold p. lia.
Qed.

Lemma dec_loop_spec k n : 0 <= n < 10 ^ Z.of_nat k -> exists fs m,
  dec_loop (divs k) n = map digit_char fs /\ digits 10 fs /\ (length fs + m = k)%nat /\
  numeral 10 fs * 10 ^ Z.of_nat m = n /\ (fs = [] -> n = 0) /\
  (fs = [] \/ exists t d, fs = t ++ [d] /\ d <> 0).
Proof.
  revert n. induction k as [|k IH]; intros n H.
  - exists [], 0%nat. simpl in H. simpl. replace (n <=? 0) with true by lia.
    unfold numeral; simpl. repeat split; try lia; [constructor|left; reflexivity].
  - cbn [divs dec_loop]. destruct (split10 k n H) as [Hq [Hr E]]. set (p := 10 ^ Z.of_nat k) in *.
    destruct (n <=? 0) eqn:Gz.
    { exists [], (S k). unfold numeral; simpl. repeat split; try lia; [constructor|left; reflexivity]. }
    assert (HD : exists q r, (if p >? n then 48 :: dec_loop (divs k) n else 48 + n / p :: dec_loop (divs k) (n mod p)) =
       (48 + q) :: dec_loop (divs k) r /\ 0 <= q < 10 /\ 0 <= r < p /\ n = q * p + r).
    { destruct (p >? n) eqn:G.
      - exists 0, n. repeat split; lia.
      - exists (n / p), (n mod p). repeat split; lia. }
    destruct HD as [q [r [EQ [Hq' [Hr' En]]]]]. rewrite EQ.
    destruct (IH r ltac:(fold p; lia)) as [fs [m [A [B [C [D [F L]]]]]]].
    exists (q :: fs), m. rewrite A. cbn [map length]. rewrite (dchar q) by lia.
    repeat split; [constructor; [lia|exact B]|lia| |discriminate|right].
    + rewrite num_cons, Z.mul_add_distr_r, D, <- Z.mul_assoc, <- Z.pow_add_r by lia.
      replace (Z.of_nat (length fs) + Z.of_nat m) with (Z.of_nat k) by lia. fold p. lia.
    + destruct L as [L|[t [d [L1 L2]]]].
      * exists [], q. subst fs. split; [reflexivity|]. specialize (F eq_refl). nia.
      * exists (q :: t), d. subst fs. split; [reflexivity|assumption].
Qed.

Lemma divs6 : [100000; 10000; 1000; 100; 10; 1] = divs 6. Proof. reflexivity. Qed.
Lemma divs3 : [100; 10; 1] = divs 3. Proof. reflexivity. Qed.

Lemma print_shape x : fixp x -> x <> -2147483648 -> Z.abs x mod 4096 < 4094 ->
  exists ds fs m, fixp_to_char x = Ok (decimal_text (x <? 0) ds fs) /\
    digits 10 ds /\ digits 10 fs /\ canonical ds fs /\ (length ds <= 6)%nat /\ (length fs + m = 3)%nat /\
    numeral 10 ds = Z.abs x / 4096 /\
    numeral 10 fs * 10 ^ Z.of_nat m = ((Z.abs x mod 4096 + 2) * 1000) / 4096.
Proof.
  intros Hx Hmin Hf. unfold fixp in Hx. change (2^31) with 2147483648 in Hx.
  unfold fixp_to_char. unfold INT_MIN. change (- 2 ^ 31) with (-2147483648).
  replace (x =? -2147483648) with false by lia. cbv zeta.
  replace (if x <? 0 then - x else x) with (Z.abs x) by (destruct (x <? 0) eqn:E; lia).
  set (a := Z.abs x) in *. assert (Ha : 0 <= a < 2147483648) by lia.
  assert (Hint : exists ds, (if a / 4096 =? 0 then [48] else int_loop [100000; 10000; 1000; 100; 10; 1] (a / 4096) false) = map digit_char ds
     /\ digits 10 ds /\ (ds = [0] \/ exists d t, ds = d :: t /\ d <> 0) /\ (length ds <= 6)%nat /\ numeral 10 ds = a / 4096).
  { destruct (a / 4096 =? 0) eqn:E.
    - exists [0]. repeat split; [repeat constructor; lia|left; reflexivity|simpl; lia|].
      unfold numeral; simpl. lia.
    - rewrite divs6. destruct (int_false 6 (a / 4096)) as [d [t [A [B [C [D F]]]]]].
      { change (10 ^ Z.of_nat 6) with 1000000. lia. }
      exists (d :: t). repeat split; auto. right. exists d, t. auto. }
  destruct Hint as [ds [I1 [I2 [I3 [I5 I4]]]]]. rewrite I1.
  set (dec := (a mod 4096 + 2) * 1000 / 4096). assert (Hdec : 0 <= dec < 1000) by (unfold dec; lia).
  rewrite divs3. destruct (dec_loop_spec 3 dec) as [fs [m [A [B [C [D [F L]]]]]]].
  { change (10 ^ Z.of_nat 3) with 1000. lia. }
  exists ds, fs, m. rewrite A.
  repeat split; auto.
  f_equal. unfold decimal_text. f_equal. f_equal.
  destruct fs as [|f0 ft].
  - rewrite (F eq_refl). reflexivity.
  - destruct (dec =? 0) eqn:E; [|reflexivity]. exfalso.
    destruct L as [L|[t [d [L1 L2]]]]; [discriminate|].
    assert (1 <= 10 ^ Z.of_nat m) by apply pow10_pos.
    assert (0 < numeral 10 (f0 :: ft)).
    { rewrite L1 in *. unfold numeral. rewrite num_of_app. simpl.
      apply Forall_app in B as [B1 B2]. inversion B2; subst.
      pose proof (num_of_bound 10 t ltac:(lia) B1). lia. }
    nia.
Qed.

Lemma decimal_val_eq neg ds fs m : (length fs + m = 3)%nat ->
  (decimal_val neg ds fs == (if neg then -1 else 1) * 
    ((1000 * numeral 10 ds + numeral 10 fs * 10 ^ Z.of_nat m) # 1000))%Q.
Proof.
  intros H. unfold decimal_val.
  assert (E : (inject_Z (numeral 10 ds) + inject_Z (numeral 10 fs) / inject_Z (10 ^ Z.of_nat (length fs)) ==
     (1000 * numeral 10 ds + numeral 10 fs * 10 ^ Z.of_nat m) # 1000)%Q).
  { assert (T : 10 ^ Z.of_nat (length fs) * 10 ^ Z.of_nat m = 1000).
    { rewrite <- Z.pow_add_r by lia. replace (Z.of_nat (length fs) + Z.of_nat m) with 3 by lia. reflexivity. }
    pose proof (pow10_pos (length fs)). pose proof (pow10_pos m).
    set (u := 10 ^ Z.of_nat (length fs)) in *. set (w := 10 ^ Z.of_nat m) in *.
    set (N := numeral 10 ds). set (F := numeral 10 fs).
    rewrite Qmake_Qdiv. rewrite inject_Z_plus, !inject_Z_mult.
    change (Z.pos 1000) with 1000. rewrite <- T. rewrite inject_Z_mult.
    field. split; intro G; unfold inject_Z, Qeq in G; simpl in G; lia. }
  destruct neg; rewrite E; ring.
Qed.

Lemma print_close x ds fs m : fixp x -> (length fs + m = 3)%nat ->
  numeral 10 ds = Z.abs x / 4096 ->
  numeral 10 fs * 10 ^ Z.of_nat m = ((Z.abs x mod 4096 + 2) * 1000) / 4096 ->
  (Qabs (decimal_val (x <? 0)%Z ds fs - val x) < 1 # 1000)%Q.
Proof.
  intros Hx Hm H1 H2. rewrite (decimal_val_eq _ _ _ m Hm), H1, H2.
  apply Qabs_Qlt_condition. unfold val.
  assert (G : exists a, 0 <= a /\ Z.abs x = a /\ (x = if x <? 0 then - a else a)).
  { exists (Z.abs x). destruct (x <? 0) eqn:E; lia. }
  destruct G as [a [Ha [Ea Ex]]]. rewrite Ea.
  set (D := (a mod 4096 + 2) * 1000 / 4096). 
  assert (HD : 4096 * D <= (a mod 4096 + 2) * 1000 < 4096 * D + 4096) by (unfold D; lia).
  assert (HA : a = 4096 * (a / 4096) + a mod 4096) by lia.
  set (I := a / 4096) in *. set (F := a mod 4096) in *. clearbody D I F.
  set (N := 1000 * I + D) in *. assert (HN : N = 1000 * I + D) by reflexivity. clearbody N.
  destruct (x <? 0); rewrite Ex; unfold Qlt, Qminus, Qplus, Qmult, Qopp; cbn [Qnum Qden];
  change (Z.pos (1 * 1000 * 4096)) with 4096000; change (Z.pos (1 * 1000)) with 1000; change (Z.pos 4096) with 4096;
  change (Z.pos 1000) with 1000; lia.
Qed.

Lemma text_digits neg ds fs : digits 10 ds -> digits 10 fs -> (length ds <= 6)%nat -> (length fs <= 3)%nat ->
  ptc_text (decimal_text neg ds fs).
Proof.
  intros H1 H2 L1 L2.
  assert (D : forall l, digits 10 l -> Forall (fun c => 0 <= c < 256) (map digit_char l)).
  { intros l H. induction H; simpl; constructor; auto. rewrite dchar; lia. }
  unfold decimal_text. split.
  - apply Forall_app; split; [destruct neg; repeat constructor; lia|].
    apply Forall_app; split; [auto|]. destruct fs; [constructor|].
    constructor; [lia|]. apply D; exact H2.
  - rewrite !app_length, map_length. destruct neg, fs; simpl in *; rewrite ?map_length; lia.
Qed.

Lemma reread g x ds fs m s : fixp x -> x <> -2147483648 -> digits 10 ds -> digits 10 fs -> 
  (ds = [0] \/ exists d t, ds = d :: t /\ d <> 0) ->
  (length fs + m = 3)%nat -> numeral 10 ds = Z.abs x / 4096 ->
  spells s (decimal_text (x <? 0) ds fs) ->
  func_val g s = Ok (let v := Z.abs x / 4096 * 4096 + 4096 * (numeral 10 fs * 10 ^ Z.of_nat m) / 1000 in
                     if x <? 0 then - v else v).
Proof.
  intros Hx Hmin Hd Hf Hc Hm Hn Hs. unfold fixp in Hx. change (2^31) with 2147483648 in Hx.
  assert (E : 4096 * (numeral 10 fs * 10 ^ Z.of_nat m) / 1000 = 4096 * numeral 10 fs / 10 ^ Z.of_nat (length fs)).
  { assert (T : 10 ^ Z.of_nat (length fs) * 10 ^ Z.of_nat m = 1000).
    { rewrite <- Z.pow_add_r by lia. replace (Z.of_nat (length fs) + Z.of_nat m) with 3 by lia. reflexivity. }
    rewrite <- T, Z.mul_assoc. pose proof (pow10_pos (length fs)). pose proof (pow10_pos m).
    apply Z.div_mul_cancel_r; lia. }
  rewrite E. destruct fs as [|f0 ft].
  - rewrite (val_integer g s (x <? 0) ds []).
    + rewrite Hn. unfold numeral; simpl. f_equal. destruct (x <? 0); change (0 / 1) with 0; lia.
    + exact Hs.
    + destruct Hc as [->|[d [t [-> _]]]]; destruct (x <? 0); discriminate.
    + intros t. destruct ds as [|d u]; [destruct Hc as [|[? [? [? _]]]]; discriminate|].
      inversion Hd; subst. cbn [map]. rewrite (dchar d) by lia.
      destruct (x <? 0); cbn [sgn_text app]; intros K; [discriminate|]; assert (K2 : 48 + d = 38) by congruence; lia.
    + exact Hd.
    + rewrite Hn. lia.
    + exact I.
  - rewrite (val_decimal g s (x <? 0) ds (f0 :: ft) []).
    + rewrite Hn. reflexivity.
    + rewrite app_nil_r. exact Hs.
    + exact Hd.
    + exact Hf.
    + rewrite Hn. lia.
    + lia.
    + exact I.
Qed.

Lemma print_stable g x s : fixp x -> x <> -2147483648 -> Z.abs x mod 4096 < 4094 ->
  func_str x = Ok s -> exists y, func_val g s = Ok y /\ fixp y /\
    (func_str y = func_str x \/ s = SChar [45; 48] /\ y = 0).
Proof.
  intros Hx Hmin Hf Hs.
  destruct (print_shape x Hx Hmin Hf) as [ds [fs [m [A [B [C [[D1 D2] [L1 [L2 [E F]]]]]]]]]].
  unfold func_str in Hs. rewrite A in Hs. cbn [bind] in Hs. injection Hs as <-.
  assert (Sp : spells (SChar (decimal_text (x <? 0) ds fs)) (decimal_text (x <? 0) ds fs)).
  { apply spells_schar, text_digits; auto; lia. }
  pose proof (reread g x ds fs m _ Hx Hmin B C D1 L2 E Sp) as R. cbv zeta in R.
  rewrite F in R. set (a := Z.abs x) in *.
  set (v := a / 4096 * 4096 + 4096 * ((a mod 4096 + 2) * 1000 / 4096) / 1000) in *.
  exists (if x <? 0 then - v else v). split; [exact R|].
  unfold fixp in Hx. change (2^31) with 2147483648 in Hx.
  assert (Ha : 0 <= a < 2147483648) by lia.
  set (k := (a mod 4096 + 2) * 1000 / 4096) in *.
  assert (Hk : 0 <= k < 1000) by (unfold k; lia).
  assert (Hv : v / 4096 = a / 4096 /\ (v mod 4096 + 2) * 1000 / 4096 = k /\ 0 <= v < 2147483648 - 1).
  { set (q := 4096 * k / 1000) in *. assert (0 <= q < 4096) by (unfold q; lia).
    assert (v mod 4096 = q /\ v / 4096 = a / 4096) as [M1 M2] by (unfold v; lia).
    split; [exact M2|]. rewrite M1. split; [|unfold v; lia].
    assert (1000 * q <= 4096 * k < 1000 * q + 1000) by (unfold q; lia). clearbody q. lia. }
  destruct Hv as [V1 [V2 V3]].
  split. { unfold fixp. change (2^31) with 2147483648. destruct (x <? 0); lia. }
  destruct (Z.eq_dec v 0) as [V0|V0].
  - destruct (x <? 0) eqn:N.
    + right. split; [|lia]. f_equal.
      assert (a / 4096 = 0) by (rewrite <- V1, V0; reflexivity).
      assert (k = 0) by (rewrite <- V2, V0; reflexivity).
      unfold fixp_to_char, INT_MIN in A. change (- 2^31) with (-2147483648) in A.
      replace (x =? -2147483648) with false in A by lia. cbv zeta in A. rewrite N in A.
      replace (- x) with a in A by lia. fold k in A.
      replace (a / 4096 =? 0) with true in A by lia. replace (k =? 0) with true in A by lia.
      assert (K : forall u w : list Z, Ok u = Ok w -> u = w) by congruence.
      apply K in A. rewrite <- A. reflexivity.
    + left. unfold func_str. f_equal. unfold fixp_to_char, INT_MIN. change (- 2^31) with (-2147483648).
      replace (x =? -2147483648) with false by lia. replace (v =? -2147483648) with false by lia.
      cbv zeta. rewrite N. replace (v <? 0) with false by lia.
      replace x with a by lia. rewrite V1, V2. reflexivity.
  - left. unfold func_str. f_equal. unfold fixp_to_char, INT_MIN. change (- 2^31) with (-2147483648).
    replace (x =? -2147483648) with false by lia. cbv zeta.
    replace ((if x <? 0 then - v else v) =? -2147483648) with false by (destruct (x <? 0); lia).
    replace ((if x <? 0 then - v else v) <? 0) with (x <? 0) by (destruct (x <? 0) eqn:N; lia).
    replace (if x <? 0 then - (if x <? 0 then - v else v) else (if x <? 0 then - v else v)) with v
      by (destruct (x <? 0); lia).
    replace (if x <? 0 then - x else x) with a by (destruct (x <? 0) eqn:N; lia).
    rewrite V1, V2. reflexivity.
Qed.
