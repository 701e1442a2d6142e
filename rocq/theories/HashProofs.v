From Verif Require Import Base Hash.
From Coq Require Import Znumtheory Zpow_facts FinFun.
Open Scope Z_scope.
Ltac Zify.zify_post_hook ::= Z.div_mod_to_equations.

(** names as content of the 16-byte field *)
Definition valid_name (n : list Z) : Prop :=
  (1 <= length n <= 16)%nat /\ Forall (fun c => 0 < c < 256) n.

Fixpoint upto_nul (cells : list Z) : list Z :=
  match cells with [] => [] | c :: t => if c =? 0 then [] else c :: upto_nul t end.

Lemma upto_nul_name n cells : Forall (fun c => 0 < c < 256) n -> upto_nul (n ++ 0 :: cells) = n.
Proof. induction 1; simpl; [reflexivity|]. replace (x =? 0) with false by lia. f_equal; assumption. Qed.
Lemma upto_nul_full n : Forall (fun c => 0 < c < 256) n -> upto_nul n = n.
Proof. induction 1; simpl; [reflexivity|]. replace (x =? 0) with false by lia. f_equal; assumption. Qed.

Lemma set_name_length cells n : length cells = 16%nat -> (length n <= 16)%nat -> length (set_name cells n) = 16%nat.
Proof.
  intros Hc Hn. unfold set_name. rewrite app_length. unfold NAME_MAX.
  destruct (Nat.eqb_spec (length n) 16); cbn [length]; rewrite ?skipn_length; lia.
Qed.
Lemma set_name_key cells n : valid_name n -> upto_nul (set_name cells n) = n.
Proof.
  intros [L F]. unfold set_name. destruct (Nat.eqb (length n) NAME_MAX).
  - rewrite app_nil_r. apply upto_nul_full; exact F.
  - apply upto_nul_name; exact F.
Qed.

Lemma namecmp_gen a b room : length b = room -> (length a <= room)%nat -> Forall (fun c => 0 < c < 256) a ->
  (namecmp a b room = true <-> upto_nul b = a).
Proof.
  revert b room. induction a as [|x a IH]; intros b room Hb Ha F.
  - simpl. destruct b as [|y b]; subst room; simpl; [tauto|].
    destruct (y =? 0) eqn:E; split; intro; try reflexivity; try discriminate.
  - simpl. destruct room as [|r]; [simpl in Ha; lia|]. destruct b as [|y b]; [discriminate|].
    inversion F as [|? ? Hx Fa]; subst. simpl in *.
    destruct (x =? y) eqn:E.
    + assert (x = y) by lia. subst y. replace (x =? 0) with false by lia.
      rewrite (IH b r) by (auto; lia). split; [intros ->; reflexivity|intros G; injection G; auto].
    + split; [discriminate|]. destruct (y =? 0) eqn:Ey; intros G; [discriminate|]. exfalso.
      assert (K : y = x) by congruence. lia.
Qed.
Lemma namecmp_spec a b : length b = 16%nat -> valid_name a -> (namecmp a b NAME_MAX = true <-> upto_nul b = a).
Proof. intros H [L F]. apply namecmp_gen; auto. unfold NAME_MAX. lia. Qed.

(** the probe sequence *)
Definition tri (k : Z) : Z := k * (k + 1) / 2.
Definition pos (h m k : Z) : Z := (h + tri k) mod m.

Lemma tri_even k : 2 * tri k = k * (k + 1).
Proof.
  unfold tri. assert (E : (k * (k + 1)) mod 2 = 0).
  { rewrite Z.mul_mod by lia. assert (k mod 2 = 0 \/ k mod 2 = 1) as [G|G] by lia; rewrite G.
    - reflexivity.
    - replace ((k + 1) mod 2) with 0 by lia. reflexivity. }
  lia.
Qed.
Lemma tri_succ k : tri (k + 1) = tri k + (k + 1).
Proof. pose proof (tri_even k). pose proof (tri_even (k + 1)). nia. Qed.
Lemma tri0 : tri 0 = 0. Proof. reflexivity. Qed.

Lemma pos_step h m k : 0 < m -> pos h m (k + 1) = (pos h m k + (k + 1)) mod m.
Proof. intros. unfold pos. rewrite tri_succ, Z.add_assoc, Zplus_mod_idemp_l. reflexivity. Qed.
Lemma pos_range h m k : 0 < m -> 0 <= pos h m k < m.
Proof. intros; unfold pos; apply Z.mod_pos_bound; lia. Qed.

Lemma odd_divide n a b : 0 <= n -> (2 ^ n | a * b) -> a mod 2 = 1 -> (2 ^ n | b).
Proof.
  intros Hn D O. apply Gauss with a; [exact D|].
  apply rel_prime_sym. apply rel_prime_Zpower_r; [lia|].
  apply bezout_rel_prime. apply Bezout_intro with 1 (- (a / 2)). lia.
Qed.

Lemma pos_inj h n i j : 0 <= n -> 0 <= i < 2 ^ n -> 0 <= j < 2 ^ n -> pos h (2 ^ n) i = pos h (2 ^ n) j -> i = j.
Proof.
  intros Hn. 
  assert (G : forall i j, 0 <= i < 2 ^ n -> 0 <= j < 2 ^ n -> i < j -> pos h (2 ^ n) i = pos h (2 ^ n) j -> False).
  { clear i j. intros i j Hi Hj Hij E. unfold pos in E.
    assert (D : (2 ^ n | tri j - tri i)).
    { apply Z.mod_divide; [lia|]. replace (tri j - tri i) with ((h + tri j) - (h + tri i)) by lia.
      rewrite Zminus_mod, E, Z.sub_diag. reflexivity. }
    assert (D2 : (2 ^ (n + 1) | (j - i) * (j + i + 1))).
    { destruct D as [c Hc]. exists c. rewrite Z.pow_add_r, Z.pow_1_r by lia.
      pose proof (tri_even i). pose proof (tri_even j). nia. }
    assert (P : 2 ^ (n + 1) = 2 * 2 ^ n) by (rewrite Z.pow_add_r, Z.pow_1_r by lia; lia).
    assert ((j - i) mod 2 = 1 \/ (j + i + 1) mod 2 = 1) as [O|O] by lia.
    - apply (odd_divide (n + 1)) in D2; [|lia|exact O]. apply Z.divide_pos_le in D2; lia.
    - rewrite Z.mul_comm in D2. apply (odd_divide (n + 1)) in D2; [|lia|exact O].
      apply Z.divide_pos_le in D2; lia. }
  intros Hi Hj E. destruct (Z.lt_trichotomy i j) as [L|[L|L]]; [|exact L|]; exfalso.
  - exact (G i j Hi Hj L E).
  - exact (G j i Hj Hi L (eq_sym E)).
Qed.

Lemma pos_surj h n t : 0 <= n -> 0 <= t < 2 ^ n -> exists k, 0 <= k < 2 ^ n /\ pos h (2 ^ n) k = t.
Proof.
  intros Hn Ht. set (m := 2 ^ n) in *.
  set (ks := map Z.of_nat (seq 0 (Z.to_nat m))).
  assert (Hks : forall k, In k ks <-> 0 <= k < m).
  { intros k. unfold ks. rewrite in_map_iff. split.
    - intros [x [<- Hx]]. apply in_seq in Hx. lia.
    - intros Hk. exists (Z.to_nat k). split; [lia|]. apply in_seq. lia. }
  assert (ND : NoDup ks).
  { apply Injective_map_NoDup; [|apply seq_NoDup]. intros a b. lia. }
  assert (ND2 : NoDup (map (pos h m) ks)).
  { assert (Sub : forall k, In k ks -> 0 <= k < m) by (intros; apply Hks; assumption). 
    clear Hks. induction ND as [|x l Hx Hl IH]; simpl; constructor.
    - intros HI. apply in_map_iff in HI as [y [Hy Hy2]]. apply pos_inj in Hy; try lia.
      + subst; contradiction.
      + apply Sub; right; exact Hy2.
      + apply Sub; left; reflexivity.
    - apply IH. intros; apply Sub; right; assumption. }
  assert (Inc : incl ks (map (pos h m) ks)).
  { apply NoDup_length_incl; [exact ND2|rewrite map_length; lia|].
    intros y Hy. apply in_map_iff in Hy as [k [<- Hk]]. apply Hks. apply pos_range. lia. }
  specialize (Inc t (proj2 (Hks t) Ht)). apply in_map_iff in Inc as [k [E Hk]].
  exists k. split; [apply Hks; exact Hk|exact E].
Qed.

Lemma name_hash_range name n : 0 <= n -> 0 <= name_hash name (2 ^ n) < 2 ^ n.
Proof.
  intros Hn. assert (0 < 2 ^ n) by (apply Z.pow_pos_nonneg; lia).
  unfold name_hash. destruct name as [|c t]; [lia|].
  replace (2 ^ n - 1) with (Z.ones n) by (rewrite Z.ones_equiv; lia).
  rewrite Z.land_ones by lia. apply Z.mod_pos_bound; lia.
Qed.

(** first probe position at which [stop] holds *)
Definition first_stop (stop : Z -> bool) (h m : Z) (r : option Z) : Prop :=
  match r with
  | Some p => exists k, 0 <= k < m /\ pos h m k = p /\ stop p = true /\
                forall j, 0 <= j < k -> stop (pos h m j) = false
  | None => forall j, 0 <= j < m -> stop (pos h m j) = false
  end.

Lemma first_stop_det stop h m r1 r2 : first_stop stop h m r1 -> first_stop stop h m r2 -> r1 = r2.
Proof.
  destruct r1 as [p|], r2 as [q|]; simpl; try reflexivity.
  - intros [k [Hk [Ek [Sk Nk]]]] [l [Hl [El [Sl Nl]]]].
    destruct (Z.lt_trichotomy k l) as [L|[L|L]].
    + specialize (Nl k ltac:(lia)). congruence.
    + congruence.
    + specialize (Nk l ltac:(lia)). congruence.
  - intros [k [Hk [Ek [Sk _]]]] N. specialize (N k Hk). congruence.
  - intros N [k [Hk [Ek [Sk _]]]]. specialize (N k Hk). congruence.
Qed.

Lemma first_stop_ext s1 s2 h m r : (forall p, s1 p = s2 p) -> first_stop s1 h m r -> first_stop s2 h m r.
Proof.
  intros E. destruct r as [p|]; simpl.
  - intros [k [A [B [C D]]]]. exists k. repeat split; try assumption; try lia; try congruence.
    intros j Hj. rewrite <- E. auto.
  - intros N j Hj. rewrite <- E. auto.
Qed.

(** open addressing: [slots p] is the key stored in slot p.  The invariant: every
    stored key is what probing for it finds. *)
Section Table.
Context {K : Type} (Keq : forall a b : K, {a = b} + {a <> b}) (hash : K -> Z) (n : Z) (Hn : 0 <= n).
Local Notation m := (2 ^ n).
Definition stop_for (slots : Z -> option K) (k : K) (p : Z) : bool :=
  match slots p with None => true | Some k' => if Keq k' k then true else false end.
Definition good (slots : Z -> option K) : Prop :=
  forall p k, 0 <= p < m -> slots p = Some k -> first_stop (stop_for slots k) (hash k) m (Some p).
Definition put (slots : Z -> option K) (p : Z) (k : K) : Z -> option K :=
  fun q => if q =? p then Some k else slots q.

Lemma found_range stop h p : first_stop stop h m (Some p) -> 0 <= p < m.
Proof. intros [k [_ [<- _]]]. apply pos_range. apply Z.pow_pos_nonneg; lia. Qed.

Lemma good_empty : good (fun _ => None).
Proof. intros p k _ H. discriminate. Qed.

Lemma good_put slots p k : good slots -> first_stop (stop_for slots k) (hash k) m (Some p) ->
  slots p = None -> good (put slots p k).
Proof.
  intros G F E q k2 Hq Hs.
  assert (Miss : forall x, stop_for slots x p = true) by (intros x; unfold stop_for; rewrite E; reflexivity).
  assert (Same : forall x q', q' <> p -> stop_for (put slots p k) x q' = stop_for slots x q').
  { intros x q' Nq. unfold stop_for, put. replace (q' =? p) with false by lia. reflexivity. }
  unfold put in Hs. destruct (q =? p) eqn:Eq.
  - assert (q = p) by lia. subst q. injection Hs as <-.
    destruct F as [j [Hj [Ej [Sj Nj]]]]. exists j. repeat split; try assumption; try lia.
    + unfold stop_for, put. rewrite Z.eqb_refl. destruct (Keq k k); congruence.
    + intros i Hi. rewrite Same; [apply Nj; exact Hi|].
      intros C. specialize (Nj i Hi). rewrite C, Miss in Nj. discriminate.
  - destruct (G q k2 Hq Hs) as [j [Hj [Ej [Sj Nj]]]]. exists j. repeat split; try assumption; try lia.
    + rewrite Same by lia. exact Sj.
    + intros i Hi. rewrite Same; [apply Nj; exact Hi|].
      intros C. specialize (Nj i Hi). rewrite C, Miss in Nj. discriminate.
Qed.

Lemma good_unique slots p q k : good slots -> 0 <= p < m -> 0 <= q < m ->
  slots p = Some k -> slots q = Some k -> p = q.
Proof.
  intros G Hp Hq Ep Eq.
  pose proof (first_stop_det _ _ _ _ _ (G p k Hp Ep) (G q k Hq Eq)) as H. congruence.
Qed.

(** a probe ending in an empty slot, or nowhere, means the key is absent; ending
    nowhere means every slot is taken *)
Lemma probe_absent slots k r : good slots -> first_stop (stop_for slots k) (hash k) m r ->
  (forall p, r = Some p -> slots p = None) -> forall q, 0 <= q < m -> slots q <> Some k.
Proof.
  intros G F E q Hq C. pose proof (first_stop_det _ _ _ _ _ F (G q k Hq C)) as H.
  specialize (E q H). congruence.
Qed.
Lemma probe_full slots k : first_stop (stop_for slots k) (hash k) m None ->
  forall q, 0 <= q < m -> exists k', slots q = Some k' /\ k' <> k.
Proof.
  intros F q Hq. destruct (pos_surj (hash k) n q Hn Hq) as [j [Hj Ej]].
  specialize (F j Hj). rewrite Ej in F. unfold stop_for in F.
  destruct (slots q) as [k'|]; [|discriminate]. exists k'. split; [reflexivity|].
  destruct (Keq k' k); congruence.
Qed.
Lemma probe_hit slots k p : first_stop (stop_for slots k) (hash k) m (Some p) ->
  slots p = None \/ slots p = Some k.
Proof.
  intros [j [_ [_ [S _]]]]. unfold stop_for in S. destruct (slots p) as [k'|]; [|auto].
  destruct (Keq k' k); [subst; auto|discriminate].
Qed.
End Table.
