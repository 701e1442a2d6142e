From Verif Require Import Base BaseLemmas Hash HashProofs Vars VarsSpec.
From Coq Require Import Permutation.
Open Scope Z_scope.
Ltac Zify.zify_post_hook ::= Z.div_mod_to_equations.

Ltac dkey K := match goal with |- context [key_eq ?a ?b] => destruct (key_eq a b) as [K|K] end.

(** search = first stop *)
Definition key_of (x : named_var) : option key :=
  if v_type x =? VAR_EMPTY then None else Some (upto_nul (v_name x), v_type x).
Definition keys (v : variables) (p : Z) : option key := key_of (slot v p).
Definition khash (m : Z) (k : key) : Z := name_hash (fst k) m.

Lemma upd_len {A} (l : list A) i x : length (upd l i x) = length l.
Proof. revert i. induction l; intros [|i]; simpl; auto. Qed.
Lemma nth_upd_same {A} (l : list A) i x d : (i < length l)%nat -> nth i (upd l i x) d = x.
Proof. revert i. induction l; intros [|i] H; simpl in *; try lia; auto. apply IHl; lia. Qed.
Lemma nth_upd_other {A} (l : list A) i j x d : i <> j -> nth j (upd l i x) d = nth j l d.
Proof. revert i j. induction l; intros [|i] [|j] H; simpl in *; try congruence; auto. Qed.

Record tab (n : Z) (v : variables) : Prop := {
  tab_n : 0 <= n;
  tab_max : vars_max v = 2 ^ n;
  tab_len : length (vars v) = Z.to_nat (2 ^ n);
  tab_names : Forall (fun x => length (v_name x) = 16%nat) (vars v);
  tab_good : good key_eq (khash (2 ^ n)) n (keys v) }.

Lemma slot_name n v p : tab n v -> 0 <= p < 2 ^ n -> length (v_name (slot v p)) = 16%nat.
Proof.
  intros T Hp. pose proof (tab_names _ _ T) as F. rewrite Forall_forall in F. apply F.
  apply nth_In. rewrite (tab_len _ _ T). lia.
Qed.

Lemma stop_eq n v name type p : tab n v -> valid_name name -> 0 <= p < 2 ^ n -> type <> 0 ->
  negb (negb (v_type (slot v p) =? VAR_EMPTY) &&
    (negb (namecmp name (v_name (slot v p)) NAME_MAX) || negb (v_type (slot v p) =? type)))
  = stop_for key_eq (keys v) (name, type) p.
Proof.
  intros T N Hp Ht. pose proof (namecmp_spec name _ (slot_name n v p T Hp) N) as C.
  unfold stop_for, keys, key_of. destruct (v_type (slot v p) =? VAR_EMPTY) eqn:E; [reflexivity|].
  unfold key in *.
  destruct (key_eq (upto_nul (v_name (slot v p)), v_type (slot v p)) (name, type)) as [K|K].
  - injection K as K1 K2. apply C in K1. rewrite K1. replace (v_type (slot v p) =? type) with true by lia. reflexivity.
  - destruct (namecmp name (v_name (slot v p)) NAME_MAX) eqn:G; [|reflexivity].
    destruct (v_type (slot v p) =? type) eqn:Q; [|reflexivity].
    exfalso. apply K. f_equal; [apply C; reflexivity|lia].
Qed.

Lemma search_spec n v name type : tab n v -> valid_name name -> type <> 0 ->
  first_stop (stop_for key_eq (keys v) (name, type)) (name_hash name (2 ^ n)) (2 ^ n)
    (search_name_type v name type).
Proof.
  intros T N Ht. unfold search_name_type. rewrite (tab_max _ _ T).
  pose proof (tab_n _ _ T) as Hn. assert (M : 0 < 2 ^ n) by (apply Z.pow_pos_nonneg; lia).
  set (h := name_hash name (2 ^ n)).
  assert (Hh : 0 <= h < 2 ^ n) by (apply name_hash_range; lia).
  assert (G : forall fuel k hash, 0 <= k -> k + Z.of_nat fuel = 2 ^ n + 1 ->
     (hash + k) mod 2 ^ n = pos h (2 ^ n) k ->
     (forall j, 0 <= j < k -> stop_for key_eq (keys v) (name, type) (pos h (2 ^ n) j) = false) ->
     first_stop (stop_for key_eq (keys v) (name, type)) h (2 ^ n) (search_loop fuel v name type hash k)).
  { induction fuel as [|f IH]; intros k hash Hk Hf Hpos Hj.
    - simpl. intros j Hj'. apply Hj. lia.
    - cbn [search_loop]. rewrite (tab_max _ _ T), Hpos. cbv zeta.
      destruct (k >=? 2 ^ n) eqn:E.
      { simpl. intros j Hj'. apply Hj. lia. }
      pose proof (pos_range h (2 ^ n) k M) as PR.
      pose proof (stop_eq n v name type (pos h (2 ^ n) k) T N PR Ht) as SE.
      destruct (negb (v_type (slot v (pos h (2 ^ n) k)) =? VAR_EMPTY) && _) eqn:B.
      + apply IH; try lia.
        * rewrite (pos_step h (2 ^ n) k M). reflexivity.
        * intros j Hj'. destruct (Z.eq_dec j k) as [->|Ne]; [rewrite <- SE; reflexivity|apply Hj; lia].
      + exists k. repeat split; try lia; [rewrite <- SE; reflexivity|]. exact Hj. }
  apply G; try lia.
  unfold pos, tri. simpl. rewrite !Z.add_0_r. reflexivity.
Qed.

(** updating slots *)
Lemma slot_set v p q x : 0 <= p < Z.of_nat (length (vars v)) -> 0 <= q ->
  slot (set_slot v p x) q = if q =? p then x else slot v q.
Proof.
  intros Hp Hq. unfold slot, set_slot, set_vars. simpl. destruct (q =? p) eqn:E.
  - assert (q = p) by lia. subst. apply nth_upd_same. lia.
  - apply nth_upd_other. lia.
Qed.

Lemma Forall_upd {A} (P : A -> Prop) l i x : Forall P l -> P x -> Forall P (upd l i x).
Proof. intros H Hx. revert i. induction H; intros [|i]; simpl; constructor; auto. Qed.

(** occupied keys in table order *)
Definition okeys (l : list named_var) : list key :=
  flat_map (fun x => match key_of x with Some k => [k] | None => [] end) l.
Lemma okeys_len l : (length (okeys l) <= length l)%nat.
Proof. induction l as [|x l IH]; simpl; [lia|]. rewrite app_length. destruct (key_of x); simpl; lia. Qed.
Lemma okeys_full l : (forall x, In x l -> key_of x <> None) -> length (okeys l) = length l.
Proof.
  induction l as [|x l IH]; intros H; simpl; [reflexivity|]. rewrite app_length, IH by (intros; apply H; right; assumption).
  specialize (H x (or_introl eq_refl)). destruct (key_of x); [reflexivity|congruence].
Qed.
Lemma okeys_free l x : In x l -> key_of x = None -> (length (okeys l) < length l)%nat.
Proof.
  induction l as [|y l IH]; intros H E; simpl in *; [tauto|]. rewrite app_length.
  pose proof (okeys_len l). destruct H as [->|H].
  - rewrite E. simpl. lia.
  - specialize (IH H E). destruct (key_of y); simpl; lia.
Qed.
Lemma okeys_upd_new l i x k d : (i < length l)%nat -> key_of (nth i l d) = None -> key_of x = Some k ->
  Permutation (okeys (upd l i x)) (k :: okeys l).
Proof.
  revert i. induction l as [|y l IH]; intros [|i] H E1 E2; simpl in *; try lia.
  - rewrite E1, E2. apply Permutation_refl.
  - rewrite (IH i) by (auto; lia). apply Permutation_sym. apply Permutation_cons_app. apply Permutation_refl.
Qed.
Lemma okeys_upd_same l i x d : (i < length l)%nat -> key_of (nth i l d) = key_of x -> okeys (upd l i x) = okeys l.
Proof.
  revert i. induction l as [|y l IH]; intros [|i] H E; simpl in *; try lia.
  - rewrite E. reflexivity.
  - rewrite (IH i) by (auto; lia). reflexivity.
Qed.
Lemma okeys_in l k : In k (okeys l) <-> exists x, In x l /\ key_of x = Some k.
Proof.
  unfold okeys. rewrite in_flat_map. split; intros [x [H1 H2]]; exists x; split; auto.
  - destruct (key_of x); simpl in H2; [destruct H2; [congruence|tauto]|tauto].
  - rewrite H2. left. reflexivity.
Qed.

Lemma keys_in n v k : tab n v -> (In k (okeys (vars v)) <-> exists p, 0 <= p < 2 ^ n /\ keys v p = Some k).
Proof.
  intros T. rewrite okeys_in. pose proof (tab_len _ _ T) as L. split.
  - intros [x [H1 H2]]. apply (In_nth _ _ no_var) in H1 as [i [Hi E]].
    exists (Z.of_nat i). split; [lia|]. unfold keys, slot. rewrite Nat2Z.id, E. exact H2.
  - intros [p [Hp E]]. exists (slot v p). split; [|exact E]. apply nth_In. lia.
Qed.

Lemma tab_pos n v : tab n v -> 0 < 2 ^ n.
Proof. intros T. apply Z.pow_pos_nonneg; [lia|exact (tab_n _ _ T)]. Qed.

(** put a fresh key in an empty slot *)
Lemma tab_insert n v p k x : tab n v -> 0 <= p < 2 ^ n -> keys v p = None ->
  first_stop (stop_for key_eq (keys v) k) (khash (2 ^ n) k) (2 ^ n) (Some p) ->
  key_of x = Some k -> length (v_name x) = 16%nat ->
  tab n (set_slot v p x) /\ Permutation (okeys (vars (set_slot v p x))) (k :: okeys (vars v)).
Proof.
  intros T Hp E F Kx Lx. pose proof (tab_len _ _ T) as L.
  assert (Hs : forall q, 0 <= q -> keys (set_slot v p x) q = put (keys v) p k q).
  { intros q Hq. unfold keys, put. rewrite slot_set by lia. destruct (q =? p); [exact Kx|reflexivity]. }
  split.
  - constructor; simpl.
    + exact (tab_n _ _ T).
    + exact (tab_max _ _ T).
    + rewrite upd_len. exact L.
    + apply Forall_upd; [exact (tab_names _ _ T)|exact Lx].
    + intros q k2 Hq Hk. rewrite Hs in Hk by lia.
      pose proof (good_put key_eq (khash (2^n)) n (tab_n _ _ T) (keys v) p k (tab_good _ _ T) F E q k2 Hq Hk) as G.
      pose proof (tab_pos _ _ T) as M.
      destruct G as [j [A [B [C D]]]]. exists j. repeat split; try assumption; try lia.
      * unfold stop_for in *. rewrite Hs by lia. exact C.
      * intros i Hi. specialize (D i Hi). unfold stop_for in *. rewrite Hs; [exact D|].
        pose proof (pos_range (khash (2^n) k2) (2^n) i M). lia.
  - simpl. apply (okeys_upd_new _ _ _ _ no_var); [lia|exact E|exact Kx].
Qed.

(** change a slot's value, keeping its key *)
Lemma tab_same n v p x : tab n v -> 0 <= p < 2 ^ n -> key_of x = keys v p -> length (v_name x) = 16%nat ->
  tab n (set_slot v p x) /\ okeys (vars (set_slot v p x)) = okeys (vars v) /\
  (forall q, 0 <= q -> keys (set_slot v p x) q = keys v q).
Proof.
  intros T Hp Kx Lx. pose proof (tab_len _ _ T) as L.
  assert (Hs : forall q, 0 <= q -> keys (set_slot v p x) q = keys v q).
  { intros q Hq. unfold keys. rewrite slot_set by lia. destruct (q =? p) eqn:E; [|reflexivity].
    replace q with p by lia. exact Kx. }
  split; [|split; [|exact Hs]].
  - constructor; simpl.
    + exact (tab_n _ _ T).
    + exact (tab_max _ _ T).
    + rewrite upd_len. exact L.
    + apply Forall_upd; [exact (tab_names _ _ T)|exact Lx].
    + intros q k2 Hq Hk. rewrite Hs in Hk by lia.
      pose proof (tab_pos _ _ T) as M.
      destruct (tab_good _ _ T q k2 Hq Hk) as [j [A [B [C D]]]]. exists j. repeat split; try assumption; try lia.
      * unfold stop_for in *. rewrite Hs by lia. exact C.
      * intros i Hi. specialize (D i Hi). unfold stop_for in *. rewrite Hs; [exact D|].
        pose proof (pos_range (khash (2^n) k2) (2^n) i M). lia.
  - simpl. apply (okeys_upd_same _ _ _ no_var); [lia|]. symmetry; exact Kx.
Qed.
