From Verif Require Import Base BaseLemmas Hash HashProofs Labels.
Open Scope Z_scope.
Ltac Zify.zify_post_hook ::= Z.div_mod_to_equations.

Definition lkey_of (x : label_line) : option (list Z) :=
  if first_char x =? 0 then None else Some (upto_nul (l_name x)).
Definition lkeys (l : labels) (p : Z) : option (list Z) := lkey_of (entry l p).
Definition name_eq := list_eq_dec Z.eq_dec.
Definition lhash (m : Z) (k : list Z) : Z := name_hash k m.

Record ltab (n : Z) (l : labels) : Prop := {
  lt_n : 0 <= n; lt_count : label_count l = 2 ^ n; lt_len : length (l_entry l) = Z.to_nat (2 ^ n);
  lt_names : Forall (fun x => length (l_name x) = 16%nat) (l_entry l);
  lt_good : good name_eq (lhash (2 ^ n)) n (lkeys l) }.

Lemma lpos n l : ltab n l -> 0 < 2 ^ n.
Proof. intros T. apply Z.pow_pos_nonneg; [lia|exact (lt_n _ _ T)]. Qed.
Lemma entry_name n l p : ltab n l -> 0 <= p < 2 ^ n -> length (l_name (entry l p)) = 16%nat.
Proof.
  intros T Hp. pose proof (lt_names _ _ T) as F. rewrite Forall_forall in F. apply F.
  apply nth_In. rewrite (lt_len _ _ T). lia.
Qed.
Lemma land_mod x n : 0 <= n -> Z.land x (2 ^ n - 1) = x mod 2 ^ n.
Proof. intros Hn. replace (2 ^ n - 1) with (Z.ones n) by (rewrite Z.ones_equiv; lia). apply Z.land_ones; lia. Qed.

(** the probing loop finds the first stop *)
Lemma probe_spec n l name : ltab n l -> valid_name name ->
  match probe_label l name with
  | Empty p => first_stop (stop_for name_eq (lkeys l) name) (lhash (2 ^ n) name) (2 ^ n) (Some p) /\ lkeys l p = None
  | Found p => first_stop (stop_for name_eq (lkeys l) name) (lhash (2 ^ n) name) (2 ^ n) (Some p) /\ lkeys l p = Some name
  | Nothing => first_stop (stop_for name_eq (lkeys l) name) (lhash (2 ^ n) name) (2 ^ n) None
  end.
Proof.
  intros T N. unfold probe_label. rewrite (lt_count _ _ T).
  pose proof (lt_n _ _ T) as Hn. pose proof (lpos _ _ T) as M.
  unfold lhash. set (h := name_hash name (2 ^ n)).
  assert (Hh : 0 <= h < 2 ^ n) by (apply name_hash_range; lia).
  assert (Full : (forall j, 0 <= j < 2 ^ n -> stop_for name_eq (lkeys l) name (pos h (2 ^ n) j) = false) ->
     forall q, 0 <= q < 2 ^ n -> lkeys l q <> None).
  { intros A q Hq. destruct (probe_full name_eq (lhash (2^n)) n Hn (lkeys l) name A q Hq) as [k' [E _]]. congruence. }
  assert (G : forall fuel k hash, 0 <= k -> k + Z.of_nat fuel = 2 ^ n + 1 ->
     (hash + k) mod 2 ^ n = pos h (2 ^ n) k ->
     (forall j, 0 <= j < k -> stop_for name_eq (lkeys l) name (pos h (2 ^ n) j) = false) ->
     match probe_loop fuel l name hash k with
     | Empty p => first_stop (stop_for name_eq (lkeys l) name) h (2 ^ n) (Some p) /\ lkeys l p = None
     | Found p => first_stop (stop_for name_eq (lkeys l) name) h (2 ^ n) (Some p) /\ lkeys l p = Some name
     | Nothing => first_stop (stop_for name_eq (lkeys l) name) h (2 ^ n) None
     end).
  { induction fuel as [|f IH]; intros k hash Hk Hf Hpos Hj.
    - simpl. intros j Hj'. apply Hj. lia.
    - cbn [probe_loop]. rewrite (lt_count _ _ T), land_mod, Hpos by lia. cbv zeta.
      pose proof (pos_range h (2 ^ n) k M) as PR. set (p := pos h (2 ^ n) k) in *.
      pose proof (entry_name n l p T PR) as LN.
      destruct (first_char (entry l p) =? 0) eqn:E0.
      { assert (Kp : lkeys l p = None) by (unfold lkeys, lkey_of; rewrite E0; reflexivity).
        assert (k < 2 ^ n).
        { destruct (Z_lt_ge_dec k (2 ^ n)) as [|Ge]; [assumption|]. exfalso.
          refine (Full _ p PR Kp). intros j Hj'. apply Hj. lia. }
        split; [|exact Kp]. exists k. repeat split; try lia; [|exact Hj]. unfold stop_for. rewrite Kp. reflexivity. }
      destruct (k >=? 2 ^ n) eqn:E.
      { simpl. intros j Hj'. apply Hj. lia. }
      assert (Kp : lkeys l p = Some (upto_nul (l_name (entry l p)))) by (unfold lkeys, lkey_of; rewrite E0; reflexivity).
      pose proof (namecmp_spec name _ LN N) as C.
      destruct (namecmp name (l_name (entry l p)) NAME_MAX) eqn:B.
      + assert (K2 : lkeys l p = Some name) by (rewrite Kp; f_equal; apply C; reflexivity).
        split; [|exact K2]. exists k. repeat split; try lia; [|exact Hj]. unfold stop_for. rewrite K2. destruct (name_eq name name); congruence.
      + apply IH; try lia.
        * rewrite (pos_step h (2 ^ n) k M). fold p. reflexivity.
        * intros j Hj'. destruct (Z.eq_dec j k) as [->|Ne]; [|apply Hj; lia]. fold p. unfold stop_for. rewrite Kp.
          destruct (name_eq (upto_nul (l_name (entry l p))) name) as [Q|]; [|reflexivity]. apply C in Q. congruence. }
  apply G; try lia. unfold pos, tri. simpl. rewrite !Z.add_0_r. reflexivity.
Qed.

Lemma upd_len' {A} (l : list A) i x : length (upd l i x) = length l.
Proof. apply upd_length. Qed.
Lemma entry_upd l p q x : 0 <= p < Z.of_nat (length (l_entry l)) -> 0 <= q ->
  entry (mkLabels (label_count l) (upd (l_entry l) (Z.to_nat p) x)) q = if q =? p then x else entry l q.
Proof.
  intros Hp Hq. unfold entry. simpl. destruct (q =? p) eqn:E.
  - assert (q = p) by lia. subst. apply nth_upd_same. lia.
  - apply nth_upd_other. lia.
Qed.

Lemma lkey_new cells name i : valid_name name -> length cells = 16%nat ->
  lkey_of (mkLabel (set_name cells name) i) = Some name.
Proof.
  intros N L. unfold lkey_of, first_char. simpl.
  assert (F : nth 0 (set_name cells name) 0 <> 0).
  { destruct N as [[N1 N2] N3]. unfold set_name. destruct name as [|c t]; simpl in *; [lia|]. inversion N3; subst. lia. }
  destruct (nth 0 (set_name cells name) 0 =? 0) eqn:E; [lia|]. rewrite set_name_key by exact N. reflexivity.
Qed.

(** the table holds exactly the definitions [defs] *)
Record holds (n : Z) (l : labels) (defs : list (list Z * Z)) : Prop := {
  h_tab : ltab n l;
  h_in : forall p k, 0 <= p < 2 ^ n -> lkeys l p = Some k -> In (k, l_index (entry l p)) defs;
  h_all : forall k i, In (k, i) defs -> exists p, 0 <= p < 2 ^ n /\ lkeys l p = Some k /\ l_index (entry l p) = i;
  h_nodup : NoDup (map fst defs) }.

Lemma holds_find n l defs name : holds n l defs -> valid_name name ->
  match probe_label l name with
  | Empty p => 0 <= p < 2 ^ n /\ lkeys l p = None /\ ~ In name (map fst defs)
  | Found p => 0 <= p < 2 ^ n /\ In (name, l_index (entry l p)) defs
  | Nothing => ~ In name (map fst defs) /\ forall q, 0 <= q < 2 ^ n -> lkeys l q <> None
  end.
Proof.
  intros H N. pose proof (h_tab _ _ _ H) as T. pose proof (lt_n _ _ T) as Hn.
  pose proof (probe_spec n l name T N) as P.
  assert (Ab : forall r, first_stop (stop_for name_eq (lkeys l) name) (lhash (2 ^ n) name) (2 ^ n) r ->
     (forall p, r = Some p -> lkeys l p = None) -> ~ In name (map fst defs)).
  { intros r F E C. apply in_map_iff in C as [[k i] [Ek I]]. simpl in Ek. subst k.
    destruct (h_all _ _ _ H name i I) as [q [Hq [Kq _]]].
    exact (probe_absent name_eq (lhash (2^n)) n (lkeys l) name r (lt_good _ _ T) F E q Hq Kq). }
  destruct (probe_label l name) as [p|p|].
  - destruct P as [F K]. assert (Hp : 0 <= p < 2 ^ n) by (eapply found_range; [exact Hn|exact F]).
    split; [exact Hp|]. split; [exact K|]. apply (Ab (Some p) F). intros p' G. injection G as <-. exact K.
  - destruct P as [F K]. assert (Hp : 0 <= p < 2 ^ n) by (eapply found_range; [exact Hn|exact F]).
    split; [exact Hp|]. apply (h_in _ _ _ H); assumption.
  - split; [apply (Ab None P); discriminate|]. intros q Hq C.
    destruct (probe_full name_eq (lhash (2^n)) n Hn (lkeys l) name P q Hq) as [k' [E _]]. congruence.
Qed.

Lemma holds_add n l defs name i : holds n l defs -> valid_name name ->
  match add_label l name i with
  | Some l' => holds n l' ((name, i) :: defs)
  | None => In name (map fst defs) \/ forall q, 0 <= q < 2 ^ n -> lkeys l q <> None
  end.
Proof.
  intros H N. pose proof (holds_find n l defs name H N) as F. pose proof (h_tab _ _ _ H) as T.
  pose proof (probe_spec n l name T N) as P. pose proof (lt_n _ _ T) as Hn.
  unfold add_label, find_label_slot. destruct (probe_label l name) as [p|p|].
  - destruct F as [Hp [K NI]]. destruct P as [P _]. pose proof (entry_name n l p T Hp) as LN.
    pose proof (lkey_new (l_name (entry l p)) name i N LN) as KN.
    set (x := mkLabel (set_name (l_name (entry l p)) name) i) in *.
    set (l' := mkLabels _ _).
    pose proof (lt_len _ _ T) as L. pose proof (lpos _ _ T) as M.
    assert (En : forall q, 0 <= q -> entry l' q = if q =? p then x else entry l q) by (intros; apply entry_upd; lia).
    assert (Ks : forall q, 0 <= q -> lkeys l' q = put (lkeys l) p name q).
    { intros q Hq. unfold lkeys, put. rewrite En by lia. destruct (q =? p); [exact KN|reflexivity]. }
    constructor.
    + constructor.
      * exact Hn.
      * exact (lt_count _ _ T).
      * simpl. rewrite upd_length. exact L.
      * simpl. pose proof (lt_names _ _ T) as LNs. apply Forall_forall. intros y Hy.
        apply (In_nth _ _ no_label) in Hy as [j [Hj Ej]]. rewrite upd_length in Hj. subst y.
        destruct (Nat.eq_dec (Z.to_nat p) j) as [->|Ne].
        -- rewrite nth_upd_same by lia. simpl. apply set_name_length; [exact LN|apply N].
        -- rewrite nth_upd_other by congruence. rewrite Forall_forall in LNs. apply LNs, nth_In. exact Hj.
      * intros q k2 Hq Hk. rewrite Ks in Hk by lia.
        pose proof (good_put name_eq (lhash (2^n)) n Hn (lkeys l) p name (lt_good _ _ T) P K q k2 Hq Hk) as G.
        destruct G as [j [A [B [C D]]]]. exists j. repeat split; try assumption; try lia.
        -- unfold stop_for in *. rewrite Ks by lia. exact C.
        -- intros r Hr. specialize (D r Hr). unfold stop_for in *. rewrite Ks; [exact D|].
           pose proof (pos_range (lhash (2^n) k2) (2^n) r M). lia.
    + intros q k2 Hq Hk. rewrite Ks in Hk by lia. rewrite En by lia. unfold put in Hk.
      destruct (q =? p); [injection Hk as <-; left; reflexivity|]. right. apply (h_in _ _ _ H); assumption.
    + intros k2 i2 [E|I].
      * injection E as <- <-. exists p. rewrite Ks, En by lia. unfold put. rewrite Z.eqb_refl. auto.
      * destruct (h_all _ _ _ H k2 i2 I) as [q [Hq [Kq Iq]]]. exists q. rewrite Ks, En by lia. unfold put.
        replace (q =? p) with false; [auto|]. symmetry. apply Z.eqb_neq. intros ->. congruence.
    + simpl. constructor; [exact NI|exact (h_nodup _ _ _ H)].
  - left. destruct F as [_ F]. apply in_map_iff. eexists. split; [|exact F]. reflexivity.
  - right. apply F.
Qed.

Lemma good_none n l : (forall q, 0 <= q < 2 ^ n -> lkeys l q = None) -> good name_eq (lhash (2 ^ n)) n (lkeys l).
Proof. intros H p k Hp E. rewrite H in E by exact Hp. discriminate. Qed.

Lemma holds_init n : 0 <= n -> holds n (init_labels (2 ^ n)) [].
Proof.
  intros Hn. assert (0 < 2 ^ n) by (apply Z.pow_pos_nonneg; lia).
  assert (E : forall q, entry (init_labels (2 ^ n)) q = no_label).
  { intros q. unfold entry, init_labels. cbn [l_entry]. destruct (nth_in_or_default (Z.to_nat q) (repeat no_label (Z.to_nat (2 ^ n))) no_label) as [I|I]; [|exact I].
    apply repeat_spec in I. exact I. }
  constructor.
  - constructor; try assumption; try reflexivity.
    + simpl. apply repeat_length.
    + apply Forall_forall. intros x Hx. apply repeat_spec in Hx. subst. reflexivity.
    + apply good_none. intros q _. unfold lkeys. rewrite E. reflexivity.
  - intros p k Hp K. unfold lkeys in K. rewrite E in K. discriminate.
  - intros k i [].
  - constructor.
Qed.
Lemma holds_reset n l defs : holds n l defs -> holds n (reset_label l) [].
Proof.
  intros H. pose proof (h_tab _ _ _ H) as T.
  assert (K0 : forall q, 0 <= q < 2 ^ n -> lkeys (reset_label l) q = None).
  { intros q Hq. unfold lkeys, entry, reset_label. simpl.
    set (f := fun x => mkLabel (upd (l_name x) 0%nat 0) (l_index x)).
    rewrite (nth_indep _ no_label (f no_label)) by (rewrite map_length, (lt_len _ _ T); lia).
    rewrite map_nth. unfold lkey_of, first_char, f. cbn [l_name].
    destruct (l_name (nth (Z.to_nat q) (l_entry l) no_label)); reflexivity. }
  constructor.
  - constructor.
    + exact (lt_n _ _ T).
    + exact (lt_count _ _ T).
    + simpl. rewrite map_length. exact (lt_len _ _ T).
    + simpl. apply Forall_map. eapply Forall_impl; [|exact (lt_names _ _ T)]. intros x Hx. cbn [l_name]. rewrite upd_length. exact Hx.
    + apply good_none, K0.
  - intros p k Hp K. rewrite K0 in K by exact Hp. discriminate.
  - intros k i [].
  - constructor.
Qed.

(** number of slots *)
Definition slots_used (n : Z) (l : labels) : list (list Z) :=
  flat_map (fun x => match lkey_of x with Some k => [k] | None => [] end) (l_entry l).

Lemma NoDup_map_in {A B} (f : A -> B) l : (forall a b, In a l -> In b l -> f a = f b -> a = b) -> NoDup l -> NoDup (map f l).
Proof.
  intros Inj ND. induction ND as [|x l Hx ND IH]; simpl; constructor.
  - intros C. apply in_map_iff in C as [y [E Hy]]. apply Hx. rewrite (Inj x y); auto; [left|right]; auto.
  - apply IH. intros a b Ha Hb. apply Inj; right; assumption.
Qed.
Lemma holds_full n l defs : holds n l defs -> (forall q, 0 <= q < 2 ^ n -> lkeys l q <> None) ->
  2 ^ n <= Z.of_nat (length defs).
Proof.
  intros H F. pose proof (h_tab _ _ _ H) as T. pose proof (lpos _ _ T) as M.
  set (ks := map (fun j => match lkeys l (Z.of_nat j) with Some k => k | None => [] end) (seq 0 (Z.to_nat (2 ^ n)))).
  assert (ND : NoDup ks).
  { apply NoDup_map_in; [|apply seq_NoDup].
    intros a b Ha Hb E. apply in_seq in Ha. apply in_seq in Hb.
    destruct (lkeys l (Z.of_nat a)) as [ka|] eqn:Ka; [|exfalso; exact (F (Z.of_nat a) ltac:(lia) Ka)].
    destruct (lkeys l (Z.of_nat b)) as [kb|] eqn:Kb; [|exfalso; exact (F (Z.of_nat b) ltac:(lia) Kb)].
    subst kb. pose proof (good_unique name_eq (lhash (2^n)) n (lkeys l) (Z.of_nat a) (Z.of_nat b) ka (lt_good _ _ T) ltac:(lia) ltac:(lia) Ka Kb). lia. }
  assert (Inc : incl ks (map fst defs)).
  { intros k Hk. apply in_map_iff in Hk as [j [Ej Hj]]. apply in_seq in Hj.
    destruct (lkeys l (Z.of_nat j)) as [kj|] eqn:Kj; [|exfalso; exact (F (Z.of_nat j) ltac:(lia) Kj)].
    subst kj. apply (h_in _ _ _ H) in Kj; [|lia]. apply in_map_iff. exists (k, l_index (entry l (Z.of_nat j))). auto. }
  pose proof (NoDup_incl_length ND Inc) as L. unfold ks in L. rewrite !map_length, seq_length in L. lia.
Qed.
Lemma holds_le n l defs : holds n l defs -> Z.of_nat (length defs) <= 2 ^ n.
Proof.
  intros H. pose proof (h_tab _ _ _ H) as T. pose proof (lpos _ _ T) as M.
  set (ks := map (fun j => match lkeys l (Z.of_nat j) with Some k => k | None => [] end) (seq 0 (Z.to_nat (2 ^ n)))).
  assert (Inc : incl (map fst defs) ks).
  { intros k Hk. apply in_map_iff in Hk as [[k' i] [E I]]. simpl in E. subst k'.
    destruct (h_all _ _ _ H k i I) as [p [Hp [Kp _]]]. apply in_map_iff. exists (Z.to_nat p).
    rewrite Z2Nat.id by lia. rewrite Kp. split; [reflexivity|]. apply in_seq. lia. }
  pose proof (NoDup_incl_length (h_nodup _ _ _ H) Inc) as L. unfold ks in L. rewrite !map_length, seq_length in L. lia.
Qed.

Lemma load_spec n defs : forall l old, holds n l old -> Forall (fun d => valid_name (fst d)) defs ->
  match load l defs with
  | Some l' => holds n l' (rev defs ++ old)
  | None => ~ (NoDup (map fst (defs ++ old)) /\ Z.of_nat (length (defs ++ old)) <= 2 ^ n)
  end.
Proof.
  induction defs as [|[name i] defs IH]; intros l old H V; [exact H|].
  inversion V as [|? ? V1 V2]; subst. simpl in V1. cbn [load].
  pose proof (holds_add n l old name i H V1) as A.
  destruct (add_label l name i) as [l1|].
  - specialize (IH l1 _ A V2). destruct (load l1 defs) as [l2|].
    + simpl. rewrite <- app_assoc. exact IH.
    + intros [ND Len]. apply IH. split.
      * rewrite map_app in *. simpl in *. apply (NoDup_Add (Add_app name (map fst defs) (map fst old))).
        inversion ND; subst. split; assumption.
      * rewrite app_length in *. simpl in *. lia.
  - intros [ND Len]. destruct A as [A|A].
    + simpl in ND. inversion ND as [|? ? N1 N2]. apply N1. rewrite map_app. apply in_or_app. right. exact A.
    + pose proof (holds_full n l old H A) as Fu. simpl in Len. rewrite app_length in Len. lia.
Qed.

Lemma holds_index n l defs name : holds n l defs -> valid_name name ->
  (forall i, In (name, i) defs -> label_index l name = i) /\
  (~ In name (map fst defs) -> label_index l name = LABEL_NOT_FOUND).
Proof.
  intros H N. pose proof (holds_find n l defs name H N) as F. unfold label_index, find_label.
  assert (U : forall i j, In (name, i) defs -> In (name, j) defs -> i = j).
  { intros i j Hi Hj. destruct (h_all _ _ _ H name i Hi) as [p [Hp [Kp Ip]]]. destruct (h_all _ _ _ H name j Hj) as [q [Hq [Kq Iq]]].
    pose proof (good_unique name_eq (lhash (2^n)) n (lkeys l) p q name (lt_good _ _ (h_tab _ _ _ H)) Hp Hq Kp Kq). congruence. }
  assert (InF : forall i, In (name, i) defs -> In name (map fst defs)).
  { intros i Hi. apply in_map_iff. exists (name, i). auto. }
  destruct (probe_label l name) as [p|p|].
  - destruct F as [_ [_ F]]. split; [|reflexivity]. intros i Hi. exfalso. eauto.
  - destruct F as [_ F]. split; [intros i Hi; eauto|]. intros C. exfalso. eauto.
  - destruct F as [F _]. split; [|reflexivity]. intros i Hi. exfalso. eauto.
Qed.

Lemma fresh_or_reset n l0 : 0 <= n -> l0 = init_labels (2 ^ n) \/ (exists l d, holds n l d /\ l0 = reset_label l) -> holds n l0 [].
Proof. intros Hn [->|[l [d [H ->]]]]; [apply holds_init, Hn|eapply holds_reset, H]. Qed.

Lemma load_resolves n defs : 0 <= n -> Forall (fun d => valid_name (fst d)) defs ->
  match load (init_labels (2 ^ n)) defs with
  | Some l => NoDup (map fst defs) /\ Z.of_nat (length defs) <= 2 ^ n /\
      forall name, valid_name name ->
        (forall i, In (name, i) defs -> label_index l name = i) /\
        (~ In name (map fst defs) -> label_index l name = LABEL_NOT_FOUND)
  | None => ~ NoDup (map fst defs) \/ 2 ^ n < Z.of_nat (length defs)
  end.
Proof.
  intros Hn V. pose proof (load_spec n defs _ [] (holds_init n Hn) V) as L.
  destruct (load (init_labels (2 ^ n)) defs) as [l|].
  - rewrite app_nil_r in L. pose proof (h_nodup _ _ _ L) as ND. pose proof (holds_le _ _ _ L) as Le.
    rewrite rev_length in Le. split; [|split; [exact Le|]].
    + rewrite map_rev in ND. apply NoDup_rev in ND. rewrite rev_involutive in ND. exact ND.
    + intros name N. destruct (holds_index n l _ name L N) as [A B]. split.
      * intros i I. apply A. apply in_rev in I. exact I.
      * intros I. apply B. intro C. apply I. rewrite map_rev in C. apply in_rev in C. exact C.
  - rewrite app_nil_r in L. destruct (Z_le_gt_dec (Z.of_nat (length defs)) (2 ^ n)); [left|right; lia]. tauto.
Qed.

(** table size *)
Definition smear (y s : Z) : Z := Z.lor y (Z.shiftr y s).
Lemma smear_bit y s i : 0 <= i -> 0 <= s -> Z.testbit (smear y s) i = Z.testbit y i || Z.testbit y (i + s).
Proof. intros. unfold smear. rewrite Z.lor_spec, Z.shiftr_spec by lia. reflexivity. Qed.
(** bits reached from the top bit in [h - w < i <= h] steps *)
Lemma smear_ge y s h w : 0 < s -> 0 <= w -> 
  (forall i, 0 <= i -> (exists q, 0 <= q < w /\ h - i = q * (2 * s)) -> Z.testbit y i = true) ->
  forall i, 0 <= i -> (exists q, 0 <= q < 2 * w /\ h - i = q * s) -> Z.testbit (smear y s) i = true.
Proof.
  intros Hs Hw H i Hi [q [Hq E]]. rewrite smear_bit by lia. apply orb_true_iff.
  destruct (Z.even q) eqn:Ev.
  - left. apply H; [lia|]. apply Z.even_spec in Ev as [m Em]. exists m. split; lia.
  - right. apply H; [lia|]. assert (Od : Z.odd q = true) by (rewrite <- Z.negb_even, Ev; reflexivity).
    apply Z.odd_spec in Od as [m Em]. exists m. split; [lia|]. subst q. lia.
Qed.
Lemma smear_high y s h : 0 <= s -> (forall i, h < i -> Z.testbit y i = false) -> 
  forall i, 0 <= h < i -> Z.testbit (smear y s) i = false.
Proof. intros Hs H i Hi. rewrite smear_bit by lia. rewrite !H by lia. reflexivity. Qed.

Lemma round_pow2 c : 1 <= c <= 2 ^ 31 -> exists k, 0 <= k <= 31 /\ round_labels c = 2 ^ k /\ c <= 2 ^ k.
Proof.
  intros Hc. change (2 ^ 31) with 2147483648 in Hc.
  destruct (Z.eq_dec c 1) as [->|N1]; [exists 0; repeat split; simpl; lia|].
  set (x := c - 1). set (h := Z.log2 x). assert (Hx : 0 < x) by (unfold x; lia).
  pose proof (Z.log2_spec x Hx) as [L1 L2]. fold h in L1, L2. pose proof (Z.log2_nonneg x) as Hh. fold h in Hh.
  assert (Hh2 : h < 31). { unfold h. apply Z.log2_lt_pow2; [lia|]. unfold x. change (2 ^ 31) with 2147483648. lia. }
  exists (Z.succ h). split; [lia|]. split; [|unfold x in L2; lia].
  assert (E : round_labels c = smear (smear (smear (smear (smear x 16) 8) 4) 2) 1 + 1) by reflexivity.
  rewrite E. replace (2 ^ Z.succ h) with (Z.ones (Z.succ h) + 1) by (rewrite Z.ones_equiv; lia). f_equal.
  apply Z.bits_inj'. intros i Hi.
  destruct (Z_le_gt_dec i h) as [Le|Gt].
  - rewrite Z.ones_spec_low by lia.
    assert (B0 : forall i, 0 <= i -> (exists q, 0 <= q < 1 /\ h - i = q * (2 * 16)) -> Z.testbit x i = true).
    { intros j Hj [q [Hq Eq]]. replace j with h by lia. apply Z.bit_log2. exact Hx. }
    pose proof (smear_ge x 16 h 1 ltac:(lia) ltac:(lia) B0) as B1.
    pose proof (smear_ge _ 8 h 2 ltac:(lia) ltac:(lia) B1) as B2.
    pose proof (smear_ge _ 4 h 4 ltac:(lia) ltac:(lia) B2) as B3.
    pose proof (smear_ge _ 2 h 8 ltac:(lia) ltac:(lia) B3) as B4.
    pose proof (smear_ge _ 1 h 16 ltac:(lia) ltac:(lia) B4) as B5.
    apply B5; [lia|]. exists (h - i). lia.
  - rewrite Z.ones_spec_high by lia.
    assert (Z0 : forall i, h < i -> Z.testbit x i = false) by (intros; apply Z.bits_above_log2; fold h; lia).
    assert (Z1 : forall i, h < i -> Z.testbit (smear x 16) i = false) by (intros; eapply smear_high; [| |split]; eauto; lia).
    assert (Z2 : forall i, h < i -> Z.testbit (smear (smear x 16) 8) i = false) by (intros; eapply smear_high; [| |split]; eauto; lia).
    assert (Z3 : forall i, h < i -> Z.testbit (smear (smear (smear x 16) 8) 4) i = false) by (intros; eapply smear_high; [| |split]; eauto; lia).
    assert (Z4 : forall i, h < i -> Z.testbit (smear (smear (smear (smear x 16) 8) 4) 2) i = false) by (intros; eapply smear_high; [| |split]; eauto; lia).
    eapply smear_high; [| |split]; eauto; lia.
Qed.

(** lines (ending in CR) whose first character after spaces is '@' *)
Fixpoint starts_at (line : list Z) : bool :=
  match line with [] => false | c :: t => if c =? 32 then starts_at t else c =? 64 end.
Fixpoint lines (data : list Z) : list (list Z) :=
  match data with
  | [] => [[]]
  | c :: t => if c =? 13 then [] :: lines t
              else match lines t with l :: r => (c :: l) :: r | [] => [[c]] end
  end.
Definition label_lines (data : list Z) : Z := Z.of_nat (length (filter starts_at (lines data))).

Lemma count_lines data : 
  (forall n, n + Z.of_nat (length (filter starts_at (lines data))) <= count_loop data true n) /\
  (forall n, n + Z.of_nat (length (filter starts_at (tl (lines data)))) <= count_loop data false n).
Proof.
  induction data as [|c t [IH1 IH2]]; simpl; [split; intros; simpl; lia|].
  assert (Tl : forall n, n + Z.of_nat (length (filter starts_at (tl (lines t)))) <= count_loop t true n).
  { intros n. specialize (IH1 n). destruct (lines t) as [|l r]; simpl in *; [exact IH1|]. destruct (starts_at l); simpl in *; lia. }
  assert (Ne : lines t <> []). { destruct t as [|d t']; simpl; [discriminate|]. destruct (d =? 13); [discriminate|]. destruct (lines t'); discriminate. }
  destruct (c =? 13) eqn:E13; [split; intros n; simpl; apply IH1|].
  destruct (lines t) as [|l r] eqn:El; [congruence|]. simpl tl in *. split; intros n.
  - cbn [andb]. cbn [filter starts_at]. destruct (c =? 64) eqn:E64.
    + replace (c =? 32) with false by lia. cbn [length]. specialize (Tl (n + 1)). lia.
    + destruct (c =? 32) eqn:E32; cbn [negb].
      * specialize (IH1 n). cbn [filter] in IH1. destruct (starts_at l); exact IH1.
      * apply IH2.
  - cbn [andb]. destruct (c =? 32); cbn [negb]; apply IH2.
Qed.

Lemma count_le data : forall first n, 0 <= n -> count_loop data first n <= n + Z.of_nat (length data).
Proof.
  induction data as [|c t IH]; intros first n Hn; cbn [count_loop length]; [lia|].
  destruct (c =? 13); [specialize (IH true n Hn); lia|].
  destruct (first && (c =? 64)); [specialize (IH first (n + 1)); lia|].
  destruct (negb (c =? 32)); [specialize (IH false n Hn)|specialize (IH first n Hn)]; lia.
Qed.

Lemma table_size data : Z.of_nat (length data) <= 2 ^ 31 -> 0 < label_lines data ->
  exists k, 0 <= k <= 31 /\ calc_min_labels data = 2 ^ k /\ label_lines data <= 2 ^ k.
Proof.
  intros L Hp. unfold calc_min_labels, label_lines in *. destruct (count_lines data) as [A _]. specialize (A 0).
  pose proof (count_le data true 0 ltac:(lia)) as B.
  destruct (round_pow2 (count_loop data true 0)) as [k [Hk [E Le]]]; [lia|]. exists k. repeat split; try lia.
Qed.

Lemma load_count defs : forall l l', load l defs = Some l' -> label_count l' = label_count l.
Proof.
  induction defs as [|[nm i] t IH]; intros l l' H; simpl in H; [congruence|].
  destruct (add_label l nm i) as [l1|] eqn:E; [|discriminate]. rewrite (IH _ _ H).
  unfold add_label in E. destruct (find_label_slot l nm); [|discriminate]. injection E as <-. reflexivity.
Qed.

Lemma jump_spec n defs l name : 0 <= n -> Forall (fun d => valid_name (fst d) /\ 0 <= snd d < LABEL_NOT_FOUND) defs ->
  load (init_labels (2 ^ n)) defs = Some l -> valid_name name ->
  (forall i, In (name, i) defs -> search_label l (Lit name) = Ok i /\ search_label l (Text (64 :: name)) = Ok i) /\
  (~ In name (map fst defs) -> search_label l (Lit name) = Err ERR_LABEL_NOT_FOUND /\
                               search_label l (Text (64 :: name)) = Err ERR_LABEL_NOT_FOUND).
Proof.
  intros Hn V L N. assert (V1 : Forall (fun d => valid_name (fst d)) defs) by (eapply Forall_impl; [|exact V]; intros d [A _]; exact A).
  pose proof (load_resolves n defs Hn V1) as R. rewrite L in R. destruct R as [_ [_ R]]. destruct (R name N) as [A B].
  unfold search_label. destruct N as [[N1 N2] N3]. replace (length name <=? 16)%nat with true by lia.
  pose proof (load_count _ _ _ L) as C. unfold init_labels in C. cbn [label_count] in C. rewrite C.
  assert (0 < 2 ^ n) by (apply Z.pow_pos_nonneg; lia). replace (2 ^ n =? 0) with false by lia. split.
  - intros i I. rewrite (A i I). rewrite Forall_forall in V. destruct (V _ I) as [_ Vi]. simpl in Vi.
    replace (i =? LABEL_NOT_FOUND) with false by lia. auto.
  - intros I. rewrite (B I), Z.eqb_refl. auto.
Qed.

Lemma load_gen n defs l0 : holds n l0 [] -> Forall (fun d => valid_name (fst d)) defs ->
  match load l0 defs with
  | Some l => NoDup (map fst defs) /\ Z.of_nat (length defs) <= 2 ^ n /\
      forall name, valid_name name ->
        (forall i, In (name, i) defs -> label_index l name = i) /\
        (~ In name (map fst defs) -> label_index l name = LABEL_NOT_FOUND)
  | None => ~ NoDup (map fst defs) \/ 2 ^ n < Z.of_nat (length defs)
  end.
Proof.
  intros H V. pose proof (load_spec n defs _ [] H V) as L.
  destruct (load l0 defs) as [l|].
  - rewrite app_nil_r in L. pose proof (h_nodup _ _ _ L) as ND. pose proof (holds_le _ _ _ L) as Le.
    rewrite rev_length in Le. split; [|split; [exact Le|]].
    + rewrite map_rev in ND. apply NoDup_rev in ND. rewrite rev_involutive in ND. exact ND.
    + intros name N. destruct (holds_index n l _ name L N) as [A B]. split.
      * intros i I. apply A. apply in_rev in I. exact I.
      * intros I. apply B. intro C. apply I. rewrite map_rev in C. apply in_rev in C. exact C.
  - rewrite app_nil_r in L. destruct (Z_le_gt_dec (Z.of_nat (length defs)) (2 ^ n)); [left|right; lia]. tauto.
Qed.
Lemma reload_spec n defs1 defs l1 : 0 <= n ->
  Forall (fun d => valid_name (fst d)) defs1 -> Forall (fun d => valid_name (fst d)) defs ->
  load (init_labels (2 ^ n)) defs1 = Some l1 ->
  match load (reset_label l1) defs with
  | Some l => NoDup (map fst defs) /\ Z.of_nat (length defs) <= 2 ^ n /\
      forall name, valid_name name ->
        (forall i, In (name, i) defs -> label_index l name = i) /\
        (~ In name (map fst defs) -> label_index l name = LABEL_NOT_FOUND)
  | None => ~ NoDup (map fst defs) \/ 2 ^ n < Z.of_nat (length defs)
  end.
Proof.
  intros Hn V1 V L. apply load_gen; [|exact V]. pose proof (load_spec n defs1 _ [] (holds_init n Hn) V1) as H.
  rewrite L in H. eapply holds_reset. exact H.
Qed.
Lemma no_labels : calc_min_labels [] = 0 /\ forall l x, label_count l = 0 -> search_label l x = UB.
Proof.
  split; [reflexivity|]. intros l x E. unfold search_label. rewrite E. simpl.
  destruct x as [cs|[|c cs]]; try reflexivity; destruct (_ <=? 16)%nat; reflexivity.
Qed.
Lemma string_label l name : valid_name name ->
  (forall c, search_label l (Text (c :: name)) = search_label l (Lit name)) /\
  search_label l (Text []) = UB /\
  (forall cs, (17 < length cs)%nat -> search_label l (Text cs) = UB).
Proof.
  intros N. split; [reflexivity|]. split; [reflexivity|]. intros [|c cs] H; [reflexivity|].
  unfold search_label. simpl in H. replace (length cs <=? 16)%nat with false by lia. reflexivity.
Qed.
