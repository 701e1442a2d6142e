(** Corollaries of the simulation, stated on histories *)
From Verif Require Import Base BaseLemmas Hash HashProofs Vars VarsSpec VarsProofs VarsSim VarsRun.
From Coq Require Import Permutation.
Open Scope Z_scope.
Ltac Zify.zify_post_hook ::= Z.div_mod_to_equations.

Arguments key_eq : simpl never.
Arguments mem : simpl never.
Arguments in_dec : simpl never.
Arguments Z.pow : simpl never.
Arguments Z.of_nat : simpl never.
Arguments Z.add : simpl never.
(** the state after a history, if nothing failed *)
Fixpoint exec (v : variables) (ops : list op) : option variables :=
  match ops with
  | [] => Some v
  | o :: t => let '(v, r) := step v o in if fails r then None else exec v t
  end.
Fixpoint sexec (max cells : Z) (ids : bool) (s : sstate) (ops : list op) : option sstate :=
  match ops with
  | [] => Some s
  | o :: t => let '(s, r) := sstep max cells ids s o in if fails r then None else sexec max cells ids s t
  end.

Section H.
Context (n cells : Z) (ids : bool).
Local Notation mx := (2 ^ n).

Lemma exec_sim ops : forall v s, sim n cells ids v s -> all_allowed mx cells ids s ops ->
  match sexec mx cells ids s ops with
  | Some s' => exists v', exec v ops = Some v' /\ sim n cells ids v' s'
  | None => exec v ops = None
  end.
Proof.
  induction ops as [|o t IH]; intros v s R Al; simpl; [eauto|].
  destruct Al as [A1 A2]. pose proof (step_sim n cells ids v s o R A1) as S.
  destruct (sstep mx cells ids s o) as [s' r]. destruct S as [v' [E [R' NU]]]. rewrite E.
  destruct r; simpl in *; try reflexivity; apply IH; auto.
Qed.

Lemma srun_app ops1 ops2 : forall s,
  srun mx cells ids s (ops1 ++ ops2) =
  srun mx cells ids s ops1 ++ match sexec mx cells ids s ops1 with Some s' => srun mx cells ids s' ops2 | None => [] end.
Proof.
  induction ops1 as [|o t IH]; intros s; simpl; [reflexivity|].
  destruct (sstep mx cells ids s o) as [s' r]. destruct r; simpl; try reflexivity; rewrite IH; reflexivity.
Qed.
Lemma allowed_app ops1 ops2 : forall s, all_allowed mx cells ids s (ops1 ++ ops2) ->
  all_allowed mx cells ids s ops1 /\
  match sexec mx cells ids s ops1 with Some s' => all_allowed mx cells ids s' ops2 | None => True end.
Proof.
  induction ops1 as [|o t IH]; intros s; simpl; [tauto|].
  intros [A B]. destruct (sstep mx cells ids s o) as [s' r]. destruct r; simpl in *; try tauto; apply IH in B; tauto.
Qed.
Lemma srun_len ops : forall s, (length (srun mx cells ids s ops) <= length ops)%nat.
Proof.
  induction ops as [|o t IH]; intros s; simpl; [lia|].
  destruct (sstep mx cells ids s o) as [s' r]. destruct r; simpl; try lia; specialize (IH s'); lia.
Qed.
Lemma srun_ok ops : forall s s', sexec mx cells ids s ops = Some s' -> length (srun mx cells ids s ops) = length ops.
Proof.
  induction ops as [|o t IH]; intros s s'; simpl; [reflexivity|].
  destruct (sstep mx cells ids s o) as [s1 r]. destruct r; simpl; try discriminate; intros H; rewrite (IH _ _ H); reflexivity.
Qed.
Lemma srun_fail ops : forall s, sexec mx cells ids s ops = None -> existsb fails (srun mx cells ids s ops) = true.
Proof.
  induction ops as [|o t IH]; intros s; simpl; [discriminate|].
  destruct (sstep mx cells ids s o) as [s1 r]. destruct r; simpl; auto.
Qed.
Lemma srun_no_fail ops : forall s s', sexec mx cells ids s ops = Some s' -> existsb fails (srun mx cells ids s ops) = false.
Proof.
  induction ops as [|o t IH]; intros s s'; simpl; [reflexivity|].
  destruct (sstep mx cells ids s o) as [s1 r]. destruct r; simpl; try discriminate; apply IH.
Qed.

(** scalars: last write wins *)
Definition writes (nm : list Z) (t : Z) (o : op) : bool :=
  match o with Write a b _ => if key_eq (a, b) (nm, t) then true else false | Clear => true | _ => false end.
Lemma touch_sc s k s' : touch mx s k = Some s' -> sc s' = sc s /\ ar s' = ar s /\ (known s' = known s \/ (known s' = k :: known s)) /\ used s' = used s.
Proof.
  unfold touch. destruct (mem k (known s)); [intros H; injection H as <-; tauto|].
  destruct (_ >=? mx); [discriminate|]. intros H; injection H as <-. simpl. tauto.
Qed.
Lemma the_array_sc s k t j s' a : the_array cells s k t j = Some (s', a) -> sc s' = sc s /\ known s' = known s.
Proof.
  unfold the_array. destruct (ar s k); [intros H; injection H as <- _; tauto|].
  destruct (_ >=? cells); [discriminate|]. intros H. injection H as <- _. simpl. tauto.
Qed.
Lemma access_sc s nm t i j s' a p : access mx cells s nm t i j = Ok (s', a, p) -> sc s' = sc s.
Proof.
  unfold access. destruct (touch mx s (nm, t + VAR_ARRAY)) as [s1|] eqn:E; [|discriminate].
  destruct (the_array cells s1 _ t j) as [[s2 a2]|] eqn:E2; [|discriminate].
  destruct (subscript a2 i j); simpl; try discriminate. intros H. injection H as <- _ _.
  apply touch_sc in E as [E _]. apply the_array_sc in E2 as [E2 _]. congruence.
Qed.
Lemma sstep_sc s o nm t s' r : writes nm t o = false -> sstep mx cells ids s o = (s', r) -> sc s' (nm, t) = sc s (nm, t).
Proof.
  destruct o as [a b|a b x|a b d e|a b i j|a b i j x| |]; simpl; intros W H.
  - destruct (touch mx s (a, b)) as [s1|] eqn:E; injection H as <- _; [|reflexivity].
    apply touch_sc in E as [E _]. rewrite E. reflexivity.
  - destruct (touch mx s (a, b)) as [s1|] eqn:E; injection H as <- _; [|reflexivity].
    apply touch_sc in E as [E _]. simpl. unfold set.
    destruct (key_eq (nm, t) (a, b)) as [C|C].
    + revert W. destruct (key_eq (a, b) (nm, t)) as [K|K]; intro W; [discriminate W|]. exfalso. apply K. symmetry. exact C.
    + rewrite E. reflexivity.
  - destruct (_ && _); [injection H as <- _; reflexivity|].
    destruct (touch mx s _) as [s1|] eqn:E; [|injection H as <- _; reflexivity].
    apply touch_sc in E as [E _]. destruct (_ >=? cells); injection H as <- _; simpl; rewrite E; reflexivity.
  - destruct (access mx cells s a b i j) as [[[s1 a1] [i1 j1]]|e|] eqn:E; injection H as <- _; try reflexivity.
    apply access_sc in E. rewrite E. reflexivity.
  - destruct (access mx cells s a b i j) as [[[s1 a1] [i1 j1]]|e|] eqn:E; injection H as <- _; try reflexivity.
    apply access_sc in E. simpl. rewrite E. reflexivity.
  - discriminate.
  - injection H as <- _. reflexivity.
Qed.
Lemma sexec_sc ops nm t : forall s s', forallb (fun o => negb (writes nm t o)) ops = true ->
  sexec mx cells ids s ops = Some s' -> sc s' (nm, t) = sc s (nm, t).
Proof.
  induction ops as [|o ops IH]; intros s s' W; simpl; [congruence|].
  simpl in W. apply andb_true_iff in W as [W1 W2].
  destruct (sstep mx cells ids s o) as [s1 r] eqn:E. destruct (fails r); [discriminate|]. intros H.
  rewrite (IH _ _ W2 H). eapply sstep_sc; [|exact E]. destruct (writes nm t o); [discriminate|reflexivity].
Qed.

Lemma sstep_keep s o k s' r : o <> Clear -> sstep mx cells ids s o = (s', r) -> In k (known s) -> In k (known s').
Proof.
  assert (Tk : forall q s1, touch mx s q = Some s1 -> In k (known s) -> In k (known s1)).
  { intros q s1 E I. apply touch_sc in E as [_ [_ [[->| ->] _]]]; [exact I|right; exact I]. }
  assert (Acc : forall nm t i j s1 a p, access mx cells s nm t i j = Ok (s1, a, p) -> In k (known s) -> In k (known s1)).
  { intros nm t i j s1 a p. unfold access. destruct (touch mx s (nm, t + VAR_ARRAY)) as [s0|] eqn:Et; [|discriminate].
    destruct (the_array cells s0 _ t j) as [[s2 a2]|] eqn:Ea; [|discriminate].
    destruct (subscript a2 i j); simpl; try discriminate. intros H I. injection H as <- _ _.
    apply the_array_sc in Ea as [_ Ea]. rewrite Ea. eapply Tk; eauto. }
  destruct o as [a b|a b x|a b d e|a b i j|a b i j x| |]; simpl; intros NC H I; try congruence.
  - destruct (touch mx s (a, b)) as [s1|] eqn:E; injection H as <- _; eauto.
  - destruct (touch mx s (a, b)) as [s1|] eqn:E; injection H as <- _; simpl; eauto.
  - destruct (mem _ _ && negb _); [injection H as <- _; exact I|].
    destruct (touch mx s (a, b + VAR_ARRAY)) as [s1|] eqn:E; [|injection H as <- _; exact I].
    destruct (_ >=? cells); injection H as <- _; simpl; eauto.
  - destruct (access mx cells s a b i j) as [[[s1 a1] [i1 j1]]|e|] eqn:E; injection H as <- _; eauto.
  - destruct (access mx cells s a b i j) as [[[s1 a1] [i1 j1]]|e|] eqn:E; injection H as <- _; simpl; eauto.
Qed.
Lemma sexec_keep ops k : forall s s', ~ In Clear ops -> sexec mx cells ids s ops = Some s' -> In k (known s) -> In k (known s').
Proof.
  induction ops as [|o ops IH]; intros s s' W; simpl; [congruence|].
  destruct (sstep mx cells ids s o) as [s1 r] eqn:E. destruct (fails r); [discriminate|]. intros H I.
  apply (IH s1 s'); [intro C; apply W; right; exact C|exact H|].
  eapply sstep_keep; [|exact E|exact I]. intros ->. apply W. left. reflexivity.
Qed.
Lemma touch_in s k s' : touch mx s k = Some s' -> In k (known s').
Proof.
  unfold touch. destruct (mem k (known s)) eqn:M.
  - apply mem_spec in M. intros H; injection H as <-. exact M.
  - destruct (_ >=? mx); [discriminate|]. intros H; injection H as <-. left. reflexivity.
Qed.
Lemma last_write s ops1 nm t x ops2 s' : sexec mx cells ids s (ops1 ++ Write nm t x :: ops2) = Some s' ->
  forallb (fun o => negb (writes nm t o)) ops2 = true -> sc s' (nm, t) = x /\ In (nm, t) (known s').
Proof.
  revert s. induction ops1 as [|o ops1 IH]; intros s; simpl.
  - destruct (touch mx s (nm, t)) as [s1|] eqn:E; simpl; [|discriminate]. intros H W. split.
    + rewrite (sexec_sc _ _ _ _ _ W H). simpl. unfold set. destruct (key_eq (nm, t) (nm, t)); congruence.
    + eapply sexec_keep; [|exact H|simpl; eapply touch_in; exact E].
      intro C. rewrite forallb_forall in W. apply W in C. discriminate.
  - destruct (sstep mx cells ids s o) as [s1 r]. destruct (fails r); [discriminate|]. apply IH.
Qed.

(** array elements: last write wins *)
Definition awrites (nm : list Z) (t i j : Z) (o : op) : bool :=
  match o with
  | AWrite a b i' j' _ => (if key_eq (a, b) (nm, t) then true else false) && (i' =? i) && (match j' with Some y => y | None => 0 end =? j)
  | Clear => true | _ => false end.
Definition holds (s : sstate) (k : key) (i j : Z) (x : value) (jo : option Z) : Prop :=
  In k (known s) /\ exists a, ar s k = Some a /\ elem a i j = x /\ subscript a i jo = Ok (i, j).
Lemma touch_holds s k' s' k i j x jo : touch mx s k' = Some s' -> holds s k i j x jo -> holds s' k i j x jo.
Proof.
  intros E [A B]. apply touch_sc in E as [_ [Ea [Ek _]]]. split.
  - destruct Ek as [->| ->]; [exact A|right; exact A].
  - rewrite Ea. exact B.
Qed.
Lemma access_holds s nm t i' j' s' a p k i j x jo : access mx cells s nm t i' j' = Ok (s', a, p) ->
  holds s k i j x jo -> holds s' k i j x jo /\ ar s' (nm, t + VAR_ARRAY) = Some a /\
  fst p = i' /\ snd p = match j' with Some y => y | None => 0 end.
Proof.
  unfold access. destruct (touch mx s (nm, t + VAR_ARRAY)) as [s1|] eqn:E; [|discriminate].
  unfold the_array. intros H0 Hh. pose proof (touch_holds _ _ _ _ _ _ _ _ E Hh) as Hh1.
  assert (P : forall a0 q, subscript a0 i' j' = Ok q -> fst q = i' /\ snd q = match j' with Some y => y | None => 0 end).
  { intros a0 q. unfold subscript. destruct (_ || _); [discriminate|]. destruct j' as [y|].
    - destruct (_ || _); [discriminate|]. intros Q; injection Q as <-. simpl. tauto.
    - intros Q; injection Q as <-. simpl. tauto. }
  destruct (ar s1 (nm, t + VAR_ARRAY)) as [a0|] eqn:Ea.
  - destruct (subscript a0 i' j') as [q| |] eqn:Es; simpl in H0; try discriminate. injection H0 as <- <- <-.
    destruct (P _ _ Es). tauto.
  - destruct (_ >=? cells); [discriminate|]. cbn [bind] in H0.
    match type of H0 with context [subscript ?a ?i ?j] => destruct (subscript a i j) as [q| |] eqn:Es end; simpl in H0; try discriminate.
    injection H0 as <- <- <-. destruct (P _ _ Es). split; [|split; [|tauto]].
    + destruct Hh1 as [I1 [a1 [A1 A2]]]. split; [exact I1|]. simpl. unfold set.
      destruct (key_eq k (nm, t + VAR_ARRAY)) as [->|]; [congruence|eauto].
    + simpl. unfold set. destruct (key_eq _ _); congruence.
Qed.
Lemma sstep_holds s o nm t i j x jo s' r : awrites nm t i j o = false -> sstep mx cells ids s o = (s', r) ->
  fails r = false -> holds s (nm, t + VAR_ARRAY) i j x jo -> holds s' (nm, t + VAR_ARRAY) i j x jo.
Proof.
  set (k := (nm, t + VAR_ARRAY)).
  destruct o as [a b|a b y|a b d e|a b i' j'|a b i' j' y| |]; simpl; intros W H F Hh.
  - destruct (touch mx s (a, b)) as [s1|] eqn:E; injection H as <- _; [|exact Hh]. eapply touch_holds; eauto.
  - destruct (touch mx s (a, b)) as [s1|] eqn:E; injection H as <- _; [|exact Hh].
    destruct (touch_holds _ _ _ k i j x jo E Hh) as [A B]. split; assumption.
  - destruct (mem _ _ && negb _) eqn:M; [injection H as <- _; exact Hh|].
    destruct (touch mx s (a, b + VAR_ARRAY)) as [s1|] eqn:E; [|injection H as <- _; exact Hh].
    pose proof (touch_holds _ _ _ k i j x jo E Hh) as [A [a1 [B1 B2]]].
    destruct (_ >=? cells); injection H as <- _; [split; eauto|].
    split; [exact A|]. simpl. unfold set. destruct (key_eq k (a, b + VAR_ARRAY)) as [Ek|]; [|eauto].
    exfalso. rewrite <- Ek in M. destruct Hh as [A0 [a0 [B0 _]]]. rewrite B0 in M.
    rewrite (proj2 (mem_spec k (known s)) A0), andb_false_r in M. discriminate.
  - destruct (access mx cells s a b i' j') as [[[s1 a1] [i1 j1]]|e|] eqn:E; injection H as <- <-; try exact Hh.
    apply (access_holds _ _ _ _ _ _ _ _ k i j x jo E Hh).
  - destruct (access mx cells s a b i' j') as [[[s1 a1] [i1 j1]]|e|] eqn:E; injection H as <- <-; try exact Hh.
    destruct (access_holds _ _ _ _ _ _ _ _ k i j x jo E Hh) as [[A [a2 [B1 B2]]] [C [D1 D2]]].
    split; [exact A|]. simpl. unfold set. destruct (key_eq k (a, b + VAR_ARRAY)) as [Ek|]; [|eauto].
    rewrite <- Ek in C. rewrite C in B1. injection B1 as <-. eexists. split; [reflexivity|].
    destruct B2 as [B2 B3]. split; [|exact B3]. simpl.
    unfold set_elem. simpl in D1, D2. subst i1 j1.
    destruct ((i =? i') && (j =? match j' with Some z => z | None => 0 end)) eqn:Q; [|exact B2].
    exfalso. unfold k in Ek. injection Ek as -> Et. assert (b = t) by lia. subst b.
    revert W. destruct (key_eq (a, t) (a, t)); [|congruence]. simpl. intro W. lia.
  - discriminate.
  - injection H as <- _. exact Hh.
Qed.
Lemma sexec_holds ops nm t i j x jo : forall s s', forallb (fun o => negb (awrites nm t i j o)) ops = true ->
  sexec mx cells ids s ops = Some s' -> holds s (nm, t + VAR_ARRAY) i j x jo -> holds s' (nm, t + VAR_ARRAY) i j x jo.
Proof.
  induction ops as [|o ops IH]; intros s s' W; simpl; [congruence|].
  simpl in W. apply andb_true_iff in W as [W1 W2].
  destruct (sstep mx cells ids s o) as [s1 r] eqn:E. destruct (fails r) eqn:F; [discriminate|]. intros H Hh.
  apply (IH _ _ W2 H). eapply sstep_holds; [|exact E|exact F|exact Hh]. destruct (awrites nm t i j o); [discriminate|reflexivity].
Qed.
Lemma last_awrite s ops1 nm t i j x ops2 s' :
  sexec mx cells ids s (ops1 ++ AWrite nm t i j x :: ops2) = Some s' ->
  forallb (fun o => negb (awrites nm t i (match j with Some y => y | None => 0 end) o)) ops2 = true ->
  holds s' (nm, t + VAR_ARRAY) i (match j with Some y => y | None => 0 end) x j.
Proof.
  revert s. induction ops1 as [|o ops1 IH]; intros s.
  - cbn [app sexec sstep]. destruct (access mx cells s nm t i j) as [[[s1 a] [i1 j1]]|e|] eqn:E; simpl; try discriminate.
    intros H W. apply (sexec_holds _ _ _ _ _ _ _ _ _ W H). clear H W.
    unfold access in E. destruct (touch mx s (nm, t + VAR_ARRAY)) as [s0|] eqn:Et; [|discriminate].
    assert (K0 : In (nm, t + VAR_ARRAY) (known s0)).
    { unfold touch in Et. destruct (mem (nm, t + VAR_ARRAY) (known s)) eqn:M.
      - apply mem_spec in M. injection Et as <-. exact M.
      - destruct (_ >=? mx); [discriminate|]. injection Et as <-. left. reflexivity. }
    destruct (the_array cells s0 _ t j) as [[s2 a2]|] eqn:Ea; [|discriminate].
    destruct (subscript a2 i j) as [q| |] eqn:Es; simpl in E; try discriminate. injection E as <- <- Eq.
    split.
    + simpl. apply the_array_sc in Ea as [_ Ea]. rewrite Ea. exact K0.
    + simpl. unfold set. destruct (key_eq _ _); [|congruence]. eexists. split; [reflexivity|]. simpl. subst q.
      unfold set_elem. unfold subscript in *. cbn [d1 d2].
      destruct ((i <? 0) || (i >=? d1 a2)); [discriminate|]. destruct j as [y|].
      * destruct ((y <? 0) || (y >=? rows (d2 a2))); [discriminate|]. injection Es as <- <-. rewrite !Z.eqb_refl. split; reflexivity.
      * injection Es as <- <-. rewrite !Z.eqb_refl. split; reflexivity.
  - simpl. destruct (sstep mx cells ids s o) as [s1 r]. destruct (fails r); [discriminate|]. apply IH.
Qed.

(** creation: keys seen *)
Definition mentions (k : key) (o : op) : bool :=
  match o with
  | Read a b | Write a b _ => if key_eq (a, b) k then true else false
  | Dim a b _ _ | ARead a b _ _ | AWrite a b _ _ _ => if key_eq (a, b + VAR_ARRAY) k then true else false
  | Clear | FreeVar => false
  end.
Lemma touch_known s k s' k0 : touch mx s k = Some s' -> In k0 (known s') -> k0 = k \/ In k0 (known s).
Proof. intros E I. apply touch_sc in E as [_ [_ [E _]]]. destruct E as [E|E]; rewrite E in I; [tauto|]. destruct I; auto. Qed.
Lemma sstep_known s o s' r k : mentions k o = false -> sstep mx cells ids s o = (s', r) -> In k (known s') -> In k (known s).
Proof.
  assert (Acc : forall nm t i j s1 a p, access mx cells s nm t i j = Ok (s1, a, p) -> In k (known s1) -> k = (nm, t + VAR_ARRAY) \/ In k (known s)).
  { intros nm t i j s1 a p. unfold access. destruct (touch mx s (nm, t + VAR_ARRAY)) as [s0|] eqn:Et; [|discriminate].
    destruct (the_array cells s0 _ t j) as [[s2 a2]|] eqn:Ea; [|discriminate].
    destruct (subscript a2 i j); simpl; try discriminate. intros H I. injection H as <- _ _.
    apply the_array_sc in Ea as [_ Ea]. rewrite Ea in I. eapply touch_known; eauto. }
  destruct o as [a b|a b x|a b d e|a b i j|a b i j x| |]; simpl; intros M H I.
  - destruct (touch mx s (a, b)) as [s1|] eqn:E; injection H as <- _; [|exact I].
    destruct (touch_known _ _ _ _ E I) as [->|G]; [|exact G]. revert M. destruct (key_eq (a, b) (a, b)); intro M; congruence.
  - destruct (touch mx s (a, b)) as [s1|] eqn:E; injection H as <- _; [|exact I].
    destruct (touch_known _ _ _ _ E I) as [->|G]; [|exact G]. revert M. destruct (key_eq (a, b) (a, b)); intro M; congruence.
  - destruct (mem _ _ && negb _); [injection H as <- _; exact I|].
    destruct (touch mx s (a, b + VAR_ARRAY)) as [s1|] eqn:E; [|injection H as <- _; exact I].
    assert (I1 : In k (known s1)) by (destruct (_ >=? cells); injection H as <- _; exact I).
    destruct (touch_known _ _ _ _ E I1) as [->|G]; [|exact G]. revert M. destruct (key_eq (a, b + VAR_ARRAY) (a, b + VAR_ARRAY)); intro M; congruence.
  - destruct (access mx cells s a b i j) as [[[s1 a1] [i1 j1]]|e|] eqn:E; injection H as <- _; try exact I.
    destruct (Acc _ _ _ _ _ _ _ E I) as [->|G]; [|exact G]. revert M. destruct (key_eq (a, b + VAR_ARRAY) (a, b + VAR_ARRAY)); intro M; congruence.
  - destruct (access mx cells s a b i j) as [[[s1 a1] [i1 j1]]|e|] eqn:E; injection H as <- _; try exact I.
    destruct (Acc _ _ _ _ _ _ _ E I) as [->|G]; [|exact G]. revert M. destruct (key_eq (a, b + VAR_ARRAY) (a, b + VAR_ARRAY)); intro M; congruence.
  - injection H as <- _. simpl in I. destruct ids; [exact I|destruct I].
  - injection H as <- _. exact I.
Qed.
Lemma sexec_known ops k : forall s s', forallb (fun o => negb (mentions k o)) ops = true ->
  sexec mx cells ids s ops = Some s' -> In k (known s') -> In k (known s).
Proof.
  induction ops as [|o ops IH]; intros s s' W; simpl; [congruence|].
  simpl in W. apply andb_true_iff in W as [W1 W2].
  destruct (sstep mx cells ids s o) as [s1 r] eqn:E. destruct (fails r) eqn:F; [discriminate|]. intros H I.
  eapply sstep_known; [|exact E|exact (IH _ _ W2 H I)]. destruct (mentions k o); [discriminate|reflexivity].
Qed.
Lemma reads_room ks : forall s, Z.of_nat (length (known s)) + Z.of_nat (length ks) <= mx ->
  exists s', sexec mx cells ids s (map (fun k => Read (fst k) (snd k)) ks) = Some s'.
Proof.
  induction ks as [|k ks IH]; intros s H; simpl; [eauto|]. simpl in H.
  rewrite <- surjective_pairing. unfold touch. destruct (mem k (known s)); simpl.
  - apply IH. lia.
  - replace (Z.of_nat (length (known s)) >=? mx) with false by lia. simpl. apply IH. simpl. lia.
Qed.
Lemma sexec_app ops1 ops2 : forall s, sexec mx cells ids s (ops1 ++ ops2) =
  match sexec mx cells ids s ops1 with Some s' => sexec mx cells ids s' ops2 | None => None end.
Proof.
  induction ops1 as [|o t IH]; intros s; simpl; [reflexivity|].
  destruct (sstep mx cells ids s o) as [s' r]. destruct (fails r); [reflexivity|apply IH].
Qed.
Lemma allowed_app_intro ops1 ops2 : forall s, all_allowed mx cells ids s ops1 ->
  (forall s', sexec mx cells ids s ops1 = Some s' -> all_allowed mx cells ids s' ops2) ->
  all_allowed mx cells ids s (ops1 ++ ops2).
Proof.
  induction ops1 as [|o t IH]; intros s; simpl; [auto|].
  intros [A B] C. split; [exact A|]. destruct (sstep mx cells ids s o) as [s' r]. destruct r; simpl in *; auto.
Qed.
Lemma allowed_reads ks : Forall (fun k : key => legal_name (fst k) /\ (snd k = 1 \/ snd k = 2)) ks ->
  forall s, all_allowed mx cells ids s (map (fun k => Read (fst k) (snd k)) ks).
Proof.
  induction 1 as [|k ks Hk _ IH]; intros s; simpl; [exact I|]. split; [exact Hk|].
  destruct (touch mx s _); simpl; auto.
Qed.
End H.

(** final forms *)
Definition start (n elements : Z) (ids : bool) : variables := init_vars (2 ^ n) elements ids.
Definition legal_history (n elements : Z) (ids : bool) (ops : list op) : Prop :=
  0 <= n /\ 0 <= elements /\ elements + 2 * 2 ^ n < 2 ^ 30 /\
  all_allowed (2 ^ n) (elements + 2 * 2 ^ n) ids sinit ops.

Lemma hist_eq n e ids ops : legal_history n e ids ops ->
  run (start n e ids) ops = srun (2 ^ n) (e + 2 * 2 ^ n) ids sinit ops.
Proof. intros [A [B [C D]]]. apply history; assumption. Qed.

Lemma existsb_app_false {A} (f : A -> bool) l1 l2 : existsb f (l1 ++ l2) = false -> existsb f l1 = false /\ existsb f l2 = false.
Proof. rewrite existsb_app. apply orb_false_iff. Qed.

Lemma split_history n e ids ops ops' : legal_history n e ids (ops ++ ops') ->
  existsb fails (run (start n e ids) ops) = false ->
  exists s', sexec (2 ^ n) (e + 2 * 2 ^ n) ids sinit ops = Some s' /\
    all_allowed (2 ^ n) (e + 2 * 2 ^ n) ids s' ops' /\
    run (start n e ids) (ops ++ ops') = run (start n e ids) ops ++ srun (2 ^ n) (e + 2 * 2 ^ n) ids s' ops'.
Proof.
  intros L F. pose proof L as [A [B [C D]]]. destruct (allowed_app _ _ _ _ _ _ D) as [D1 D2].
  assert (L1 : legal_history n e ids ops) by (repeat split; assumption).
  rewrite (hist_eq n e ids ops L1) in *. rewrite (hist_eq n e ids (ops ++ ops') L).
  rewrite srun_app. destruct (sexec (2 ^ n) (e + 2 * 2 ^ n) ids sinit ops) as [s'|] eqn:E.
  2:{ apply srun_fail in E. congruence. }
  exists s'. auto.
Qed.

Lemma scalar_last_write n e ids ops1 nm t x ops2 :
  let ops := ops1 ++ Write nm t x :: ops2 in
  legal_history n e ids (ops ++ [Read nm t]) -> existsb fails (run (start n e ids) ops) = false ->
  forallb (fun o => negb (writes nm t o)) ops2 = true ->
  run (start n e ids) (ops ++ [Read nm t]) = run (start n e ids) ops ++ [RVal x].
Proof.
  intros ops L F W. destruct (split_history n e ids ops [Read nm t] L F) as [s' [E [_ ->]]]. f_equal.
  destruct (last_write _ _ _ _ _ _ _ _ _ _ E W) as [G K]. simpl.
  unfold touch. rewrite (proj2 (mem_spec (nm, t) (known s')) K). rewrite G. reflexivity.
Qed.

Lemma scalar_never_written n e ids ops nm t :
  legal_history n e ids (ops ++ [Read nm t]) -> existsb fails (run (start n e ids) ops) = false ->
  forallb (fun o => negb (writes nm t o)) ops = true ->
  run (start n e ids) (ops ++ [Read nm t]) = run (start n e ids) ops ++ [RVal (zero t)] \/
  run (start n e ids) (ops ++ [Read nm t]) = run (start n e ids) ops ++ [RErr ERR_OUT_OF_MEMORY].
Proof.
  intros L F W. destruct (split_history n e ids ops [Read nm t] L F) as [s' [E [_ ->]]].
  pose proof (sexec_sc _ _ _ _ _ _ _ _ W E) as G. simpl.
  destruct (touch (2 ^ n) s' (nm, t)) as [s2|] eqn:Et; [left|right; reflexivity].
  apply touch_sc in Et as [Et _]. rewrite Et, G. reflexivity.
Qed.

Lemma scalar_after_clear n e ids ops1 nm t ops2 :
  let ops := ops1 ++ Clear :: ops2 in
  legal_history n e ids (ops ++ [Read nm t]) -> existsb fails (run (start n e ids) ops) = false ->
  forallb (fun o => negb (writes nm t o)) ops2 = true ->
  run (start n e ids) (ops ++ [Read nm t]) = run (start n e ids) ops ++ [RVal (zero t)] \/
  run (start n e ids) (ops ++ [Read nm t]) = run (start n e ids) ops ++ [RErr ERR_OUT_OF_MEMORY].
Proof.
  intros ops L F W. destruct (split_history n e ids ops [Read nm t] L F) as [s' [E [_ ->]]].
  unfold ops in E. rewrite sexec_app in E. destruct (sexec _ _ _ sinit ops1) as [s1|]; [|discriminate].
  cbn [sexec sstep fails] in E. pose proof (sexec_sc _ _ _ _ _ _ _ _ W E) as G. simpl.
  destruct (touch (2 ^ n) s' (nm, t)) as [s2|] eqn:Et; [left|right; reflexivity].
  apply touch_sc in Et as [Et _]. rewrite Et, G. reflexivity.
Qed.

Lemma element_last_write n e ids ops1 nm t i j x ops2 :
  let ops := ops1 ++ AWrite nm t i j x :: ops2 in
  legal_history n e ids (ops ++ [ARead nm t i j]) -> existsb fails (run (start n e ids) ops) = false ->
  forallb (fun o => negb (awrites nm t i (match j with Some y => y | None => 0 end) o)) ops2 = true ->
  run (start n e ids) (ops ++ [ARead nm t i j]) = run (start n e ids) ops ++ [RVal x].
Proof.
  intros ops L F W. destruct (split_history n e ids ops [ARead nm t i j] L F) as [s' [E [_ ->]]]. f_equal.
  destruct (last_awrite _ _ _ _ _ _ _ _ _ _ _ _ E W) as [K [a [A1 [A2 A3]]]]. cbn [srun sstep]. unfold access.
  unfold touch. rewrite (proj2 (mem_spec _ (known s')) K). unfold the_array. rewrite A1, A3. cbn [bind].
  rewrite A2. reflexivity.
Qed.

Lemma room n e ops ks : 0 <= n -> legal_history n e false ops ->
  Forall (fun k : key => legal_name (fst k) /\ (snd k = 1 \/ snd k = 2)) ks ->
  existsb fails (run (start n e false) ops) = false ->
  exists f, run (start n e false) (ops ++ [FreeVar]) = run (start n e false) ops ++ [RVal (VNum f)] /\ 0 <= f <= 2 ^ n /\
  (Z.of_nat (length ks) <= f ->
     existsb fails (run (start n e false) (ops ++ map (fun k => Read (fst k) (snd k)) ks)) = false) /\
  (f = 0 -> forall nm t, legal_name nm -> t = 1 \/ t = 2 -> forallb (fun o => negb (mentions (nm, t) o)) ops = true ->
     run (start n e false) (ops ++ [Read nm t]) = run (start n e false) ops ++ [RErr ERR_OUT_OF_MEMORY]).
Proof.
  intros Hn L Lk F. pose proof L as [A [B [C D]]].
  assert (Ext : forall ops', (forall s', all_allowed (2 ^ n) (e + 2 * 2 ^ n) false s' ops') -> legal_history n e false (ops ++ ops')).
  { intros ops' H. repeat split; try assumption. apply allowed_app_intro; [exact D|]. intros s' _. apply H. }
  assert (L1 : legal_history n e false (ops ++ [FreeVar])) by (apply Ext; intros; simpl; tauto).
  destruct (split_history n e false ops [FreeVar] L1 F) as [s' [E [_ R1]]].
  pose proof (exec_sim n (e + 2 * 2 ^ n) false ops _ _ (init_sim n e false A B C) D) as X.
  rewrite E in X. destruct X as [v' [_ S']].
  pose proof (sim_full _ _ _ _ _ S') as Fl. pose proof (okeys_len (vars v')) as Ol. rewrite (tab_len _ _ (s_tab _ _ _ _ _ S')) in Ol.
  exists (2 ^ n - Z.of_nat (length (known s'))). split; [rewrite R1; reflexivity|]. split; [lia|]. split.
  - intros Hk. assert (L2 : legal_history n e false (ops ++ map (fun k => Read (fst k) (snd k)) ks)) by (apply Ext; intros; apply allowed_reads; exact Lk).
    destruct (split_history n e false ops _ L2 F) as [s2 [E2 [_ R2]]]. rewrite R2, existsb_app, F. simpl.
    rewrite E in E2. injection E2 as <-.
    destruct (reads_room n (e + 2 * 2 ^ n) false ks s' ltac:(unfold key in *; lia)) as [s3 R3]. eapply srun_no_fail; exact R3.
  - intros Hz nm t Nm Ht M. assert (L3 : legal_history n e false (ops ++ [Read nm t])) by (apply Ext; intros; simpl; split; [tauto|]; destruct (touch _ _ _); exact I).
    destruct (split_history n e false ops _ L3 F) as [s2 [E2 [_ R2]]]. rewrite R2. f_equal.
    rewrite E in E2. injection E2 as <-. simpl. unfold touch.
    destruct (mem (nm, t) (known s')) eqn:Mm.
    + apply mem_spec in Mm. apply (sexec_known _ _ _ _ _ _ _ M E) in Mm. destruct Mm.
    + replace (Z.of_nat (length (known s')) >=? 2 ^ n) with true by lia. reflexivity.
Qed.

(** memory layout of the arrays after a legal history *)
Definition extent (v : variables) (off : Z) : Z :=
  let rows := arr_size (arrs v) off 1 in
  2 + arr_size (arrs v) off 0 * (if rows =? ARR_DIM2_UNUSED then 1 else rows).
Lemma layout n e ids ops v : legal_history n e ids ops -> exec (start n e ids) ops = Some v ->
  forall p, 0 <= p < 2 ^ n -> v_type (slot v p) = 9 \/ v_type (slot v p) = 10 ->
  forall off, v_value (slot v p) = VArr off ->
  0 <= off /\ off + extent v off <= e + 2 * 2 ^ n /\
  forall q, 0 <= q < 2 ^ n -> q <> p -> v_type (slot v q) = 9 \/ v_type (slot v q) = 10 ->
  forall off', v_value (slot v q) = VArr off' -> off + extent v off <= off' \/ off' + extent v off' <= off.
Proof.
  intros L X p Hp Tp off Vp. pose proof L as [A [B [C D]]].
  pose proof (exec_sim n (e + 2 * 2 ^ n) ids ops _ _ (init_sim n e ids A B C) D) as S.
  destruct (sexec _ _ _ sinit ops) as [s|]; [|unfold start in X; congruence]. destruct S as [v' [X' R]].
  unfold start in X. rewrite X in X'. injection X' as <-.
  assert (Key : forall q, v_type (slot v q) = 9 \/ v_type (slot v q) = 10 ->
    exists k, keys v q = Some k /\ isarr k).
  { intros q Tq. unfold keys, key_of. replace (v_type (slot v q) =? VAR_EMPTY) with false by (unfold VAR_EMPTY; lia).
    eexists. split; [reflexivity|]. exact Tq. }
  assert (Bl : forall q, 0 <= q < 2 ^ n -> v_type (slot v q) = 9 \/ v_type (slot v q) = 10 -> forall off', v_value (slot v q) = VArr off' ->
    exists k x, keys v q = Some k /\ isarr k /\ ar s k = Some x /\ 0 <= off' /\ off' + 2 + size x <= used s /\ extent v off' = 2 + size x).
  { intros q Hq Tq off' Vq. destruct (Key q Tq) as [k [Kq Aq]]. pose proof (s_ar _ _ _ _ _ R q k Hq Kq Aq) as G.
    destruct (ar s k) as [x|] eqn:Ex; [|congruence]. destruct G as [o [G1 G2]]. rewrite Vq in G1. injection G1 as <-.
    exists k, x. split; [exact Kq|]. split; [exact Aq|]. split; [exact Ex|]. split; [exact (b_off _ _ _ _ G2)|]. split; [exact (b_end _ _ _ _ G2)|].
    unfold extent, arr_size. rewrite Z.add_0_r, (b_h1 _ _ _ _ G2), (b_h2 _ _ _ _ G2).
    pose proof (b_rows _ _ _ _ G2). unfold size, hd2, rows in *. destruct (d2 x) as [b|].
    - replace (b =? ARR_DIM2_UNUSED) with false by (unfold ARR_DIM2_UNUSED; lia). lia.
    - rewrite Z.eqb_refl. lia. }
  destruct (Bl p Hp Tp off Vp) as [k [x [Kp [Ap [Ex [O1 [O2 O3]]]]]]].
  pose proof (s_used _ _ _ _ _ R). split; [exact O1|]. split; [lia|].
  intros q Hq Ne Tq off' Vq. destruct (Bl q Hq Tq off' Vq) as [k' [x' [Kq [Aq [Ex' [P1 [P2 P3]]]]]]].
  rewrite O3, P3.
  pose proof (s_disj _ _ _ _ _ R p q k k' off off' x x' Hp Hq ltac:(congruence) Kp Kq Ap Aq Vp Vq Ex Ex'). lia.
Qed.
