(** Proofs about the pool of strings. *)
From Verif Require Import Base BaseLemmas Pool PoolSpec.
From Coq Require Import Lia ZArith List Bool Arith.
Import ListNotations.
Open Scope Z_scope.

(** * Lists *)
Lemma length_update {A} (l : list A) i x : length (update l i x) = length l.
Proof. revert i; induction l; intros [|i]; cbn; congruence. Qed.
Lemma nth_update_same {A} (l : list A) i x y : nth_error l i = Some y -> nth_error (update l i x) i = Some x.
Proof. revert i; induction l; intros [|i]; cbn; try discriminate; auto. Qed.
Lemma nth_update_other {A} (l : list A) i j x : i <> j -> nth_error (update l i x) j = nth_error l j.
Proof. revert i j; induction l; intros [|i] [|j] N; cbn; try reflexivity; try lia. apply IHl; lia. Qed.
Lemma map_update {A B} (f : A -> B) l i x : map f (update l i x) = update (map f l) i (f x).
Proof. revert i; induction l; intros [|i]; cbn; congruence. Qed.
Lemma update_same {A} (l : list A) i x : nth_error l i = Some x -> update l i x = l.
Proof. revert i; induction l; intros [|i]; cbn; intros E; try discriminate; try congruence. f_equal; auto. Qed.
Lemma sum_update {A} (f : A -> nat) l i x y : nth_error l i = Some y -> (sum_of f (update l i x) + f y = sum_of f l + f x)%nat.
Proof.
  revert i; induction l; intros [|i] E; cbn in *; try discriminate.
  - injection E as ->; lia.
  - pose proof (IHl i E). unfold sum_of in *. lia.
Qed.
Lemma sum_in {A} (f : A -> nat) l x : In x l -> (f x <= sum_of f l)%nat.
Proof. unfold sum_of; induction l as [|a l IH]; cbn; intros I; [contradiction|]. destruct I as [->|I]; [lia|]. specialize (IH I); lia. Qed.
Lemma sum_const {A} (f : A -> nat) l : (forall x, In x l -> f x = 0%nat) -> sum_of f l = 0%nat.
Proof. unfold sum_of; induction l; cbn; intros E; [reflexivity|]. rewrite E by auto. apply IHl; auto. Qed.

(** * Use counts *)
Definition uses_at (p : pool) (i : nat) : Z := match slot_at p i with Some s => uses s | None => 0 end.
Definition excess (p : pool) (i : nat) : Z := uses_at p i - Z.of_nat (refs p i).
Definition Inv (p : pool) : Prop :=
  (forall i, 0 <= excess p i) /\ (forall v, nth_error (vars_ p) v = Some RMem -> v = 0%nat) /\ ~ In (ETemp RMem) (stack_ p).

Lemma uses_with p i f j : uses_at (with_uses p i f) j = match slot_at p i with Some s => if Nat.eqb j i then f (uses s) else uses_at p j | None => uses_at p j end.
Proof.
  unfold uses_at, with_uses, slot_at. destruct (nth_error (slots p) i) eqn:E; [|reflexivity].
  cbn. destruct (Nat.eqb_spec j i).
  - subst. now rewrite (nth_update_same _ _ _ _ E).
  - now rewrite nth_update_other by lia.
Qed.
Lemma refs_with p i f j : refs (with_uses p i f) j = refs p j.
Proof. unfold with_uses; destruct (slot_at p i); reflexivity. Qed.
Lemma vars_with p i f : vars_ (with_uses p i f) = vars_ p.
Proof. unfold with_uses; destruct (slot_at p i); reflexivity. Qed.
Lemma stack_with p i f : stack_ (with_uses p i f) = stack_ p.
Proof. unfold with_uses; destruct (slot_at p i); reflexivity. Qed.
Lemma mem_with p i f : mem_ (with_uses p i f) = mem_ p.
Proof. unfold with_uses; destruct (slot_at p i); reflexivity. Qed.
Lemma length_with p i f : length (slots (with_uses p i f)) = length (slots p).
Proof. unfold with_uses; destruct (slot_at p i); cbn; [apply length_update|reflexivity]. Qed.
Lemma text_with p i f r : text_at (with_uses p i f) r = text_at p r.
Proof.
  destruct r as [t|j|]; cbn; [reflexivity| |apply mem_with].
  unfold with_uses, slot_at. destruct (nth_error (slots p) i) eqn:E; [|reflexivity].
  cbn. destruct (Nat.eqb_spec i j).
  - subst. rewrite (nth_update_same _ _ _ _ E), E. reflexivity.
  - now rewrite nth_update_other.
Qed.
Lemma seen_with p i f : seen (with_uses p i f) = seen p.
Proof.
  unfold seen. rewrite vars_with, stack_with. f_equal.
  - apply map_ext; intros; apply text_with.
  - apply map_ext; intros [r|v]; cbn; [now rewrite text_with|reflexivity].
Qed.

Lemma drop_spec p r : vars_ (drop p r) = vars_ p /\ stack_ (drop p r) = stack_ p /\ mem_ (drop p r) = mem_ p /\ seen (drop p r) = seen p
  /\ length (slots (drop p r)) = length (slots p) /\ (forall j, refs (drop p r) j = refs p j) /\ (forall x, text_at (drop p r) x = text_at p x).
Proof.
  destruct r; cbn; try (repeat split; reflexivity).
  rewrite vars_with, stack_with, mem_with, seen_with, length_with. repeat split; intros; [apply refs_with|apply text_with].
Qed.
Lemma uses_drop p r j : (forall i, r = RDyn i -> slot_at p i <> None) -> uses_at (drop p r) j = uses_at p j - Z.of_nat (is_ref j r).
Proof.
  intros B. destruct r as [t|i|]; cbn; [lia| |lia].
  rewrite uses_with. destruct (slot_at p i) eqn:E; [|now destruct (B i eq_refl)].
  destruct (Nat.eqb_spec j i); cbn; [|lia]. subst. unfold uses_at. rewrite E. lia.
Qed.

(** * Free strings *)
Lemma find_free_spec l k i : find_free l k = Some i -> exists n s, i = (k + n)%nat /\ nth_error l n = Some s /\ uses s <= 0.
Proof.
  revert k; induction l as [|s l IH]; cbn; intros k E; [discriminate|].
  destruct (Z.ltb_spec 0 (uses s)).
  - destruct (IH _ E) as (n & s' & -> & X & Y). exists (S n), s'. repeat split; auto. lia.
  - injection E as <-. exists 0%nat, s. repeat split; auto; lia.
Qed.
Lemma find_free_none l k : find_free l k = None -> forall n s, nth_error l n = Some s -> 0 < uses s.
Proof.
  revert k; induction l as [|s l IH]; cbn; intros k E n x; [destruct n; discriminate|].
  destruct (Z.ltb_spec 0 (uses s)); [|discriminate].
  destruct n; cbn; [intros [= <-]; lia|]. apply (IH _ E).
Qed.
Lemma free_slot p i : get_new_str p = Some i -> exists s, slot_at p i = Some s /\ uses s <= 0.
Proof. intros E. destruct (find_free_spec _ _ _ E) as (n & s & -> & X & Y). exists s. split; auto. Qed.
Lemma free_refs p i : Inv p -> get_new_str p = Some i -> refs p i = 0%nat /\ uses_at p i = 0 /\ slot_at p i <> None.
Proof.
  intros (X & _) E. destruct (free_slot _ _ E) as (s & A & B). specialize (X i). unfold excess, uses_at in *. rewrite A in *.
  repeat split; try congruence; lia.
Qed.
Lemma none_full p : get_new_str p = None -> full p.
Proof. intros E i s X. exact (find_free_none _ _ E i s X). Qed.

Lemma in_refs_var p v i : nth_error (vars_ p) v = Some (RDyn i) -> (1 <= refs p i)%nat.
Proof.
  intros E. apply nth_error_In in E. pose proof (sum_in (is_ref i) _ _ E) as X. cbn in X. rewrite Nat.eqb_refl in X. unfold refs. lia.
Qed.
Lemma in_refs_stack p i : In (ETemp (RDyn i)) (stack_ p) -> (1 <= refs p i)%nat.
Proof.
  intros E. pose proof (sum_in (refs_entry i) _ _ E) as X. cbn in X. rewrite Nat.eqb_refl in X. unfold refs. lia.
Qed.
Lemma refs_bound p i : Inv p -> (1 <= refs p i)%nat -> exists s, slot_at p i = Some s /\ 0 < uses s.
Proof.
  intros (X & _) R. specialize (X i). unfold excess, uses_at in X. destruct (slot_at p i) as [s|]; [|lia]. exists s. split; auto; lia.
Qed.

(** * Filling a string nobody refers to *)
Lemma text_fill p j w t r : r <> RDyn j -> text_at (fill p j w t) r = text_at p r.
Proof.
  intros N. destruct r as [x|i|]; try reflexivity. cbn. unfold slot_at. cbn. rewrite nth_update_other; [reflexivity|congruence].
Qed.
Lemma text_fill_same p j w t : slot_at p j <> None -> text_at (fill p j w t) (RDyn j) = t.
Proof. unfold slot_at; intros N. cbn. unfold slot_at; cbn. destruct (nth_error (slots p) j) eqn:E; [|congruence]. now rewrite (nth_update_same _ _ _ _ E). Qed.
Lemma uses_fill p j w t i : slot_at p j <> None -> uses_at (fill p j w t) i = if Nat.eqb i j then 1 else uses_at p i.
Proof.
  unfold uses_at, slot_at; intros N; cbn. destruct (nth_error (slots p) j) eqn:E; [|congruence].
  destruct (Nat.eqb_spec i j); [subst; now rewrite (nth_update_same _ _ _ _ E)|now rewrite nth_update_other by lia].
Qed.
Lemma seen_fill p j w t : refs p j = 0%nat -> seen (fill p j w t) = seen p.
Proof.
  intros R. unfold seen. cbn [vars_ stack_ fill set_slots]. f_equal; apply map_ext_in.
  - intros r I. apply text_fill. intros ->. apply In_nth_error in I as (v & I). pose proof (in_refs_var _ _ _ I). lia.
  - intros [r|v] I; [|reflexivity]. cbn. f_equal. apply text_fill. intros ->. pose proof (in_refs_stack _ _ I). lia.
Qed.

(** * Pushing and popping *)
Lemma refs_push p e i : refs (push p e) i = (refs p i + refs_entry i e)%nat.
Proof. unfold refs, push, sum_of; cbn. lia. Qed.
Lemma refs_pop p e s i : stack_ p = e :: s -> (refs (set_stack p s) i + refs_entry i e = refs p i)%nat.
Proof. intros E. unfold refs, sum_of; cbn. rewrite E. cbn. lia. Qed.
Lemma seen_pop p e s : stack_ p = e :: s -> seen (set_stack p s) = mkStore (avars (seen p)) (map (seen_entry p) s).
Proof. reflexivity. Qed.
Lemma text_stack p s r : text_at (set_stack p s) r = text_at p r.
Proof. destruct r; reflexivity. Qed.

Lemma refs_set_var p v r old i : nth_error (vars_ p) v = Some old -> (refs (set_var p v r) i + is_ref i old = refs p i + is_ref i r)%nat.
Proof. intros E. pose proof (sum_update (is_ref i) (vars_ p) v r old E). unfold refs. cbn [vars_ stack_ set_var set_vars]. lia. Qed.
Lemma text_set_var p v r x : text_at (set_var p v r) x = text_at p x.
Proof. destruct x; reflexivity. Qed.
Lemma seen_set_var p v r : seen (set_var p v r) = aset (seen p) v (text_at p r).
Proof.
  unfold seen, aset; cbn. f_equal. rewrite map_update. f_equal.
Qed.

(** [p'] comes from [p] by giving back temporaries *)
Ltac conj := repeat match goal with |- _ /\ _ => split end.
Lemma value_str_spec p e s : Inv p -> stack_ p = e :: s ->
  match value_str (set_stack p s) e with
  | Ok (p', r) => Inv p' /\ stack_ p' = s /\ vars_ p' = vars_ p /\ mem_ p' = mem_ p /\ length (slots p') = length (slots p)
      /\ seen p' = mkStore (avars (seen p)) (map (seen_entry p) s)
      /\ (forall i, excess p' i = excess p i) /\ (forall i, (refs p' i <= refs p i)%nat)
      /\ aread (seen p) (seen_entry p e) = Ok (text_at p r)
      /\ (forall x, text_at p' x = text_at p x)
      /\ (forall i, r = RDyn i -> slot_at p' i <> None /\ (1 <= refs p i)%nat)
      /\ (r = RMem -> e = EVar 0)
  | Err _ => False
  | UB => aread (seen p) (seen_entry p e) = UB
  end.
Proof.
  intros I E. pose proof I as (X & M & T). pose proof (refs_pop p e s) as RP.
  assert (Is : forall p', (forall i, excess p' i = excess p i) -> vars_ p' = vars_ p -> stack_ p' = s -> Inv p').
  { intros p' A B C. split; [intros i; rewrite A; apply X|]. split; [rewrite B; exact M|]. rewrite C. intros J. apply T. rewrite E. now right. }
  unfold value_str. destruct e as [r|v]; cbn [ref_of_entry bind].
  - destruct r as [t|i|].
    + assert (Q : forall i, excess (set_stack p s) i = excess p i).
      { intros i. unfold excess. specialize (RP i E). cbn [refs_entry is_ref] in RP. change (uses_at (set_stack p s) i) with (uses_at p i). lia. }
      cbn -[refs seen]. conj; try discriminate; auto; try (intros x; apply text_stack); try (intros k; specialize (RP k E); lia).
    + assert (R1 : (1 <= refs p i)%nat) by (apply in_refs_stack; rewrite E; now left).
      destruct (refs_bound _ _ I R1) as (sl & A & B). change (slot_at (set_stack p s) i) with (slot_at p i). rewrite A.
      destruct (Z.ltb_spec 0 (uses sl)); [|lia]. cbn -[refs seen].
      assert (Q : forall k, excess (with_uses (set_stack p s) i (fun u => u - 1)) k = excess p k).
      { intros k. unfold excess. rewrite refs_with, uses_with. change (slot_at (set_stack p s) i) with (slot_at p i). rewrite A.
        specialize (RP k E). cbn [refs_entry is_ref] in RP. change (uses_at (set_stack p s) k) with (uses_at p k).
        destruct (Nat.eqb_spec k i); [subst; unfold uses_at; rewrite A; lia|lia]. }
      rewrite stack_with, vars_with, mem_with, length_with, seen_with.
      conj; try reflexivity; try exact Q.
      * apply Is; auto. now rewrite vars_with. now rewrite stack_with.
      * intros k. rewrite refs_with. specialize (RP k E). lia.
      * intros x. rewrite text_with. apply text_stack.
      * intros k [= <-]. split; [|exact R1]. unfold with_uses, slot_at. cbn. unfold slot_at in A. rewrite A. cbn. now rewrite (nth_update_same _ _ _ _ A).
      * discriminate.
    + exfalso. apply T. rewrite E. now left.
  - cbn [vars_ set_stack]. destruct (nth_error (vars_ p) v) as [r|] eqn:V; cbn -[refs seen].
    + assert (Q : forall i, excess (set_stack p s) i = excess p i).
      { intros i. unfold excess. specialize (RP i E). cbn [refs_entry is_ref] in RP. change (uses_at (set_stack p s) i) with (uses_at p i). lia. }
      conj; try reflexivity; try exact Q.
      * apply Is; auto.
      * intros i. specialize (RP i E). lia.
      * cbn. rewrite nth_error_map, V. reflexivity.
      * intros i ->. pose proof (in_refs_var _ _ _ V) as R1. split; [|exact R1]. destruct (refs_bound p i I R1) as (sl & A & _). change (slot_at p i <> None). congruence.
      * intros ->. now rewrite (M _ V).
    + cbn. now rewrite nth_error_map, V.
Qed.

Lemma read_ok p r : (forall i, r = RDyn i -> slot_at p i <> None) -> read_ref p r = Ok (text_at p r).
Proof. destruct r; cbn; intros B; auto. destruct (slot_at p i) eqn:E; auto. now destruct (B i eq_refl). Qed.

Lemma take_args_spec k p : Inv p ->
  match take_args k p with
  | Ok (p', ts) => Inv p' /\ vars_ p' = vars_ p /\ mem_ p' = mem_ p /\ length (slots p') = length (slots p) /\ aargs k (seen p) = Ok (seen p', ts)
      /\ (forall i, excess p' i = excess p i) /\ (forall i, (refs p' i <= refs p i)%nat)
  | Err _ => False
  | UB => aargs k (seen p) = UB
  end.
Proof.
  revert p; induction k as [|k IH]; intros p I; cbn [take_args aargs].
  - conj; auto; apply I.
  - destruct (stack_ p) as [|e s] eqn:E.
    + unfold seen; cbn. now rewrite E.
    + assert (E' : astack (seen p) = seen_entry p e :: map (seen_entry p) s) by (cbn; now rewrite E).
      rewrite E'. pose proof (value_str_spec p e s I E) as V.
      destruct (value_str (set_stack p s) e) as [[q r]|x|]; [|contradiction|].
      2:{ cbn [bind]. now rewrite V. }
      destruct V as (Iq & Sq & Vq & Mq & Lq & Seq & Xq & Rq & Aq & Tq & Bq & _). cbn [bind fst snd].
      rewrite (read_ok q r) by (intros i Hi; apply (Bq i Hi)). rewrite Aq. cbn [bind].
      rewrite <- Seq. specialize (IH q Iq). rewrite Tq.
      destruct (take_args k q) as [[q' ts]|x|]; [|contradiction|].
      * cbn [bind fst snd]. destruct IH as (Ia & Va & Ma & La & Aa & Xa & Ra). rewrite Aa. cbn [bind fst snd].
        conj; try exact Ia; try congruence; try (intros i; rewrite Xa; apply Xq).
        intros i. specialize (Ra i). specialize (Rq i). lia.
      * cbn [bind]. now rewrite IH.
Qed.

(** * One step *)
Definition grows (o : op) (p p' : pool) : Prop :=
  forall i, excess p' i = 0 \/ excess p' i = excess p i \/ (forgets o p /\ excess p i <= excess p' i).
Lemma inv_intro p p' o : Inv p -> grows o p p' -> (forall v, nth_error (vars_ p') v = Some RMem -> v = 0%nat) -> ~ In (ETemp RMem) (stack_ p') -> Inv p'.
Proof.
  intros (X & _) G A B. split; [|split; assumption]. intros i. specialize (X i). destruct (G i) as [E|[E|[_ E]]]; lia.
Qed.
Lemma mem_update p v r : (forall v, nth_error (vars_ p) v = Some RMem -> v = 0%nat) -> r <> RMem ->
  forall w, nth_error (update (vars_ p) v r) w = Some RMem -> w = 0%nat.
Proof.
  intros M N w E. destruct (Nat.eq_dec v w) as [<-|D].
  - destruct (nth_error (vars_ p) v) eqn:F; [rewrite (nth_update_same _ _ _ _ F) in E; congruence|].
    apply nth_error_None in F. rewrite (proj2 (nth_error_None _ _)) in E; [discriminate|]. now rewrite length_update.
  - rewrite nth_update_other in E by assumption. auto.
Qed.

Lemma store_new p v old j w t : Inv p -> nth_error (vars_ p) v = Some old -> refs p j = 0%nat -> uses_at p j = 0 -> slot_at p j <> None ->
  seen (set_var (fill p j w t) v (RDyn j)) = aset (seen p) v t
  /\ forall i, excess (set_var (fill p j w t) v (RDyn j)) i = excess p i + Z.of_nat (is_ref i old).
Proof.
  intros I V R U S0. split.
  - rewrite seen_set_var, text_fill_same by assumption. now rewrite seen_fill.
  - intros i. unfold excess. pose proof (refs_set_var (fill p j w t) v (RDyn j) old i V) as E.
    change (refs (fill p j w t) i) with (refs p i) in E.
    change (uses_at (set_var (fill p j w t) v (RDyn j)) i) with (uses_at (fill p j w t) i).
    rewrite uses_fill by assumption. cbn [is_ref] in E. destruct (Nat.eqb_spec i j); [subst|]; lia.
Qed.

Lemma var_bound p v old : Inv p -> nth_error (vars_ p) v = Some old -> forall i, old = RDyn i -> slot_at p i <> None.
Proof. intros I V i ->. destruct (refs_bound p i I) as (s & A & _); [eapply in_refs_var; eassumption|congruence]. Qed.

Lemma slot_drop p r i : slot_at p i <> None -> slot_at (drop p r) i <> None.
Proof.
  unfold slot_at. intros N. apply nth_error_Some. apply nth_error_Some in N. destruct (drop_spec p r) as (_ & _ & _ & _ & L & _). now rewrite L.
Qed.

(** giving back a reference, then storing a new string: a drop may leave a count below the number of references, which the store repairs *)
Lemma store_drop p v old j w t : Inv p -> nth_error (vars_ p) v = Some old -> refs p j = 0%nat -> uses_at p j = 0 -> slot_at p j <> None ->
  seen (set_var (fill (drop p old) j w t) v (RDyn j)) = aset (seen p) v t
  /\ forall i, excess (set_var (fill (drop p old) j w t) v (RDyn j)) i = excess p i.
Proof.
  intros I V R U S0. destruct (drop_spec p old) as (Dv & Ds & Dm & De & Dl & Dr & Dt).
  pose proof (slot_drop p old j S0) as S1. split.
  - rewrite seen_set_var, text_fill_same by assumption. rewrite seen_fill by now rewrite Dr. now rewrite De.
  - intros i. unfold excess.
    assert (V' : nth_error (vars_ (fill (drop p old) j w t)) v = Some old) by (cbn; now rewrite Dv).
    pose proof (refs_set_var (fill (drop p old) j w t) v (RDyn j) old i V') as E.
    change (refs (fill (drop p old) j w t) i) with (refs (drop p old) i) in E. rewrite Dr in E.
    change (uses_at (set_var (fill (drop p old) j w t) v (RDyn j)) i) with (uses_at (fill (drop p old) j w t) i).
    rewrite uses_fill by assumption. rewrite uses_drop by (eapply var_bound; eassumption). cbn [is_ref] in E.
    assert (Q : is_ref j old = 0%nat).
    { destruct old as [| |]; try reflexivity. cbn. destruct (Nat.eqb_spec j i0); [subst|reflexivity].
      apply in_refs_var in V. lia. }
    destruct (Nat.eqb_spec i j); [subst|]; lia.
Qed.
Lemma store_share p v old k : Inv p -> nth_error (vars_ p) v = Some old -> slot_at p k <> None ->
  seen (set_var (with_uses (drop p old) k (fun u => u + 1)) v (RDyn k)) = aset (seen p) v (text_at p (RDyn k))
  /\ forall i, excess (set_var (with_uses (drop p old) k (fun u => u + 1)) v (RDyn k)) i = excess p i.
Proof.
  intros I V S0. destruct (drop_spec p old) as (Dv & Ds & Dm & De & Dl & Dr & Dt).
  pose proof (slot_drop p old k S0) as S1. split.
  - rewrite seen_set_var, seen_with, De, text_with, Dt. reflexivity.
  - intros i. unfold excess.
    assert (V' : nth_error (vars_ (with_uses (drop p old) k (fun u => u + 1))) v = Some old) by (now rewrite vars_with, Dv).
    pose proof (refs_set_var _ v (RDyn k) old i V') as E. rewrite refs_with, Dr in E.
    change (uses_at (set_var (with_uses (drop p old) k (fun u => u + 1)) v (RDyn k)) i) with (uses_at (with_uses (drop p old) k (fun u => u + 1)) i).
    rewrite uses_with. pose proof (uses_drop p old k (var_bound _ _ _ I V)) as U.
    destruct (slot_at (drop p old) k) as [s|] eqn:F; [|congruence].
    assert (Us : uses s = uses_at (drop p old) k) by (unfold uses_at; now rewrite F).
    cbn [is_ref] in E. destruct (Nat.eqb_spec i k); [subst; rewrite Us; lia|].
    rewrite uses_drop by (eapply var_bound; eassumption). lia.
Qed.

Lemma grows_refl o p p' : (forall i, excess p' i = excess p i) -> grows o p p'.
Proof. intros E i. right; left; apply E. Qed.
Lemma seen_push_dyn p j t : text_at p (RDyn j) = t -> seen (push p (ETemp (RDyn j))) = mkStore (avars (seen p)) (AText t :: astack (seen p)).
Proof. intros <-. reflexivity. Qed.

Lemma give_spec p new late r (o : op) : Inv p -> (forall j, new = Some j -> refs p j = 0%nat /\ uses_at p j = 0 /\ slot_at p j <> None) ->
  match give p new late r with
  | Ok p' => (forall i, excess p' i = excess p i) /\ vars_ p' = vars_ p /\ Inv p' /\ agive (seen p) r = Ok (seen p')
  | Err e => agive (seen p) r = Err e
  | UB => new = None
  end.
Proof.
  intros I N. pose proof I as (X & M & T). destruct r as [t|t| |e]; cbn [give agive].
  - destruct new as [j|]; [|reflexivity]. destruct (N j eq_refl) as (R & U & S0).
    assert (Q : forall i, excess (push (fill p j false t) (ETemp (RDyn j))) i = excess p i).
    { intros i. unfold excess. rewrite refs_push. change (refs (fill p j false t) i) with (refs p i).
      change (uses_at (push (fill p j false t) (ETemp (RDyn j))) i) with (uses_at (fill p j false t) i).
      rewrite uses_fill by assumption. cbn [refs_entry is_ref]. destruct (Nat.eqb_spec i j); [subst|]; lia. }
    conj; try reflexivity; auto.
    + eapply (inv_intro p _ o); auto. apply grows_refl, Q. cbn. intros [?|?]; [discriminate|contradiction].
    + f_equal. erewrite seen_push_dyn; [|now apply text_fill_same].
      now rewrite seen_fill.
  - assert (Q : forall i, excess (push p (ETemp (RConst t))) i = excess p i).
    { intros i. unfold excess. rewrite refs_push. cbn [refs_entry is_ref]. change (uses_at (push p (ETemp (RConst t))) i) with (uses_at p i). lia. }
    conj; try reflexivity; auto. eapply (inv_intro p _ o); auto. apply grows_refl, Q. cbn. intros [?|?]; [discriminate|contradiction].
  - conj; auto.
  - destruct late, new; reflexivity.
Qed.

Lemma aargs_vars k a : match aargs k a with Ok q => avars (fst q) = avars a | _ => True end.
Proof.
  revert a; induction k as [|k IH]; intros a; cbn [aargs]; [reflexivity|].
  destruct (astack a) as [|e s]; [exact I|]. destruct (aread a e); cbn [bind]; try exact I.
  specialize (IH (mkStore (avars a) s)). destruct (aargs k (mkStore (avars a) s)) as [q|?|]; cbn [bind fst]; try exact I. exact IH.
Qed.
Lemma clear_refs p i : stack_ p = [] -> nth_error (vars_ p) 0 = Some RMem ->
  refs (mkPool (map (fun s => mkSlot 0 (wide s) (chars_ s)) (slots p)) (match vars_ p with r :: vs => r :: map (fun _ => RConst []) vs | [] => [] end) (stack_ p) (mem_ p)) i = 0%nat.
Proof.
  intros E F. unfold refs. cbn [vars_ stack_]. rewrite E. destruct (vars_ p) as [|r vs]; [reflexivity|]. cbn in F. injection F as ->.
  rewrite sum_const; [reflexivity|]. intros x [<-|J]; [reflexivity|]. apply in_map_iff in J as (y & <- & _). reflexivity.
Qed.

Theorem step_spec o p : Inv p -> fair o p ->
  match step o p with
  | Ok p' => Inv p' /\ grows o p p' /\ length (vars_ p') = length (vars_ p) /\ length (slots p') = length (slots p) /\ astep o (seen p) = Ok (seen p')
  | Err e => astep o (seen p) = Err e \/ (e = ERR_OUT_OF_MEMORY /\ full p)
  | UB => astep o (seen p) = UB \/ full p
  end.
Proof.
  intros I F. pose proof I as (X & M & T). revert I F X M T. induction o as [t|v|k late f|k f| |v t|v w t|v w| | |o IHo back]; intros I F X M T.
  - (* PushConst *) cbn. pose proof (give_spec p None false (Shared t) (PushConst t) I ltac:(discriminate)) as (Q & _ & J & _).
    conj; auto. apply grows_refl, Q.
  - (* PushVar *) cbn [step astep]. replace (nth_error (avars (seen p)) v) with (option_map (text_at p) (nth_error (vars_ p) v)) by (cbn; now rewrite nth_error_map).
    destruct (nth_error (vars_ p) v) as [r|]; cbn [option_map]; [|now left].
    assert (Q : forall i, excess (push p (EVar v)) i = excess p i).
    { intros i. unfold excess. rewrite refs_push. cbn [refs_entry]. change (uses_at (push p (EVar v)) i) with (uses_at p i). lia. }
    conj; try reflexivity; [|apply grows_refl, Q]. eapply (inv_intro p _ (PushVar v)); auto. apply grows_refl, Q. cbn. intros [?|?]; [discriminate|contradiction].
  - (* Func *) cbn [step astep]. pose proof (take_args_spec k p I) as A. destruct (take_args k p) as [[q ts]|e|]; cbn [bind fst snd]; [|contradiction|rewrite A; now left].
    destruct A as (Iq & Vq & Mq & Lq & Aq & Xq & Rq). rewrite Aq. cbn [bind fst snd].
    assert (N : forall j, get_new_str p = Some j -> refs q j = 0%nat /\ uses_at q j = 0 /\ slot_at q j <> None).
    { intros j Hj. destruct (free_refs _ _ I Hj) as (R & U & S0). specialize (Rq j). specialize (Xq j). unfold excess in Xq. conj; try lia.
      unfold slot_at in *. apply nth_error_Some. rewrite Lq. now apply nth_error_Some. }
    pose proof (give_spec q (get_new_str p) late (f ts) (Func k late f) Iq N) as G.
    assert (L : forall p', give q (get_new_str p) late (f ts) = Ok p' -> length (slots p') = length (slots q)).
    { intros p'. destruct (f ts) as [x|x| |x]; cbn [give].
      - destruct (get_new_str p); [|discriminate]. intros [= <-]. cbn. apply length_update.
      - intros [= <-]; reflexivity. - intros [= <-]; reflexivity. - destruct late, (get_new_str p); discriminate. }
    destruct (give q (get_new_str p) late (f ts)) as [p'|e|].
    + destruct G as (Q & Vg & J & Ag). conj; auto; try congruence. apply grows_refl. intros i. now rewrite Q. rewrite (L _ eq_refl). exact Lq.
    + now left.
    + right. now apply none_full.
  - (* Look *) cbn [step astep]. pose proof (take_args_spec k p I) as A. destruct (take_args k p) as [[q ts]|e|]; cbn [bind fst snd]; [|contradiction|rewrite A; now left].
    destruct A as (Iq & Vq & Mq & Lq & Aq & Xq & Rq). rewrite Aq. cbn [bind fst snd].
    destruct (f ts) as [x|x| |x]; [now left| | |cbn; now left].
    + pose proof (give_spec q None false (Shared x) (Look k f) Iq ltac:(discriminate)) as (Q & Vg & J & Ag). cbn [give] in *.
      conj; auto. apply grows_refl. intros i. now rewrite Q. cbn. now rewrite Vq.
    + cbn [give agive]. conj; auto. apply grows_refl, Xq. now rewrite Vq.
  - (* Assign *) cbn [step astep]. destruct (stack_ p) as [|b s] eqn:E.
    { left. cbn. now rewrite E. }
    assert (Ea : astack (seen p) = seen_entry p b :: map (seen_entry p) s) by (cbn; now rewrite E).
    rewrite Ea. destruct s as [|a s]; [left; reflexivity|]. destruct a as [r|v]; [left; reflexivity|]. cbn [map seen_entry].
    pose proof (value_str_spec p b (EVar v :: s) I E) as V.
    assert (Vs : value_str (set_stack p s) b = match value_str (set_stack p (EVar v :: s)) b with Ok (q, r) => Ok (set_stack q s, r) | Err e => Err e | UB => UB end).
    { unfold value_str. change (ref_of_entry (set_stack p s) b) with (ref_of_entry (set_stack p (EVar v :: s)) b).
      destruct (ref_of_entry (set_stack p (EVar v :: s)) b) as [r|e|]; cbn [bind]; try reflexivity.
      destruct b as [r'|v']; [|reflexivity]. destruct r as [t|i|]; try reflexivity.
      change (slot_at (set_stack p s) i) with (slot_at p i). change (slot_at (set_stack p (EVar v :: s)) i) with (slot_at p i).
      destruct (slot_at p i) as [sl|] eqn:SL; [|reflexivity]. destruct (0 <? uses sl); [|reflexivity].
      unfold with_uses. change (slot_at (set_stack p s) i) with (slot_at p i). change (slot_at (set_stack p (EVar v :: s)) i) with (slot_at p i). rewrite SL. reflexivity. }
    rewrite Vs. destruct (value_str (set_stack p (EVar v :: s)) b) as [[q r]|e|]; cbn [bind fst snd]; [|contradiction|left; now rewrite V].
    destruct V as (Iq & Sq & Vq & Mq & Lq & Seq & Xq & Rq & Aq & Tq & Bq & Mr). rewrite Aq. cbn [bind].
    set (q1 := set_stack q s).
    assert (X1 : forall i, excess q1 i = excess p i).
    { intros i. rewrite <- Xq. unfold excess, q1. pose proof (refs_pop q (EVar v) s i Sq) as RP. cbn [refs_entry] in RP. change (uses_at (set_stack q s) i) with (uses_at q i). lia. }
    assert (R1 : forall i, (refs q1 i <= refs p i)%nat).
    { intros i. specialize (Rq i). unfold q1. pose proof (refs_pop q (EVar v) s i Sq) as RP. lia. }
    assert (I1 : Inv q1).
    { refine (inv_intro p _ Assign I _ _ _).
      - apply grows_refl, X1.
      - unfold q1; cbn. rewrite Vq; exact M.
      - cbn. intros J. apply T. right; right; exact J. }
    assert (S1 : mkStore (avars (seen p)) (map (seen_entry p) s) = seen q1).
    { unfold q1, seen; cbn. rewrite Vq. f_equal.
      - apply map_ext. intros x. symmetry. rewrite <- Tq. apply text_stack.
      - apply map_ext. intros [x|x]; cbn; [|reflexivity]. f_equal. symmetry. rewrite <- Tq. apply text_stack. }
    replace (nth_error (avars (seen p)) v) with (option_map (text_at p) (nth_error (vars_ q1) v)) by (cbn; now rewrite nth_error_map, Vq).
    destruct (nth_error (vars_ q1) v) as [old|] eqn:Vo; cbn [option_map]; [|now left].
    assert (FIN : forall p', (forall i, excess p' i = excess q1 i) -> seen p' = aset (seen q1) v (text_at p r) -> vars_ p' = update (vars_ q1) v (match vars_ p' with l => nth v l RMem end)  ->
        nth v (vars_ p') RMem <> RMem -> stack_ p' = s -> length (slots p') = length (slots q1) ->
        Inv p' /\ grows Assign p p' /\ length (vars_ p') = length (vars_ p) /\ length (slots p') = length (slots p)
        /\ Ok (mkStore (update (avars (seen p)) v (text_at p r)) (map (seen_entry p) s)) = Ok (seen p')).
    { intros p' Ex Es Ev En Est El. assert (Gp : grows Assign p p') by (apply grows_refl; intros i; now rewrite Ex).
      conj; auto.
      - eapply (inv_intro p _ Assign); auto.
        + rewrite Ev. apply mem_update; [apply I1|exact En].
        + rewrite Est. intros J. apply T. right; right; exact J.
      - rewrite Ev, length_update. unfold q1; cbn. now rewrite Vq.
      - rewrite El. unfold q1; cbn. exact Lq.
      - rewrite Es, <- S1. reflexivity. }
    assert (NV : forall x, nth v (update (vars_ q1) v x) RMem = x) by (intros x; apply nth_error_nth; eapply nth_update_same; eassumption).
    destruct (drop_spec q1 old) as (Dv & Ds & Dm & De & Dl & Dr & Dt).
    assert (NF : forall j, get_new_str p = Some j -> refs q1 j = 0%nat /\ uses_at q1 j = 0 /\ slot_at q1 j <> None).
    { intros j Hj. destruct (free_refs _ _ I Hj) as (R & U & S0). specialize (R1 j). specialize (X1 j). unfold excess in X1. conj; try lia.
      unfold slot_at in *. apply nth_error_Some. unfold q1; cbn. rewrite Lq. now apply nth_error_Some. }
    destruct r as [t|i|].
    + destruct (get_new_str p) as [j|] eqn:G; [|right; split; [reflexivity|now apply none_full]].
      destruct (NF j eq_refl) as (N1 & N2 & N3). destruct (store_drop q1 v old j false t I1 Vo N1 N2 N3) as (Z1 & Z2).
      apply FIN; auto; cbn; rewrite ?Dv, ?NV; auto; try discriminate. now rewrite length_update, Dl.
    + destruct (Bq i eq_refl) as (B1 & _). destruct (store_share q1 v old i I1 Vo B1) as (Z1 & Z2).
      apply FIN; auto.
      * rewrite Z1. f_equal. unfold q1. rewrite text_stack. apply Tq.
      * cbn. rewrite vars_with, Dv, NV. reflexivity.
      * cbn. rewrite vars_with, Dv, NV. discriminate.
      * cbn. rewrite stack_with, Ds. reflexivity.
      * cbn. rewrite length_with, Dl. reflexivity.
    + destruct (get_new_str p) as [j|] eqn:G; [|right; now apply none_full].
      destruct (NF j eq_refl) as (N1 & N2 & N3). rewrite Dm. change (mem_ q1) with (mem_ q). rewrite Mq.
      destruct (store_drop q1 v old j false (mem_ p) I1 Vo N1 N2 N3) as (Z1 & Z2).
      apply FIN; auto; cbn; rewrite ?Dv, ?NV; auto; try discriminate. now rewrite length_update, Dl.
  - (* StoreLeak *) cbn [step astep]. replace (nth_error (avars (seen p)) v) with (option_map (text_at p) (nth_error (vars_ p) v)) by (cbn; now rewrite nth_error_map).
    destruct (nth_error (vars_ p) v) as [old|] eqn:V; cbn [option_map]; [|now left].
    destruct (get_new_str p) as [j|] eqn:G; [|right; now apply none_full].
    destruct (free_refs _ _ I G) as (R & U & S0). destruct (store_new p v old j false t I V R U S0) as (Z1 & Z2).
    assert (Gr : grows (StoreLeak v t) p (set_var (fill p j false t) v (RDyn j))).
    { intros i. right. rewrite Z2. destruct old as [x|k|]; cbn [is_ref]; [left; lia| |left; lia]. right. split; [exists k; exact V|lia]. }
    conj; auto.
    + eapply inv_intro; eauto. cbn. apply mem_update; [exact M|discriminate].
    + cbn. apply length_update.
    + cbn. apply length_update.
    + now rewrite Z1.
  - (* StoreInput *) cbn [step astep]. replace (nth_error (avars (seen p)) v) with (option_map (text_at p) (nth_error (vars_ p) v)) by (cbn; now rewrite nth_error_map).
    destruct (nth_error (vars_ p) v) as [old|] eqn:V; cbn [option_map]; [|now left].
    destruct (get_new_str p) as [j|] eqn:G; [|right; now apply none_full].
    destruct (free_refs _ _ I G) as (R & U & S0).
    assert (C : (match old with RDyn i => match slot_at p i with Some s => if wide s then p else drop p old | None => p end | _ => p end = drop p old)
                \/ (match old with RDyn i => match slot_at p i with Some s => if wide s then p else drop p old | None => p end | _ => p end = p /\ forgets (StoreInput v w t) p)).
    { destruct old as [x|k|]; [now left| |now left]. destruct (refs_bound p k I) as (sl & SL & _); [eapply in_refs_var; eassumption|].
      rewrite SL. destruct (wide sl) eqn:W; [right|now left]. split; [reflexivity|]. exists k, sl. auto. }
    destruct C as [->|[-> Lk]].
    + destruct (store_drop p v old j w t I V R U S0) as (Z1 & Z2). destruct (drop_spec p old) as (Dv & Ds & Dm & De & Dl & Dr & Dt).
      assert (Gr : grows (StoreInput v w t) p (set_var (fill (drop p old) j w t) v (RDyn j))) by (apply grows_refl, Z2).
      conj; auto.
      * eapply inv_intro; eauto; cbn. rewrite Dv. apply mem_update; [exact M|discriminate]. now rewrite Ds.
      * cbn. rewrite Dv. apply length_update.
      * cbn. now rewrite length_update.
      * now rewrite Z1.
    + destruct (store_new p v old j w t I V R U S0) as (Z1 & Z2).
      assert (Gr : grows (StoreInput v w t) p (set_var (fill p j w t) v (RDyn j))).
      { intros i. right; right. split; [exact Lk|]. rewrite Z2. lia. }
      conj; auto.
      * eapply inv_intro; eauto. cbn. apply mem_update; [exact M|discriminate].
      * cbn. apply length_update.
      * cbn. apply length_update.
      * now rewrite Z1.
  - (* Swap *) cbn [step astep]. replace (nth_error (avars (seen p)) v) with (option_map (text_at p) (nth_error (vars_ p) v)) by (cbn; now rewrite nth_error_map).
    replace (nth_error (avars (seen p)) w) with (option_map (text_at p) (nth_error (vars_ p) w)) by (cbn; now rewrite nth_error_map).
    destruct (nth_error (vars_ p) v) as [a|] eqn:A; cbn [option_map]; [|now left].
    destruct (nth_error (vars_ p) w) as [b|] eqn:B; cbn [option_map]; [|now left].
    destruct F as (Fv & Fw).
    assert (Q : forall i, excess (set_var (set_var p v b) w a) i = excess p i).
    { intros i. unfold excess. pose proof (refs_set_var p v b a i A) as E1.
      assert (B' : nth_error (vars_ (set_var p v b)) w = Some b).
      { cbn. destruct (Nat.eq_dec v w) as [<-|D]; [eapply nth_update_same; eassumption|now rewrite nth_update_other]. }
      pose proof (refs_set_var (set_var p v b) w a b i B') as E2. change (uses_at (set_var (set_var p v b) w a) i) with (uses_at p i). lia. }
    conj.
    + eapply (inv_intro p _ (Swap v w)); auto; [apply grows_refl, Q|].
      change (vars_ (set_var (set_var p v b) w a)) with (update (vars_ (set_var p v b)) w a).
      apply mem_update; [|intros ->; apply Fv; now apply M]. cbn. apply mem_update; [exact M|intros ->; apply Fw; now apply M].
    + apply grows_refl, Q.
    + cbn. now rewrite !length_update.
    + reflexivity.
    + now rewrite !seen_set_var, text_set_var.
  - (* CheckMem *) cbn [step astep]. destruct (vars_ p) as [|r vs] eqn:V; [left; cbn; now rewrite V|].
    assert (V0 : nth_error (vars_ p) 0 = Some r) by now rewrite V.
    rewrite read_ok by (eapply var_bound; eassumption). cbn [bind].
    destruct (drop_spec p r) as (Dv & Ds & Dm & De & Dl & Dr & Dt).
    set (p' := mkPool (slots (drop p r)) (update (r :: vs) 0 RMem) (stack_ p) (text_at p r)).
    assert (Q : forall i, excess p' i = excess p i).
    { intros i. unfold excess. change (uses_at p' i) with (uses_at (drop p r) i). rewrite uses_drop by (eapply var_bound; eassumption).
      pose proof (refs_set_var p 0 RMem r i V0) as E. cbn [is_ref] in E.
      replace (refs p' i) with (refs (set_var p 0 RMem) i); [lia|]. unfold refs, p'; cbn. now rewrite V. }
    assert (TX : forall x, x <> RMem -> text_at p' x = text_at p x).
    { intros x N. rewrite <- (Dt x). destruct x; try reflexivity. congruence. }
    conj.
    + eapply (inv_intro p _ CheckMem); auto; [apply grows_refl, Q|]. cbn. intros [|u] U; [reflexivity|]. apply (M (S u)). exact U.
    + apply grows_refl, Q.
    + reflexivity.
    + cbn. now rewrite Dl.
    + assert (SV : seen p = seen p').
      { unfold seen. f_equal.
        - unfold p' at 2. rewrite V. cbn [update map vars_]. f_equal. apply map_ext_in. intros x J. symmetry. apply TX.
          intros ->. apply In_nth_error in J as (n & J). specialize (M (S n)). specialize (M J). discriminate.
        - unfold p' at 2. cbn [stack_]. apply map_ext_in. intros [x|x] J; [|reflexivity]. cbn. f_equal. symmetry. apply TX. intros ->. contradiction. }
      cbn. rewrite V. cbn [map]. f_equal. fold (seen p). exact SV.
  - (* Clear *) cbn [step astep]. destruct F as (F1 & F2).
    set (p' := mkPool _ _ _ _).
    assert (Q : forall i, excess p' i = 0).
    { intros i. unfold excess. unfold p'. rewrite clear_refs by assumption. unfold uses_at, slot_at. cbn. rewrite nth_error_map.
      destruct (nth_error (slots p) i); reflexivity. }
    conj.
    + eapply (inv_intro p _ Clear); auto; [intros i; left; apply Q|]. cbn. destruct (vars_ p) as [|r vs]; intros [|u] U; try reflexivity; try discriminate.
      cbn in U. rewrite nth_error_map in U. destruct (nth_error vs u); discriminate.
    + intros i; left; apply Q.
    + cbn. destruct (vars_ p); cbn; [reflexivity|now rewrite map_length].
    + cbn. now rewrite map_length.
    + f_equal. unfold seen, p'. cbn. rewrite F1. destruct (vars_ p) as [|r vs]; [reflexivity|]. cbn in *. injection F2 as ->.
      f_equal. f_equal. rewrite !map_map. apply map_ext. reflexivity.
  - (* Failed *) cbn [step astep]. cbn [fair] in F. destruct F as ((e & E) & NA). rewrite E.
    assert (L : vars_ (left_by o back p) = vars_ p /\ length (slots (left_by o back p)) = length (slots p) /\ avars (seen (left_by o back p)) = avars (seen p)
                /\ forall i, excess p i <= excess (left_by o back p) i).
    { assert (TA : forall k q, (if back then take_args k p else Ok (p, [])) = Ok q -> Inv (fst q) /\ vars_ (fst q) = vars_ p /\ length (slots (fst q)) = length (slots p)
                   /\ avars (seen (fst q)) = avars (seen p) /\ (forall i, excess (fst q) i = excess p i) /\ (forall i, (refs (fst q) i <= refs p i)%nat)).
      { intros k q. destruct back; [|intros [= <-]; cbn [fst]; conj; auto].
        pose proof (take_args_spec k p I) as A. pose proof (aargs_vars k (seen p)) as B. destruct (take_args k p) as [[x ts]|?|]; [|discriminate|discriminate].
        intros [= <-]. cbn [fst]. destruct A as (A1 & A2 & A3 & A4 & A5 & A6 & A7). rewrite A5 in B. cbn in B. conj; auto. }
      destruct o as [t|v|k late f|k f| |v t|v w t|v w| | |o back']; cbn [left_by]; try (conj; auto; intros; lia).
      - destruct (if back then take_args k p else Ok (p, [])) as [q|?|] eqn:Q; [|conj; auto; intros; lia|conj; auto; intros; lia].
        destruct (TA k q Q) as (T1 & T2 & T3 & T4 & T5 & T6).
        assert (Plain : vars_ (fst q) = vars_ p /\ length (slots (fst q)) = length (slots p) /\ avars (seen (fst q)) = avars (seen p) /\ forall i, excess p i <= excess (fst q) i).
        { conj; auto. intros i. rewrite T5. lia. }
        destruct late; [|exact Plain]. destruct (get_new_str p) as [j|] eqn:G; [|exact Plain].
        destruct (free_refs _ _ I G) as (R & U & S0).
        assert (R' : refs (fst q) j = 0%nat) by (specialize (T6 j); lia).
        assert (S' : slot_at (fst q) j <> None) by (unfold slot_at in *; apply nth_error_Some; rewrite T3; now apply nth_error_Some).
        conj.
        + exact T2.
        + cbn. now rewrite length_update.
        + rewrite seen_fill by exact R'. exact T4.
        + intros i. unfold excess at 2. rewrite uses_fill by exact S'. change (refs (fill (fst q) j false []) i) with (refs (fst q) i).
          specialize (T5 i). unfold excess in T5 at 1. destruct (Nat.eqb_spec i j); [|lia]. subst i.
          assert (uses_at (fst q) j = 0) by (unfold excess in T5; lia). lia.
      - destruct (if back then take_args k p else Ok (p, [])) as [q|?|] eqn:Q; [|conj; auto; intros; lia|conj; auto; intros; lia].
        destruct (TA k q Q) as (T1 & T2 & T3 & T4 & T5 & T6). conj; auto. intros i. rewrite T5. lia.
      }
    destruct L as (L1 & L2 & L3 & L4). set (q := left_by o back p) in *.
    assert (XS : forall i, excess q i <= excess (set_stack q []) i).
    { intros i. unfold excess. change (uses_at (set_stack q []) i) with (uses_at q i). unfold refs. change (sum_of (refs_entry i) (stack_ (set_stack q []))) with 0%nat. cbn [set_stack vars_]. lia. }
    assert (Gr : grows (Failed o back) p (set_stack q [])).
    { intros i. right; right. split; [exact Coq.Init.Logic.I|]. specialize (XS i). specialize (L4 i). lia. }
    conj.
    + refine (inv_intro p _ _ I Gr _ _); [cbn; rewrite L1; exact M|intros []].
    + exact Gr.
    + cbn. now rewrite L1.
    + cbn. exact L2.
    + rewrite <- L3. reflexivity.
Qed.

(** * Histories *)
Lemma inv_start n m : Inv (start_pool n m).
Proof.
  split; [|split].
  - intros i. unfold excess, uses_at, slot_at, start_pool, refs. cbn [slots vars_ stack_].
    rewrite sum_const.
    + cbn. destruct (nth_error (repeat (mkSlot 0 false []) n) i) eqn:E; [|lia]. apply nth_error_In, repeat_spec in E. subst. cbn. lia.
    + intros x [<-|J]; [reflexivity|]. apply repeat_spec in J. now subst.
  - intros [|v] E; [reflexivity|]. cbn in E. apply nth_error_In, repeat_spec in E. discriminate.
  - intros [].
Qed.
Lemma seen_start n m : seen (start_pool n m) = astart m.
Proof. unfold seen, astart, start_pool. cbn. f_equal. f_equal. induction m as [|m IH]; cbn; [reflexivity|now f_equal]. Qed.
Lemma run_app l1 l2 p : run_pool (l1 ++ l2) p = bind (run_pool l1 p) (run_pool l2).
Proof. revert p; induction l1 as [|o l1 IH]; intros p; cbn; [reflexivity|]. destruct (step o p); cbn; auto. Qed.
Lemma full_cons o l p q : step o p = Ok q -> gets_full l q -> gets_full (o :: l) p.
Proof. intros E (l1 & l2 & x & -> & R & F). exists (o :: l1), l2, x. conj; auto. cbn. now rewrite E. Qed.
Lemma full_here l p : full p -> gets_full l p.
Proof. intros F. exists [], l, p. auto. Qed.

Theorem run_spec l p : Inv p -> fair_run l p ->
  match run_pool l p with
  | Ok q => Inv q /\ length (vars_ q) = length (vars_ p) /\ length (slots q) = length (slots p) /\ arun l (seen p) = Ok (seen q)
      /\ (tidy_run l p -> (forall i, excess p i = 0) -> forall i, excess q i = 0)
  | Err e => arun l (seen p) = Err e \/ (e = ERR_OUT_OF_MEMORY /\ gets_full l p)
  | UB => arun l (seen p) = UB \/ gets_full l p
  end.
Proof.
  revert p; induction l as [|o l IH]; intros p I F; cbn [run_pool arun].
  - conj; auto.
  - destruct F as (F1 & F2). pose proof (step_spec o p I F1) as A. cbn [tidy_run].
    destruct (step o p) as [p1|e|] eqn:E; cbn [bind].
    + destruct A as (I1 & G1 & L1 & L2 & A1). rewrite A1. cbn [bind]. specialize (IH p1 I1 F2).
      destruct (run_pool l p1) as [q|e|].
      * destruct IH as (I2 & L3 & L4 & A2 & T2). conj; auto; try congruence.
        intros (T0 & T1) X0. apply T2; auto. intros i. destruct (G1 i) as [Y|[Y|[Y _]]]; [exact Y|now rewrite Y|contradiction].
      * destruct IH as [IH|(IH & IF)]; [now left|right]. split; [exact IH|]. eapply full_cons; eassumption.
      * destruct IH as [IH|IH]; [now left|right]. eapply full_cons; eassumption.
    + destruct A as [A|(A & B)]; [left; now rewrite A|right; split; [exact A|now apply full_here]].
    + destruct A as [A|A]; [left; now rewrite A|right; now apply full_here].
Qed.

Lemma sum_pos {A} (f : A -> nat) l : (1 <= sum_of f l)%nat -> exists x, In x l /\ (1 <= f x)%nat.
Proof.
  unfold sum_of; induction l as [|a l IH]; cbn; intros C; [lia|]. destruct (f a) eqn:E.
  - destruct IH as (x & J & K); [lia|]. exists x; auto.
  - exists a. split; [now left|lia].
Qed.
Lemma is_ref_pos i r : (1 <= is_ref i r)%nat -> r = RDyn i.
Proof. destruct r as [t|j|]; cbn; try lia. destruct (Nat.eqb_spec i j); [now subst|lia]. Qed.
Lemma refs_pos p i : (1 <= refs p i)%nat <-> referenced p i.
Proof.
  unfold referenced. split.
  - intros R. unfold refs in R.
    assert (C : (1 <= sum_of (is_ref i) (vars_ p))%nat \/ (1 <= sum_of (refs_entry i) (stack_ p))%nat) by lia.
    destruct C as [C|C]; [left|right]; apply sum_pos in C as (x & J & K).
    + apply is_ref_pos in K. now subst.
    + destruct x as [r|v]; cbn in K; [|lia]. apply is_ref_pos in K. now subst.
  - intros [J|J]; [apply In_nth_error in J as (v & J); eapply in_refs_var; eassumption|now apply in_refs_stack].
Qed.

Lemma sum_add {A} (f g : A -> nat) l : sum_of (fun x => (f x + g x)%nat) l = (sum_of f l + sum_of g l)%nat.
Proof. unfold sum_of; induction l; cbn; lia. Qed.
Lemma sum_swap {A B} (f : A -> B -> nat) l1 l2 : sum_of (fun a => sum_of (f a) l2) l1 = sum_of (fun b => sum_of (fun a => f a b) l1) l2.
Proof.
  induction l1 as [|a l1 IH]; cbn.
  - symmetry. apply sum_const. reflexivity.
  - change (sum_of (f a) l2 + sum_of (fun a => sum_of (f a) l2) l1 = sum_of (fun b => (f a b + sum_of (fun a => f a b) l1)%nat) l2)%nat.
    now rewrite sum_add, IH.
Qed.
Lemma sum_bound {A} (f : A -> nat) l c : (forall x, In x l -> (f x <= c)%nat) -> (sum_of f l <= c * length l)%nat.
Proof. unfold sum_of; induction l as [|a l IH]; cbn; intros B; [lia|]. pose proof (B a (or_introl eq_refl)). specialize (IH (fun x J => B x (or_intror J))). lia. Qed.
Lemma sum_low {A} (f : A -> nat) l : (forall x, In x l -> (1 <= f x)%nat) -> (length l <= sum_of f l)%nat.
Proof. unfold sum_of; induction l as [|a l IH]; cbn; intros B; [lia|]. pose proof (B a (or_introl eq_refl)). specialize (IH (fun x J => B x (or_intror J))). lia. Qed.
Lemma one_slot r n : (sum_of (fun i => is_ref i r) (seq 0 n) <= 1)%nat.
Proof.
  destruct r as [t|j|]; cbn [is_ref]; try (rewrite sum_const; [lia|reflexivity]).
  assert (G : forall s, (sum_of (fun i => if Nat.eqb i j then 1 else 0) (seq s n) <= 1)%nat /\ ((j < s)%nat -> sum_of (fun i => if Nat.eqb i j then 1 else 0) (seq s n) = 0)%nat).
  { unfold sum_of. induction n as [|n IH]; intros s; cbn; [split; lia|]. destruct (IH (S s)) as (A & B). destruct (Nat.eqb_spec s j); split; lia. }
  apply G.
Qed.
Lemma refs_total p n : (sum_of (refs p) (seq 0 n) <= length (vars_ p) + length (stack_ p))%nat.
Proof.
  unfold refs. rewrite sum_add, (sum_swap is_ref), (sum_swap refs_entry).
  pose proof (sum_bound (fun b => sum_of (fun a => is_ref a b) (seq 0 n)) (vars_ p) 1 (fun x _ => one_slot x n)).
  pose proof (sum_bound (fun b => sum_of (fun a => refs_entry a b) (seq 0 n)) (stack_ p) 1) as B.
  assert (forall x, In x (stack_ p) -> (sum_of (fun a => refs_entry a x) (seq 0 n) <= 1)%nat).
  { intros [r|v] _; cbn [refs_entry]; [apply one_slot|]. rewrite sum_const; [lia|reflexivity]. }
  specialize (B H0). lia.
Qed.
