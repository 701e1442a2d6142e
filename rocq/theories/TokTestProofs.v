(** check_cmd against the meaning of formats, and tok_test against the types. *)
From Coq Require Import String Ascii.
From Verif Require Import Base BaseLemmas Tokens ExprSpec ExprProofs StmtSpec TokTest TokTestSpec.
Open Scope Z_scope.

Lemma Forall2_length {A B} (R : A -> B -> Prop) l l' : Forall2 R l l' -> length l = length l'.
Proof. induction 1; cbn; congruence. Qed.
(** * Formats *)
Fixpoint join (l : list (list Z)) : list Z := match l with [] => [] | [f] => f | f :: r => f ++ ccomma :: join r end.
Lemma alts_nonempty f : alternatives f <> [].
Proof. induction f as [|c r IH]; cbn [alternatives]; [discriminate|]. destruct (c =? ccomma); [discriminate|]. destruct (alternatives r); discriminate. Qed.
Lemma join_alts f : join (alternatives f) = f.
Proof.
  induction f as [|c r IH]; [reflexivity|]. cbn [alternatives]. destruct (c =? ccomma) eqn:C.
  - apply Z.eqb_eq in C. subst c. pose proof (alts_nonempty r). destruct (alternatives r) as [|a l]; [congruence|]. change (ccomma :: join (a :: l) = ccomma :: r). congruence.
  - pose proof (alts_nonempty r). destruct (alternatives r) as [|a l]; [congruence|]. destruct l; cbn [join] in *; rewrite <- IH; reflexivity.
Qed.
Definition fixed_letter (c : Z) : bool := existsb (Z.eqb c) [cN; cn; cS; cs; cL; cA; csemi].
(** the letters before the list, the list letter *)
Definition front (f : list Z) : list Z := if is_list (List.last f 0) then removelast f else f.
Definition tail_ (f : list Z) : option Z := if is_list (List.last f 0) then Some (List.last f 0) else None.
Definition wf_alt (final : bool) (f : list Z) : bool :=
  forallb fixed_letter (front f) && match f with [] => false | _ => true end &&
  (final || match tail_ f with None => true | Some _ => Nat.eqb (length f) 1 end).
Fixpoint wf_alts (m : nat) (l : list (list Z)) : bool :=
  match l with
  | [] => true
  | f :: r => wf_alt (match r with [] => true | _ => false end) f && Nat.leb m (Nat.max 1 (length (front f))) && wf_alts (Nat.max m (length (front f))) r
  end.
(** a format of the kind the tables contain *)
Definition wf_format (fmt : list Z) : bool :=
  match alternatives fmt with
  | [[]] => true
  | [[c]] => (c =? cstar) || (c =? c0) || wf_alts 0 [[c]]
  | [c] :: r => if c =? c0 then wf_alts 0 r else wf_alts 0 ([c] :: r)
  | l => wf_alts 0 l
  end.
Definition fitsb (f a : list Z) : bool := Nat.eqb (length f) (length a) && forallb (fun p => letter_fits (fst p) (snd p)) (combine f a).
Definition good (f args : list Z) : bool :=
  let n := length (front f) in
  Nat.leb n (length args) && fitsb (front f) (firstn n args) &&
  match tail_ f with None => Nat.eqb n (length args) | Some x => forallb (list_fits x) (skipn n args) end.
(** ** one alternative *)
Definition measure (n : nat) (v : list Z) (i : nat) : nat := (length v * (n + 1) + (n - i))%nat.
Lemma fixed_letter_in c : fixed_letter c = true -> In c [cN; cn; cS; cs; cL; cA; csemi].
Proof. unfold fixed_letter. intros H. apply existsb_exists in H. destruct H as (x & I & E). apply Z.eqb_eq in E. subst. exact I. Qed.
Lemma loop_letter c fuel stack v i ok : fixed_letter c = true -> check_loop (S fuel) stack (c :: v) i ok =
  if Nat.ltb (length stack) (S i) then false else check_loop fuel stack v (S i) (ok && letter_fits c (nth i stack 0)).
Proof. intros H. apply fixed_letter_in in H. cbn [check_loop]. destruct H as [<-|[<-|[<-|[<-|[<-|[<-|[<-|[]]]]]]]]; cbn -[Nat.ltb nth]; reflexivity. Qed.
Lemma skipn_cons_nth (l : list Z) i : (i < length l)%nat -> skipn i l = nth i l 0 :: skipn (S i) l.
Proof. revert i. induction l as [|x l IH]; intros i H; cbn in H; [lia|]. destruct i; [reflexivity|]. cbn [skipn nth]. apply IH. lia. Qed.
Lemma loop_front f : forallb fixed_letter f = true -> forall fuel stack r i ok, (i <= length stack)%nat -> (measure (length stack) (f ++ r) i < fuel)%nat ->
  if Nat.ltb (length stack - i) (length f) then check_loop fuel stack (f ++ r) i ok = false
  else exists fuel', (measure (length stack) r (i + length f) < fuel')%nat /\
    check_loop fuel stack (f ++ r) i ok = check_loop fuel' stack r (i + length f) (ok && fitsb f (firstn (length f) (skipn i stack))).
Proof.
  induction f as [|c f IH]; intros W fuel stack r i ok I M.
  - cbn [length app]. destruct (Nat.ltb_spec (length stack - i) 0); [lia|]. exists fuel. rewrite Nat.add_0_r. split; [exact M|]. cbn [firstn]. unfold fitsb. cbn. rewrite andb_true_r. reflexivity.
  - cbn [forallb] in W. apply andb_true_iff in W. destruct W as [Wc Wf]. destruct fuel as [|fuel]; [lia|].
    cbn [app]. rewrite (loop_letter c fuel stack (f ++ r) i ok Wc). destruct (Nat.ltb_spec (length stack) (S i)) as [L|L].
    + assert (E : (Nat.ltb (length stack - i) (length (c :: f))) = true) by (apply Nat.ltb_lt; cbn [length]; lia). rewrite E. reflexivity.
    + specialize (IH Wf fuel stack r (S i) (ok && letter_fits c (nth i stack 0)) ltac:(lia)).
      assert (M' : (measure (length stack) (f ++ r) (S i) < fuel)%nat). { unfold measure in *. cbn [app length] in M. nia. }
      specialize (IH M'). assert (E : Nat.ltb (length stack - i) (length (c :: f)) = Nat.ltb (length stack - S i) (length f)).
      { cbn [length]. apply Bool.eq_iff_eq_true. rewrite !Nat.ltb_lt. lia. }
      rewrite E. destruct (Nat.ltb (length stack - S i) (length f)) eqn:B; [exact IH|]. destruct IH as (fu & M2 & E2). exists fu.
      replace (i + length (c :: f))%nat with (S i + length f)%nat by (cbn [length]; lia). split; [exact M2|]. rewrite E2. f_equal.
      rewrite <- andb_assoc. f_equal. rewrite (skipn_cons_nth stack i) by lia. cbn [length firstn]. unfold fitsb. cbn [length combine forallb fst snd Nat.eqb].
      destruct (letter_fits c (nth i stack 0)), (Nat.eqb (length f) (length (firstn (length f) (skipn (S i) stack)))); cbn; reflexivity.
Qed.
(** ** the list at the end of an alternative *)
Lemma loop_list x : is_list x = true -> forall k fuel stack r i ok, (k = length stack - i)%nat -> (i <= length stack)%nat -> ~ In clt stack -> (measure (length stack) (x :: r) i < fuel)%nat ->
  if forallb (list_fits x) (skipn i stack) then check_loop fuel stack (x :: r) i ok = ok
  else exists fuel' j, (j <= length stack)%nat /\ (measure (length stack) r j < fuel')%nat /\ check_loop fuel stack (x :: r) i ok = check_loop fuel' stack r j false.
Proof.
  intros X. induction k as [|k IH]; intros fuel stack r i ok K I N M; (destruct fuel as [|fuel]; [lia|]).
  - rewrite skipn_all2 by lia. cbn [forallb]. cbn [check_loop]. assert (E : Nat.ltb (length stack) (S i) = true) by (apply Nat.ltb_lt; lia). rewrite E.
    unfold is_list in X. apply orb_true_iff in X. destruct X as [X|X]; [apply orb_true_iff in X; destruct X as [X|X]|]; apply Z.eqb_eq in X; subst x; reflexivity.
  - assert (L : (i < length stack)%nat) by lia. rewrite (skipn_cons_nth stack i L). cbn [forallb].
    assert (B : (nth i stack 0 =? clt) = false). { apply Z.eqb_neq. intros E. apply N. rewrite <- E. apply nth_In. exact L. }
    assert (S1 : check_loop (S fuel) stack (x :: r) i ok = if list_fits x (nth i stack 0) then check_loop fuel stack (x :: r) (S i) ok else check_loop fuel stack r (S i) false).
    { cbn [check_loop]. assert (E : Nat.ltb (length stack) (S i) = false) by (apply Nat.ltb_ge; lia). rewrite E.
      unfold is_list in X. apply orb_true_iff in X. destruct X as [X|X]; [apply orb_true_iff in X; destruct X as [X|X]|]; apply Z.eqb_eq in X; subst x; unfold list_fits; cbn -[nth]; try reflexivity.
      change (nth i stack 0 =? clt) with (Z.eqb (nth i stack 0) clt). rewrite B, orb_false_r. reflexivity. }
    rewrite S1. destruct (list_fits x (nth i stack 0)); cbn [andb].
    + apply IH; [lia|lia|exact N|]. unfold measure in *. cbn [length] in *. nia.
    + exists fuel, (S i). split; [lia|]. split; [|reflexivity]. unfold measure in *. cbn [length] in *. nia.
Qed.
Lemma loop_comma fuel stack r i ok : check_loop (S fuel) stack (ccomma :: r) i ok = if ok && Nat.ltb (length stack) (S i) then true else check_loop fuel stack r 0 true.
Proof. reflexivity. Qed.
Lemma loop_end fuel stack i ok : check_loop (S fuel) stack [] i ok = Nat.eqb i (length stack) && ok.
Proof. reflexivity. Qed.
Lemma front_tail f : f <> [] -> f = front f ++ match tail_ f with Some x => [x] | None => [] end.
Proof. intros H. unfold front, tail_. destruct (is_list (List.last f 0)); [apply app_removelast_last; exact H|rewrite app_nil_r; reflexivity]. Qed.
Lemma fitsb_length (f a : list Z) : (length f <= length a)%nat -> length (firstn (length f) a) = length f.
Proof. intros H. rewrite firstn_length. lia. Qed.
(** a later alternative needs at least [m] arguments *)
Lemma good_length f args : good f args = true -> (length (front f) <= length args)%nat.
Proof. unfold good. intros H. apply andb_true_iff in H. destruct H as [H _]. apply andb_true_iff in H. destruct H as [H _]. apply Nat.leb_le. exact H. Qed.
Lemma later_alts l : forall m, wf_alts m l = true -> forall args, args <> [] -> (Nat.max 1 (length args) < m)%nat -> existsb (fun f => good f args) l = false.
Proof.
  induction l as [|f r IH]; intros m W args Ha M; [reflexivity|]. cbn [wf_alts] in W. apply andb_true_iff in W. destruct W as [W Wr]. apply andb_true_iff in W. destruct W as [_ W].
  apply Nat.leb_le in W. cbn [existsb]. rewrite (IH _ Wr args Ha) by lia. rewrite orb_false_r. apply Bool.not_true_is_false. intros G. apply good_length in G. lia.
Qed.
Lemma loop_alts l : forall m, l <> [] -> wf_alts m l = true -> forall fuel args, args <> [] -> ~ In clt args -> (measure (length args) (join l) 0 < fuel)%nat ->
  check_loop fuel args (join l) 0 true = existsb (fun f => good f args) l.
Proof.
  induction l as [|f r IH]; intros m Hl W fuel args Ha N M; [congruence|]. clear Hl. cbn [wf_alts] in W. apply andb_true_iff in W. destruct W as [W Wr].
  apply andb_true_iff in W. destruct W as [W _]. unfold wf_alt in W. apply andb_true_iff in W. destruct W as [W1 W3]. apply andb_true_iff in W1. destruct W1 as [W1 W2].
  assert (Hf : f <> []) by (destruct f; [discriminate|discriminate]). pose proof (front_tail f Hf) as Ef.
  set (t := match r with [] => [] | _ => ccomma :: join r end).
  assert (Ej : join (f :: r) = front f ++ match tail_ f with Some x => [x] | None => [] end ++ t).
  { rewrite app_assoc, <- Ef. unfold t. cbn [join]. destruct r; [rewrite app_nil_r; reflexivity|reflexivity]. }
  rewrite Ej in *. cbn [existsb].
  assert (Hn : (0 < length args)%nat) by (destruct args; [congruence|cbn; lia]).
  pose proof (loop_front (front f) W1 fuel args (match tail_ f with Some x => [x] | None => [] end ++ t) 0 true ltac:(lia) M) as Q.
  rewrite Nat.sub_0_r, Nat.add_0_l in Q. cbn [skipn] in Q. rewrite andb_true_l in Q. unfold good. destruct (Nat.ltb_spec (length args) (length (front f))) as [L|L].
  - rewrite Q. assert (E : Nat.leb (length (front f)) (length args) = false) by (apply Nat.leb_gt; lia). rewrite E. cbn [andb orb]. symmetry. apply later_alts with (m := Nat.max m (length (front f))); [exact Wr|exact Ha|lia].
  - destruct Q as (fu & M2 & E2). rewrite E2. assert (E : Nat.leb (length (front f)) (length args) = true) by (apply Nat.leb_le; lia). rewrite E. cbn [andb].
    clear E E2 M fuel.
    assert (Go : forall fu i ok, (i <= length args)%nat -> (measure (length args) t i < fu)%nat -> check_loop fu args t i ok = (ok && Nat.eqb i (length args)) || existsb (fun f => good f args) r).
    { intros fu' i ok Li Mi. unfold t in *. destruct r as [|g r].
      - destruct fu'; [lia|]. rewrite loop_end. cbn. rewrite orb_false_r. apply andb_comm.
      - destruct fu'; [lia|]. rewrite loop_comma.
        assert (Eb : Nat.ltb (length args) (S i) = Nat.eqb i (length args)). { apply Bool.eq_iff_eq_true. rewrite Nat.ltb_lt, Nat.eqb_eq. lia. }
        rewrite Eb. destruct (ok && Nat.eqb i (length args)); [reflexivity|]. cbn [orb]. apply (IH _ ltac:(discriminate) Wr); [exact Ha|exact N|]. unfold measure in *. cbn [length] in Mi. nia. }
    destruct (tail_ f) as [x|] eqn:Ex.
    + assert (Lx : is_list x = true). { unfold tail_ in Ex. destruct (is_list (List.last f 0)) eqn:Z0; [congruence|discriminate]. }
      cbn [app] in M2 |- *.
      pose proof (loop_list x Lx _ fu args t (length (front f)) (fitsb (front f) (firstn (length (front f)) args)) eq_refl L N M2) as Q.
      destruct (forallb (list_fits x) (skipn (length (front f)) args)) eqn:Q3.
      * rewrite Q, andb_true_r. destruct r as [|g r]; [cbn; rewrite orb_false_r; reflexivity|].
        cbn [orb] in W3. apply Nat.eqb_eq in W3. assert (F0 : front f = []). { rewrite Ef, app_length in W3. cbn [length] in W3. destruct (front f); [reflexivity|cbn in W3; lia]. }
        rewrite F0. reflexivity.
      * rewrite andb_false_r. cbn [orb]. destruct Q as (fu' & j & Lj & Mj & E). rewrite E. rewrite (Go fu' j false Lj Mj). reflexivity.
    + cbn [app] in M2 |- *. rewrite (Go fu _ _ L M2). reflexivity.
Qed.
(** ** in terms of the meaning *)
Lemma fitsb_iff f a : fitsb f a = true <-> Forall2 (fun c k => letter_fits c k = true) f a.
Proof.
  revert a. unfold fitsb. induction f as [|c f IH]; intros [|k a]; cbn [length combine forallb fst snd Nat.eqb andb]; split; intros H; try discriminate; try (inversion H; fail); try constructor.
  - destruct (letter_fits c k); [reflexivity|]. rewrite andb_false_r in H. discriminate.
  - apply IH. destruct (letter_fits c k); [exact H|]. rewrite andb_false_r in H. discriminate.
  - inversion H; subst. rewrite H3. cbn [andb]. apply IH. assumption.
Qed.
Lemma fixed_not_list c : fixed_letter c = true -> is_list c = false.
Proof. intros H. apply fixed_letter_in in H. destruct H as [<-|[<-|[<-|[<-|[<-|[<-|[<-|[]]]]]]]]; reflexivity. Qed.
Lemma list_no_letter c k : is_list c = true -> letter_fits c k = false.
Proof. unfold is_list. intros X. apply orb_true_iff in X. destruct X as [X|X]; [apply orb_true_iff in X; destruct X as [X|X]|]; apply Z.eqb_eq in X; subst c; reflexivity. Qed.
Lemma letter_no_list c k : fixed_letter c = true -> list_fits c k = false.
Proof. intros H. apply fixed_letter_in in H. destruct H as [<-|[<-|[<-|[<-|[<-|[<-|[<-|[]]]]]]]]; reflexivity. Qed.
Lemma not_list_fits x k : is_list x = false -> list_fits x k = false.
Proof. unfold is_list, list_fits. intros H. apply orb_false_iff in H. destruct H as [H H3]. apply orb_false_iff in H. destruct H as [H1 H2]. rewrite H1, H2, H3. reflexivity. Qed.
Lemma wf_alt_facts b f : wf_alt b f = true -> forallb fixed_letter (front f) = true /\ f <> [] /\ f <> [cstar] /\ f <> [c0].
Proof.
  unfold wf_alt. intros H. apply andb_true_iff in H. destruct H as [H _]. apply andb_true_iff in H. destruct H as [H1 H2]. split; [exact H1|].
  repeat split; intros ->; discriminate.
Qed.
Definition short_alt (f args : list Z) : Prop :=
  exists g x, f = g ++ [x] /\ is_list x = true /\ g <> [] /\ Forall2 (fun c k => letter_fits c k = true) g args.
Lemma good_iff b f args : wf_alt b f = true -> args <> [] -> good f args = true <-> matches f args \/ short_alt f args.
Proof.
  intros W Ha. destruct (wf_alt_facts b f W) as (W1 & Hf & Ns & N0). pose proof (front_tail f Hf) as Ef. unfold good. split.
  - intros H. apply andb_true_iff in H. destruct H as [H H3]. apply andb_true_iff in H. destruct H as [H1 H2]. apply Nat.leb_le in H1. apply fitsb_iff in H2.
    destruct (tail_ f) as [x|] eqn:Ex.
    + assert (Lx : is_list x = true). { unfold tail_ in Ex. destruct (is_list (List.last f 0)) eqn:Z0; [congruence|discriminate]. }
      destruct (skipn (length (front f)) args) as [|k b'] eqn:Es.
      * right. exists (front f), x. split; [exact Ef|]. split; [exact Lx|].
        assert (E : firstn (length (front f)) args = args). { rewrite <- (firstn_skipn (length (front f)) args) at 2. rewrite Es, app_nil_r. reflexivity. }
        rewrite E in H2. split; [|exact H2]. intros E0. rewrite E0 in H2. inversion H2. congruence.
      * left. right. right. right. exists (front f), x, (firstn (length (front f)) args), (k :: b'). split; [exact Ef|]. split; [rewrite <- Es, firstn_skipn; reflexivity|].
        split; [discriminate|]. split; [exact H2|]. apply Forall_forall. rewrite forallb_forall in H3. exact H3.
    + left. right. right. left. apply Nat.eqb_eq in H3. rewrite H3, firstn_all in H2. rewrite app_nil_r in Ef. rewrite Ef at 2. split; [exact Hf|exact H2].
  - assert (Inv : forall g x, f = g ++ [x] -> is_list x = true -> front f = g /\ tail_ f = Some x).
    { intros g x E Lx. unfold front, tail_. rewrite E, last_last, removelast_last, Lx. split; reflexivity. }
    intros [[M|[[M1 M2]|[[_ M]|(g & x & a & b' & E1 & E2 & Nb & F1 & F2)]]]|(g & x & E1 & Lx & Hg & F1)]; [congruence|congruence| | |].
    + destruct (tail_ f) as [x|] eqn:Ex.
      * exfalso. rewrite Ef in M. apply Forall2_app_inv_l in M. destruct M as (a1 & a2 & _ & M & _). inversion M; subst. rewrite list_no_letter in H1; [discriminate|].
        unfold tail_ in Ex. destruct (is_list (List.last f 0)) eqn:Z0; [congruence|discriminate].
      * rewrite app_nil_r in Ef. rewrite <- Ef. pose proof (Forall2_length _ _ _ M) as L. rewrite L, Nat.leb_refl, firstn_all, Nat.eqb_refl, andb_true_r. cbn [andb]. apply fitsb_iff. exact M.
    + assert (Lx : is_list x = true). { destruct (is_list x) eqn:Q; [reflexivity|]. destruct b' as [|k b']; [congruence|]. inversion F2; subst. rewrite not_list_fits in H1; [discriminate|exact Q]. }
      destruct (Inv g x E1 Lx) as [Fg Tx]. rewrite Fg, Tx. pose proof (Forall2_length _ _ _ F1) as L. rewrite E2, app_length.
      rewrite L, firstn_app, Nat.sub_diag, firstn_all, skipn_app, skipn_all, Nat.sub_diag. cbn [firstn skipn app]. rewrite app_nil_r.
      assert (E : Nat.leb (length a) (length a + length b') = true) by (apply Nat.leb_le; lia). rewrite E. cbn [andb]. apply andb_true_iff. split; [apply fitsb_iff; exact F1|].
      apply forallb_forall. apply Forall_forall. exact F2.
    + destruct (Inv g x E1 Lx) as [Fg Tx]. rewrite Fg, Tx. pose proof (Forall2_length _ _ _ F1) as L. rewrite L, Nat.leb_refl, firstn_all, skipn_all. cbn [andb forallb]. rewrite andb_true_r. apply fitsb_iff. exact F1.
Qed.
Lemma wf_alts_in l : forall m, wf_alts m l = true -> forall f, In f l -> exists b, wf_alt b f = true.
Proof.
  induction l as [|g r IH]; intros m W f H; [destruct H|]. cbn [wf_alts] in W. apply andb_true_iff in W. destruct W as [W Wr]. apply andb_true_iff in W. destruct W as [W _].
  destruct H as [->|H]; [eauto|exact (IH _ Wr f H)].
Qed.
Lemma alts_iff l m args : l <> [] -> wf_alts m l = true -> args <> [] ->
  existsb (fun f => good f args) l = true <-> exists f, In f l /\ (matches f args \/ short_alt f args).
Proof.
  intros Hl W Ha. rewrite existsb_exists. split; intros (f & I & G); exists f; (split; [exact I|]); destruct (wf_alts_in l m W f I) as [b Wb]; apply (good_iff b f args Wb Ha); exact G.
Qed.
Lemma measure_ok n v : (measure n v 0 < S ((length v + 1) * (n + 2)))%nat.
Proof. unfold measure. nia. Qed.
Lemma no_args l m : wf_alts m l = true -> forall f, In f l -> ~ matches f [] /\ ~ short_alt f [].
Proof.
  intros W f I. destruct (wf_alts_in l m W f I) as [b Wb]. destruct (wf_alt_facts b f Wb) as (_ & Hf & Ns & N0). split.
  - intros [M|[[M _]|[[_ M]|(g & x & a & b' & _ & E & Nb & _)]]]; [congruence|congruence|inversion M; congruence|]. symmetry in E. apply app_eq_nil in E. destruct E; congruence.
  - intros (g & x & _ & _ & Hg & M). inversion M; congruence.
Qed.
Lemma zero_loop r fuel stack ok : stack <> [] -> check_loop (S (S fuel)) stack (c0 :: ccomma :: r) 0 ok = check_loop fuel stack r 0 true.
Proof.
  intros H. destruct stack as [|k s]; [congruence|]. change (check_loop (S (S fuel)) (k :: s) (c0 :: ccomma :: r) 0 ok) with
    (if ok && false && Nat.ltb (length (k :: s)) 2 then true else check_loop fuel (k :: s) r 0 true). rewrite andb_false_r. reflexivity.
Qed.
Lemma alts_cons f l : alternatives f = l -> (exists g r, l = g :: r /\ f = match r with [] => g | _ => g ++ ccomma :: join r end).
Proof. intros <-. pose proof (join_alts f) as J. pose proof (alts_nonempty f). destruct (alternatives f) as [|g r] eqn:E; [congruence|]. exists g, r. split; [reflexivity|]. rewrite <- J. reflexivity. Qed.
Lemma wf_alts_nil l m : wf_alts m l = true -> In [] l -> False.
Proof. intros W I. destruct (wf_alts_in l m W [] I) as [b Wb]. discriminate. Qed.
(** the shapes of formats *)
Lemma wf_shape fmt : wf_format fmt = true -> fmt = [] \/ fmt = [cstar] \/ fmt = [c0] \/
  (exists r, r <> [] /\ alternatives fmt = [c0] :: r /\ wf_alts 0 r = true /\ fmt = c0 :: ccomma :: join r) \/
  (wf_alts 0 (alternatives fmt) = true /\ fmt = join (alternatives fmt)).
Proof.
  intros W. unfold wf_format in W. pose proof (join_alts fmt) as J. pose proof (alts_nonempty fmt) as Na.
  destruct (alternatives fmt) as [|g r] eqn:E; [congruence|]. destruct g as [|c g].
  - destruct r as [|h r]; [left; symmetry; exact J|]. exfalso. eapply wf_alts_nil; [exact W|left; reflexivity].
  - destruct g as [|c' g]; destruct r as [|h r].
    + cbn [join] in J. rewrite <- J. destruct (c =? cstar) eqn:C1; [apply Z.eqb_eq in C1; subst c; right; left; reflexivity|].
      destruct (c =? c0) eqn:C2; [apply Z.eqb_eq in C2; subst c; right; right; left; reflexivity|]. cbn [orb] in W. right. right. right. right. split; [exact W|reflexivity].
    + destruct (c =? c0) eqn:C.
      * apply Z.eqb_eq in C. subst c. right. right. right. left. exists (h :: r). repeat split; [discriminate|exact W|symmetry; exact J].
      * right. right. right. right. split; [exact W|symmetry; exact J].
    + right. right. right. right. split; [exact W|symmetry; exact J].
    + right. right. right. right. split; [exact W|symmetry; exact J].
Qed.
Lemma check_loop_used args v : args <> [] -> v <> [] -> v <> [c0] -> check_cmd args v = check_loop (S ((length v + 1) * (length args + 2))) args v 0 true.
Proof.
  intros Ha Hv N0. unfold check_cmd. assert (E : Nat.eqb (length args) 0 = false) by (destruct args; [congruence|reflexivity]). rewrite E.
  destruct v as [|c [|c' v]]; [congruence| |reflexivity]. destruct (c =? c0) eqn:C; [apply Z.eqb_eq in C; congruence|reflexivity].
Qed.
Lemma no_zero_first fmt : wf_alts 0 (alternatives fmt) = true -> exists c v, fmt = c :: v /\ c <> cstar /\ c <> c0.
Proof.
  intros W. pose proof (join_alts fmt) as J. pose proof (alts_nonempty fmt) as Na. destruct (alternatives fmt) as [|f r] eqn:E; [congruence|].
  destruct (wf_alts_in _ _ W f ltac:(left; reflexivity)) as [b Wb]. destruct (wf_alt_facts b f Wb) as (W1 & Hf & _ & _). pose proof (front_tail f Hf) as Ef.
  destruct f as [|c f]; [congruence|]. exists c, (match r with [] => f | _ => f ++ ccomma :: join r end). split; [rewrite <- J; cbn [join]; destruct r; reflexivity|].
  assert (Hc : fixed_letter c = true \/ is_list c = true).
  { destruct (front (c :: f)) as [|d u] eqn:F; cbn [app] in Ef.
    - right. destruct (tail_ (c :: f)) as [x|] eqn:T; [|discriminate]. injection Ef as -> _. unfold tail_ in T. destruct (is_list (List.last (x :: f) 0)) eqn:Q; [|discriminate]. congruence.
    - injection Ef as Ec _. subst d. cbn [forallb] in W1. apply andb_true_iff in W1. left. apply W1. }
  split; intros ->; destruct Hc; discriminate.
Qed.
Lemma check_cmd_iff fmt args : wf_format fmt = true -> ~ In clt args -> check_cmd args fmt = true <-> accepts fmt args \/ stops_short fmt args.
Proof.
  intros W N. unfold accepts, stops_short. 
  assert (Q : forall P : Prop, (check_cmd args fmt = true <-> exists f, In f (alternatives fmt) /\ (matches f args \/ short_alt f args)) ->
     check_cmd args fmt = true <-> (exists f, In f (alternatives fmt) /\ matches f args) \/ (exists f g x, In f (alternatives fmt) /\ f = g ++ [x] /\ is_list x = true /\ g <> [] /\ Forall2 (fun c k => letter_fits c k = true) g args)).
  { intros _ H. rewrite H. split.
    - intros (f & I & [M|(g & x & S0)]); [left; eauto|right; exists f, g, x; tauto].
    - intros [(f & I & M)|(f & g & x & I & S0)]; exists f; (split; [exact I|]); [left; exact M|right; exists g, x; exact S0]. }
  apply Q; [exact True|]. clear Q.
  destruct (wf_shape fmt W) as [->|[->|[->|[(r & Hr & E & Wr & Ef)|[Wr Ef]]]]].
  - cbn [alternatives]. split.
    + unfold check_cmd. destruct args; discriminate.
    + intros (f & [<-|[]] & [[M|[[M _]|[[M _]|(g & x & a & b & M & _)]]]|(g & x & M & _)]); try congruence; symmetry in M; apply app_eq_nil in M; destruct M; discriminate.
  - split; [|intros _; unfold check_cmd; destruct args; reflexivity]. intros _. exists [cstar]. split; [left; reflexivity|]. left. left. reflexivity.
  - change (alternatives [c0]) with [[c0]]. change (check_cmd args [c0]) with (Nat.eqb (length args) 0). split.
    + intros H. destruct args; [|discriminate]. exists [c0]. split; [left; reflexivity|]. left. right. left. auto.
    + intros (f & [<-|[]] & [[M|[[_ ->]|[[_ M]|(g & x & a & b & M & _ & Nb & _ & F2)]]]|(g & x & M & Lx & _)]).
      * discriminate. * reflexivity. * inversion M; subst. discriminate.
      * destruct g as [|y g]; [|destruct g; discriminate]. injection M as <-. destruct b as [|k b]; [congruence|]. inversion F2; subst. discriminate.
      * destruct g as [|y g]; [|destruct g; discriminate]. injection M as <-. discriminate.
  - rewrite E. destruct args as [|k args].
    + rewrite Ef. split; [intros _|intros _; reflexivity]. exists [c0]. split; [left; reflexivity|]. left. right. left. auto.
    + rewrite check_loop_used by (try discriminate; rewrite Ef; discriminate). 
      assert (Ec : check_loop (S ((length fmt + 1) * (length (k :: args) + 2))) (k :: args) fmt 0 true = existsb (fun f => good f (k :: args)) r).
      { set (a := k :: args) in *. assert (Hf2 : exists fu, S ((length fmt + 1) * (length a + 2)) = S (S fu) /\ (measure (length a) (join r) 0 < fu)%nat).
        { rewrite Ef. cbn [length]. unfold measure. exists (((S (S (length (join r))) + 1) * (length a + 2)) - 1)%nat. split; nia. }
        destruct Hf2 as (fu & -> & M). rewrite Ef. rewrite zero_loop by discriminate. apply (loop_alts r 0 Hr Wr); [discriminate|exact N|exact M]. }
      rewrite Ec. rewrite (alts_iff r 0 (k :: args) Hr Wr ltac:(discriminate)). split; intros (f & I & G).
      * exists f. split; [right; exact I|exact G].
      * destruct I as [<-|I]; [|exists f; auto]. exfalso. destruct G as [[G|[[_ G]|[[_ G]|(g & x & a & b & M & _ & Nb & _ & F2)]]]|(g & x & M & Lx & _)]; try discriminate.
        -- inversion G; subst. discriminate.
        -- destruct g as [|y g]; [|destruct g; discriminate]. injection M as <-. destruct b as [|k' b]; [congruence|]. inversion F2; subst. discriminate.
        -- destruct g as [|y g]; [|destruct g; discriminate]. injection M as <-. discriminate.
  - destruct (no_zero_first fmt Wr) as (c & v & E0 & Ns & N0). destruct args as [|k args].
    + split.
      * intros H. exfalso. rewrite E0 in H. unfold check_cmd in H. cbn [length Nat.eqb] in H. apply Z.eqb_neq in Ns. apply Z.eqb_neq in N0. rewrite Ns, N0 in H. destruct v; discriminate.
      * intros (f & I & G). destruct (no_args _ 0 Wr f I) as [G1 G2]. tauto.
    + rewrite check_loop_used; [|discriminate|rewrite E0; discriminate|rewrite E0; congruence].
      rewrite Ef at 2. rewrite (loop_alts (alternatives fmt) 0 (alts_nonempty fmt) Wr) ; [|discriminate|exact N|rewrite <- Ef; apply measure_ok].
      apply alts_iff with (m := 0%nat); [apply alts_nonempty|exact Wr|discriminate].
Qed.
