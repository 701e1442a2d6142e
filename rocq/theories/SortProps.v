(** C38: SORT and RSORT;  C53: SWAP. *)
From Verif Require Import Base BaseLemmas Strs StrSpec Sort SortSpec SortProofs.
Ltac Zify.zify_post_hook ::= Z.div_mod_to_equations.

(** The comparison used: numeric order, or the order of the < and > operators on the displayed text. *)
Lemma sort_loop_lex : forall a b, str_sort_loop a b = true <-> lex_lt a b.
Proof.
  induction a as [|x a IH]; intros [|y b]; cbn [str_sort_loop].
  - split; [intros W; discriminate W|intros W; inversion W].
  - split; [intros _; constructor|reflexivity].
  - split; [intros W; discriminate W|intros W; inversion W].
  - destruct (Z.ltb_spec x y); [split; [intros _; apply lex_head; assumption|reflexivity]|]. destruct (Z.ltb_spec y x).
    + split; [intros W; discriminate W|intros L; inversion L; lia].
    + assert (x = y) by lia. subst y. rewrite IH. split; [intros L; apply lex_tail, L|intros L; inversion L; [lia|assumption]].
Qed.
Lemma rsort_loop_lex : forall a b, str_rsort_loop a b = true <-> lex_lt b a.
Proof.
  induction a as [|x a IH]; intros [|y b]; cbn [str_rsort_loop].
  - split; [intros W; discriminate W|intros W; inversion W].
  - split; [intros W; discriminate W|intros W; inversion W].
  - split; [intros _; constructor|reflexivity].
  - destruct (Z.eqb_spec x y) as [-> |N].
    + rewrite IH. split; [intros L; apply lex_tail, L|intros L; inversion L; [lia|assumption]].
    + split; [intros L; apply lex_head; lia|intros L; inversion L; lia].
Qed.
Theorem C38_order : (forall x y, fixp_sort_comp x y = true <-> x < y) /\ (forall x y, fixp_rsort_comp x y = true <-> y < x) /\
  (forall a b x y, spells a x -> spells b y -> (str_sort_comp a b = true <-> lex_lt (map to_wide x) (map to_wide y)) /\ (str_rsort_comp a b = true <-> lex_lt (map to_wide y) (map to_wide x))).
Proof.
  split; [intros; unfold fixp_sort_comp; lia|]. split; [intros; unfold fixp_rsort_comp; lia|].
  assert (K : forall a x, spells a x -> str_wide_copy a = map to_wide x).
  { intros a x. unfold spells. destruct a; cbn; intuition congruence. }
  intros a b x y Sa Sb. unfold str_sort_comp, str_rsort_comp. rewrite (K a x Sa), (K b y Sb). split; [apply sort_loop_lex|apply rsort_loop_lex].
Qed.
Print Assumptions C38_order.

(** SORT start,size,data[,extra...] on one-dimensional arrays, all different, with start and size inside
    all of them: if it finishes, one and the same permutation of the positions start .. start+size-1 has
    been applied to all the arrays given; nothing else has changed.  It never leaves the arrays.
    Missing: that it finishes, and that the result is in order (both are refuted below). *)
Theorem C38_permutes_partial : forall V (comp : V -> V -> bool) fuel s start size d extra, (forall x, comp x x = false) ->
  NoDup (d :: extra) -> (length extra <= 32)%nat -> (forall a, In a (d :: extra) -> (a < length s)%nat /\ start + size <= Z.of_nat (length (arr s a)) /\ start < Z.of_nat (length (arr s a))) ->
  0 <= start -> 0 <= size ->
  match cmd_sort comp fuel s start size (Some (d, false)) (map (fun a => Some (a, false)) extra) with
  | None => True
  | Some r => exists s' p, r = Ok s' /\ permutes start (start + size) p /\ length s' = length s /\
      (forall a, In a (d :: extra) -> moved p (arr s a) (arr s' a)) /\ (forall a, ~ In a (d :: extra) -> arr s' a = arr s a)
  end.
Proof.
  intros V comp fuel s start size d extra Ir Nd Le Wd Hs Hz. unfold cmd_sort. rewrite map_length. destruct (Nat.ltb_spec 32 (length extra)); [lia|].
  assert (C : forall m, start + size <= m -> start < m -> exists m', check_extra s d m (map (fun a => Some (a, false)) extra) = Ok (m', extra) /\ start + size <= m' /\ start < m').
  { assert (We : forall a, In a extra -> start + size <= Z.of_nat (length (arr s a)) /\ start < Z.of_nat (length (arr s a)) /\ a <> d).
    { intros a A. destruct (Wd a (or_intror A)) as [_ W]. split; [apply W|]. split; [apply W|]. intros ->. apply NoDup_cons_iff in Nd. apply (proj1 Nd), A. }
    clear Nd Le Wd H. revert We. induction extra as [|a r IH]; intros We m M1 M2; cbn [check_extra map].
    - exists m. split; [reflexivity|]. split; assumption.
    - destruct (We a (or_introl eq_refl)) as [A1 [A2 A3]]. destruct (Nat.eqb_spec a d); [contradiction|].
      destruct (IH (fun b B => We b (or_intror B)) (if Z.of_nat (length (arr s a)) <? m then Z.of_nat (length (arr s a)) else m)) as [m' [E [E1 E2]]];
        [destruct (Z.ltb_spec (Z.of_nat (length (arr s a))) m); lia|destruct (Z.ltb_spec (Z.of_nat (length (arr s a))) m); lia|].
      rewrite E. cbn [bind]. exists m'. split; [reflexivity|]. split; assumption. }
  destruct (Wd d (or_introl eq_refl)) as [Ld [Wd1 Wd2]]. destruct (C _ Wd1 Wd2) as [m' [E [M1 M2]]]. rewrite E.
  destruct (Z.ltb_spec start 0); [lia|]. rewrite !Z.gtb_ltb. destruct (Z.ltb_spec (m' - 1) start); [lia|]. destruct (Z.ltb_spec size 0); [lia|]. destruct (Z.ltb_spec (m' - start) size); [lia|]. cbn [orb].
  assert (Q : wide (start + size) (d :: extra) s) by (intros a A; destruct (Wd a A) as [A1 [A2 A3]]; split; assumption).
  destruct (quick_sort_ok comp (d :: extra) d Nd (or_introl eq_refl) Ir (start + size) fuel s start (start + size - 1) Hs ltac:(lia) Q) as [N|(s' & p & N & P & M)]; rewrite N; [exact I|].
  exists s', p. split; [reflexivity|]. replace (start + size - 1 + 1) with (start + size) in P by lia. split; [exact P|]. exact M.
Qed.
Print Assumptions C38_permutes_partial.
(** Positions or sizes outside the smallest of the arrays are refused before anything changes *)
Theorem C38_range : forall V (comp : V -> V -> bool) fuel s start size d extra, ~ In d extra -> (length extra <= 32)%nat ->
  (exists a, In a (d :: extra) /\ (Z.of_nat (length (arr s a)) <= start \/ Z.of_nat (length (arr s a)) < start + size)) \/ start < 0 \/ size < 0 ->
  cmd_sort comp fuel s start size (Some (d, false)) (map (fun a => Some (a, false)) extra) = Some (Err ERR_OUT_OF_RANGE).
Proof.
  intros V comp fuel s start size d extra Nd Le D. unfold cmd_sort. rewrite map_length. destruct (Nat.ltb_spec 32 (length extra)); [lia|].
  assert (C : forall l m, ~ In d l -> exists m', check_extra s d m (map (fun a => Some (a, false)) l) = Ok (m', l) /\ m' <= m /\ forall a, In a l -> m' <= Z.of_nat (length (arr s a))).
  { induction l as [|a r IH]; intros m N; cbn [check_extra map].
    - exists m. split; [reflexivity|]. split; [lia|]. intros a [].
    - destruct (Nat.eqb_spec a d) as [-> |]; [exfalso; apply N; left; reflexivity|].
      destruct (IH (if Z.of_nat (length (arr s a)) <? m then Z.of_nat (length (arr s a)) else m) (fun B => N (or_intror B))) as [m' [E [E1 E2]]].
      rewrite E. cbn [bind]. exists m'. split; [reflexivity|]. destruct (Z.ltb_spec (Z.of_nat (length (arr s a))) m).
      + split; [lia|]. intros b [<- |B]; [lia|apply E2, B].
      + split; [lia|]. intros b [<- |B]; [lia|apply E2, B]. }
  destruct (C extra (Z.of_nat (length (arr s d))) Nd) as [m' [E [M1 M2]]]. rewrite E.
  assert (X : start < 0 \/ m' - 1 < start \/ size < 0 \/ m' - start < size).
  { destruct D as [[a [[<- |A] D]]|D]; [lia|specialize (M2 a A); lia|lia]. }
  rewrite !Z.gtb_ltb. destruct (Z.ltb_spec start 0); cbn [orb]; [reflexivity|]. destruct (Z.ltb_spec (m' - 1) start); [reflexivity|].
  destruct (Z.ltb_spec size 0); cbn [orb]; [reflexivity|]. destruct (Z.ltb_spec (m' - start) size); [reflexivity|lia].
Qed.
Print Assumptions C38_range.
(** SORT 1,4,A,B on A = 9,4,3,2,1 and B = 0,1,2,3,4 *)
Example C38_case : cmd_sort fixp_sort_comp 10 [[9; 4; 3; 2; 1]; [0; 1; 2; 3; 4]; [7]] 1 4 (Some (0%nat, false)) (map (fun a => Some (a, false)) [1%nat]) = Some (Ok [[9; 1; 2; 3; 4]; [0; 4; 3; 2; 1]; [7]]) /\
  cmd_sort fixp_sort_comp 10 [[9; 4; 3; 2; 1]; [0; 1; 2; 3; 4]; [7]] 1 5 (Some (0%nat, false)) (map (fun a => Some (a, false)) [1%nat]) = Some (Err ERR_OUT_OF_RANGE).
Proof. split; reflexivity. Qed.

(** ** Refutations *)
(** Two elements are not sorted at all, three elements can come out unsorted. *)
Theorem C38_order_refuted :
  (cmd_sort fixp_sort_comp 10 [[2; 1]] 0 2 (Some (0%nat, false)) [] = Some (Ok [[2; 1]]) /\ ~ in_order fixp_sort_comp 0 2 [2; 1]) /\
  (cmd_sort fixp_sort_comp 10 [[3; 1; 2]] 0 3 (Some (0%nat, false)) [] = Some (Ok [[1; 3; 2]]) /\ ~ in_order fixp_sort_comp 0 3 [1; 3; 2]).
Proof.
  split; (split; [reflexivity|]); intros O.
  - specialize (O 0%nat 1%nat 2 1 ltac:(lia) ltac:(lia) ltac:(lia) eq_refl eq_refl). discriminate O.
  - specialize (O 1%nat 2%nat 3 2 ltac:(lia) ltac:(lia) ltac:(lia) eq_refl eq_refl). discriminate O.
Qed.
(** SORT 0,3,A on A = 1,5,5 never ends: the recursion is unbounded (the C program overflows its stack). *)
Theorem C38_ends_refuted : forall fuel, cmd_sort fixp_sort_comp fuel [[1; 5; 5]] 0 3 (Some (0%nat, false)) [] = None.
Proof.
  intros fuel. change (quick_sort fixp_sort_comp fuel [[1; 5; 5]] [0%nat] 0 0 2 = None). induction fuel as [|f IH]; [reflexivity|]. cbn [quick_sort].
  replace (partition fixp_sort_comp [[1; 5; 5]] [0%nat] 0 0 2) with (@Ok (list (list Z) * Z) ([[1; 5; 5]], 2)) by reflexivity.
  change (2 - 0 <=? 1) with false. cbv iota. rewrite IH. reflexivity.
Qed.
(** A companion given twice is moved twice; an array that does not exist yet is a NULL pointer. *)
Theorem C38_companion_refuted : cmd_sort fixp_sort_comp 10 [[3; 2; 1]; [0; 1; 2]] 0 3 (Some (0%nat, false)) [Some (1%nat, false); Some (1%nat, false)] = Some (Ok [[1; 2; 3]; [0; 1; 2]]) /\
  cmd_sort fixp_sort_comp 10 [[3; 2; 1]] 0 3 None [] = Some UB.
Proof. split; reflexivity. Qed.

(** ** C53: SWAP exchanges the contents of its two variables (or array elements) and changes no other cell *)
Theorem C53_swap : forall V (m : list V) a b x y, nth_error m a = Some x -> nth_error m b = Some y ->
  exists m', cmd_swap m a b = Ok m' /\ nth_error m' a = Some y /\ nth_error m' b = Some x /\ length m' = length m /\ forall c, c <> a -> c <> b -> nth_error m' c = nth_error m c.
Proof.
  intros V m a b x y A B. unfold cmd_swap. rewrite A, B. eexists. split; [reflexivity|].
  assert (La : (a < length m)%nat) by (apply nth_error_Some; congruence). assert (Lb : (b < length m)%nat) by (apply nth_error_Some; congruence).
  split; [|split; [|split]].
  - destruct (Nat.eq_dec a b) as [<- |N]; [rewrite nth_error_upd_same by (rewrite upd_length; lia); congruence|]. rewrite nth_error_upd_other by congruence. rewrite nth_error_upd_same by lia. reflexivity.
  - rewrite nth_error_upd_same by (rewrite upd_length; lia). reflexivity.
  - rewrite !upd_length. reflexivity.
  - intros c C1 C2. rewrite !nth_error_upd_other by congruence. reflexivity.
Qed.
Print Assumptions C53_swap.
Example C53_case : cmd_swap [1; 2; 3] 0 2 = Ok [3; 2; 1].
Proof. reflexivity. Qed.
