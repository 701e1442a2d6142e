From Verif Require Import Base BaseLemmas Strs Sort SortSpec.
Ltac Zify.zify_post_hook ::= Z.div_mod_to_equations.

Lemma permutes_id lo hi : permutes lo hi (fun k => k).
Proof. split; [exists (fun k => k); intros; split; reflexivity|reflexivity]. Qed.
Lemma permutes_comp lo hi p q : permutes lo hi p -> permutes lo hi q -> permutes lo hi (fun k => p (q k)).
Proof.
  intros [[p' P] Fp] [[q' Q] Fq]. split.
  - exists (fun k => q' (p' k)). intros k. destruct (Q (p' k)) as [Q1 _], (P k) as [P1 _], (P (q k)) as [_ P2], (Q k) as [_ Q2].
    split; [rewrite Q1; exact P1|rewrite P2; exact Q2].
  - intros k K. rewrite (Fq k K). apply Fp, K.
Qed.
Lemma permutes_wider lo hi lo' hi' p : lo' <= lo -> hi <= hi' -> permutes lo hi p -> permutes lo' hi' p.
Proof. intros A B [I F]. split; [exact I|]. intros k K. apply F. lia. Qed.
Definition transpose (i j : nat) (k : nat) : nat := if Nat.eqb k i then j else if Nat.eqb k j then i else k.
Lemma transpose_permutes lo hi i j : lo <= Z.of_nat i < hi -> lo <= Z.of_nat j < hi -> permutes lo hi (transpose i j).
Proof.
  intros I J. split.
  - exists (transpose i j). assert (T : forall k, transpose i j (transpose i j k) = k).
    { intros k. unfold transpose. destruct (Nat.eqb_spec k i) as [-> |Ni]; [destruct (Nat.eqb_spec j i) as [-> |]; [reflexivity|rewrite Nat.eqb_refl; reflexivity]|].
      destruct (Nat.eqb_spec k j) as [-> |Nj]; [rewrite Nat.eqb_refl; reflexivity|]. destruct (Nat.eqb_spec k i); [lia|]. destruct (Nat.eqb_spec k j); [lia|]. reflexivity. }
    intros k. split; apply T.
  - intros k K. unfold transpose. destruct (Nat.eqb_spec k i); [lia|]. destruct (Nat.eqb_spec k j); [lia|]. reflexivity.
Qed.

Section S.
Context {V : Type} (comp : V -> V -> bool).
Lemma moved_id (l : list V) : moved (fun k => k) l l. Proof. split; reflexivity. Qed.
Lemma moved_comp p q (l l' l'' : list V) : moved p l l' -> moved q l' l'' -> moved (fun k => p (q k)) l l''.
Proof. intros [L1 M1] [L2 M2]. split; [congruence|]. intros k. rewrite M2, M1. reflexivity. Qed.
Lemma at_ok (l : list V) i : 0 <= i < Z.of_nat (length l) -> exists v, at_ l i = Ok v /\ nth_error l (Z.to_nat i) = Some v.
Proof.
  intros R. unfold at_. destruct (Z.ltb_spec i 0); [lia|]. destruct (nth_error l (Z.to_nat i)) eqn:E; [eexists; split; reflexivity|].
  apply nth_error_None in E. lia.
Qed.
Lemma at_inv (l : list V) i v : at_ l i = Ok v -> 0 <= i < Z.of_nat (length l) /\ nth_error l (Z.to_nat i) = Some v.
Proof.
  unfold at_. destruct (Z.ltb_spec i 0); [intros W; discriminate W|]. destruct (nth_error l (Z.to_nat i)) eqn:E; intros [= <-].
  split; [|reflexivity]. assert (nth_error l (Z.to_nat i) <> None) by congruence. apply nth_error_Some in H0. lia.
Qed.
Lemma swap1_ok (l : list V) i j : 0 <= i < Z.of_nat (length l) -> 0 <= j < Z.of_nat (length l) ->
  exists l', swap1 l i j = Ok l' /\ moved (transpose (Z.to_nat i) (Z.to_nat j)) l l'.
Proof.
  intros I J. destruct (at_ok l i I) as [x [X X']], (at_ok l j J) as [y [Y Y']]. unfold swap1. rewrite X, Y. cbn [bind]. eexists. split; [reflexivity|].
  split; [rewrite !upd_length; reflexivity|]. intros k. unfold transpose. destruct (Nat.eqb_spec k (Z.to_nat i)) as [-> |Ni].
  - destruct (Nat.eq_dec (Z.to_nat i) (Z.to_nat j)) as [E|N].
    + rewrite E. rewrite nth_error_upd_same by (rewrite upd_length; lia). congruence.
    + rewrite nth_error_upd_other by lia. rewrite nth_error_upd_same by lia. congruence.
  - destruct (Nat.eqb_spec k (Z.to_nat j)) as [-> |Nj].
    + rewrite nth_error_upd_same by (rewrite upd_length; lia). congruence.
    + rewrite !nth_error_upd_other by lia. reflexivity.
Qed.

(** the arrays of [ids] all moved by [p], the others untouched *)
Definition all_moved (p : nat -> nat) (ids : list nat) (s s' : store (V := V)) : Prop :=
  length s' = length s /\ (forall a, In a ids -> moved p (arr s a) (arr s' a)) /\ (forall a, ~ In a ids -> arr s' a = arr s a).
Lemma all_moved_id ids s : all_moved (fun k => k) ids s s.
Proof. split; [reflexivity|]. split; [intros; apply moved_id|reflexivity]. Qed.
Lemma all_moved_comp p q ids s s' s'' : all_moved p ids s s' -> all_moved q ids s' s'' -> all_moved (fun k => p (q k)) ids s s''.
Proof.
  intros [L1 [M1 N1]] [L2 [M2 N2]]. split; [congruence|]. split.
  - intros a A. apply (moved_comp p q _ (arr s' a)); [apply M1, A|apply M2, A].
  - intros a A. rewrite (N2 a A). apply N1, A.
Qed.
Definition wide (n : Z) (ids : list nat) (s : store (V := V)) : Prop := forall a, In a ids -> (a < length s)%nat /\ n <= Z.of_nat (length (arr s a)).
Lemma wide_moved n p ids s s' : wide n ids s -> all_moved p ids s s' -> wide n ids s'.
Proof. intros W [L [M _]] a A. destruct (W a A) as [W1 W2]. destruct (M a A) as [M1 _]. split; [lia|]. rewrite M1. exact W2. Qed.
Lemma arr_upd_same (s : store (V := V)) a l : (a < length s)%nat -> arr (upd s a l) a = l.
Proof. intros L. apply nth_upd_same, L. Qed.
Lemma arr_upd_other (s : store (V := V)) a b l : a <> b -> arr (upd s a l) b = arr s b.
Proof. intros N. apply nth_upd_other. congruence. Qed.

Lemma sort_swap_ok : forall ids s i j n, NoDup ids -> wide n ids s -> 0 <= i < n -> 0 <= j < n ->
  exists s', sort_swap s ids i j = Ok s' /\ all_moved (transpose (Z.to_nat i) (Z.to_nat j)) ids s s'.
Proof.
  induction ids as [|a ids IH]; intros s i j n Nd Wd I J; cbn [sort_swap].
  - exists s. split; [reflexivity|]. split; [reflexivity|]. split; [intros a []|reflexivity].
  - apply NoDup_cons_iff in Nd. destruct Nd as [Na Nd]. destruct (Wd a (or_introl eq_refl)) as [La Wa].
    destruct (swap1_ok (arr s a) i j ltac:(lia) ltac:(lia)) as [l' [E M]]. rewrite E. cbn [bind].
    destruct (IH (upd s a l') i j n Nd) as [s' [E' [L [M' N']]]]; [|exact I|exact J|].
    { intros b B. rewrite upd_length. assert (a <> b) by (intros ->; contradiction). rewrite arr_upd_other by assumption. apply Wd. right. exact B. }
    exists s'. split; [exact E'|]. split; [rewrite L; apply upd_length|]. split.
    + intros b [<- |B].
      * rewrite (N' a Na), arr_upd_same by assumption. exact M.
      * assert (a <> b) by (intros ->; contradiction). specialize (M' b B). rewrite arr_upd_other in M' by assumption. exact M'.
    + intros b B. assert (a <> b /\ ~ In b ids) as [B1 B2] by (split; [intros ->|intros C]; apply B; [left; reflexivity|right; exact C]).
      rewrite (N' b B2). apply arr_upd_other, B1.
Qed.

Lemma scan_up_ok l pivot u x : nth_error l (Z.to_nat u) = Some x -> comp x pivot = false -> 
  forall fuel i, 0 <= i <= u -> u < Z.of_nat (length l) -> (u - i < Z.of_nat fuel) ->
  exists i' y, scan_up comp fuel l pivot i = Ok i' /\ i <= i' <= u /\ nth_error l (Z.to_nat i') = Some y /\ comp y pivot = false.
Proof.
  intros X C. induction fuel as [|f IH]; intros i I L F; [lia|]. cbn [scan_up]. destruct (at_ok l i ltac:(lia)) as [v [E E']]. rewrite E. cbn [bind].
  destruct (comp v pivot) eqn:Cv.
  - assert (i <> u) by (intros ->; congruence). destruct (IH (i + 1) ltac:(lia) L ltac:(lia)) as [i' [y [A [B D]]]]. exists i', y. split; [exact A|]. split; [lia|exact D].
  - exists i, v. split; [reflexivity|]. split; [lia|]. split; assumption.
Qed.
Lemma scan_down_ok l pivot u x : nth_error l (Z.to_nat u) = Some x -> comp pivot x = false -> 0 <= u ->
  forall fuel j, u <= j < Z.of_nat (length l) -> (j - u < Z.of_nat fuel) ->
  exists j' y, scan_down comp fuel l pivot j = Ok j' /\ u <= j' <= j /\ nth_error l (Z.to_nat j') = Some y /\ comp pivot y = false.
Proof.
  intros X C U. induction fuel as [|f IH]; intros j J F; [lia|]. cbn [scan_down]. destruct (at_ok l j ltac:(lia)) as [v [E E']]. rewrite E. cbn [bind].
  destruct (comp pivot v) eqn:Cv.
  - assert (j <> u) by (intros ->; congruence). destruct (IH (j - 1) ltac:(lia) ltac:(lia)) as [j' [y [A [B D]]]]. exists j', y. split; [exact A|]. split; [lia|exact D].
  - exists j, v. split; [reflexivity|]. split; [lia|]. split; assumption.
Qed.

Variable ids : list nat.
Variable d : nat.
Hypothesis Nd : NoDup ids.
Hypothesis Hd : In d ids.

Lemma part_loop_ok pivot lo hi n : 0 <= lo -> hi < n -> forall fuel s i j u w x y, wide n ids s -> lo - 1 <= i -> j <= hi + 1 ->
  i < u <= hi -> u <= hi -> lo <= w < j -> nth_error (arr s d) (Z.to_nat u) = Some x -> comp x pivot = false -> nth_error (arr s d) (Z.to_nat w) = Some y -> comp pivot y = false ->
  hi - i < Z.of_nat fuel ->
  exists s' r p, part_loop comp fuel s ids d pivot i j = Ok (s', r) /\ lo <= r <= hi /\ permutes lo (hi + 1) p /\ all_moved p ids s s'.
Proof.
  intros Lo Hn. induction fuel as [|f IH]; intros s i j u w x y Wd Li Lj U U2 Wr Xu Cu Yw Cw F; [lia|]. cbn [part_loop].
  destruct (Wd d Hd) as [Ld Wn].
  destruct (scan_up_ok (arr s d) pivot u x Xu Cu (S (length (arr s d))) (i + 1) ltac:(lia) ltac:(lia) ltac:(lia)) as [i' [xi [Ei [Ii [Xi Ci]]]]].
  destruct (scan_down_ok (arr s d) pivot w y Yw Cw ltac:(lia) (S (length (arr s d))) (j - 1) ltac:(lia) ltac:(lia)) as [j' [yj [Ej [Jj [Yj Cj]]]]].
  rewrite Ei. cbn [bind]. rewrite Ej. cbn [bind]. rewrite Z.geb_leb. destruct (Z.leb_spec j' i') as [Le|Gt].
  - exists s, i', (fun k => k). split; [reflexivity|]. split; [lia|]. split; [apply permutes_id|apply all_moved_id].
  - destruct (sort_swap_ok ids s i' j' n Nd Wd ltac:(lia) ltac:(lia)) as [s1 [E1 M1]]. rewrite E1. cbn [bind].
    assert (Md := proj1 (proj2 M1) d Hd). destruct Md as [_ Md].
    assert (Xi1 : nth_error (arr s1 d) (Z.to_nat j') = Some xi) by (rewrite Md; unfold transpose; destruct (Nat.eqb_spec (Z.to_nat j') (Z.to_nat i')); [lia|]; rewrite Nat.eqb_refl; exact Xi).
    assert (Yj1 : nth_error (arr s1 d) (Z.to_nat i') = Some yj) by (rewrite Md; unfold transpose; rewrite Nat.eqb_refl; exact Yj).
    destruct (IH s1 i' j' j' i' xi yj (wide_moved _ _ _ _ _ Wd M1) ltac:(lia) ltac:(lia) ltac:(lia) ltac:(lia) ltac:(lia) Xi1 Ci Yj1 Cj ltac:(lia)) as (s2 & r & p & E2 & R & P & M2).
    exists s2, r, (fun k => transpose (Z.to_nat i') (Z.to_nat j') (p k)). split; [exact E2|]. split; [exact R|]. split.
    + apply permutes_comp; [apply transpose_permutes; lia|exact P].
    + apply (all_moved_comp _ _ _ _ _ _ M1 M2).
Qed.
Hypothesis irrefl : forall x, comp x x = false.
Lemma partition_ok s lo hi n : 0 <= lo -> 1 < hi - lo -> hi < n -> wide n ids s ->
  exists s' r p, partition comp s ids d lo hi = Ok (s', r) /\ lo <= r <= hi /\ permutes lo (hi + 1) p /\ all_moved p ids s s'.
Proof.
  intros Lo Lh Hn Wd. unfold partition. destruct (Z.leb_spec (hi - lo) 1); [lia|]. destruct (Wd d Hd) as [Ld Wn].
  set (mid := lo + (hi - lo) / 2). assert (Mid : lo <= mid < hi) by (unfold mid; lia).
  destruct (at_ok (arr s d) mid ltac:(lia)) as [pv [E E']]. rewrite E. cbn [bind].
  apply (part_loop_ok pv lo hi n Lo Hn _ s (lo - 1) (hi + 1) mid mid pv pv Wd); try lia; try assumption; apply irrefl.
Qed.
Lemma quick_sort_ok n : forall fuel s lo hi, 0 <= lo -> hi < n -> wide n ids s ->
  quick_sort comp fuel s ids d lo hi = None \/
  exists s' p, quick_sort comp fuel s ids d lo hi = Some (Ok s') /\ permutes lo (hi + 1) p /\ all_moved p ids s s'.
Proof.
  induction fuel as [|f IH]; intros s lo hi Lo Hn Wd; [left; reflexivity|]. cbn [quick_sort].
  destruct (Z.leb_spec (hi - lo) 1); [right; exists s, (fun k => k); split; [reflexivity|split; [apply permutes_id|apply all_moved_id]]|].
  destruct (partition_ok s lo hi n Lo ltac:(lia) Hn Wd) as (s1 & r & p1 & E1 & R & P1 & M1). rewrite E1.
  pose proof (wide_moved _ _ _ _ _ Wd M1) as W1.
  destruct (IH s1 lo r Lo ltac:(lia) W1) as [E2|(s2 & p2 & E2 & P2 & M2)]; rewrite E2; [left; reflexivity|].
  pose proof (wide_moved _ _ _ _ _ W1 M2) as W2.
  destruct (IH s2 (r + 1) hi ltac:(lia) Hn W2) as [E3|(s3 & p3 & E3 & P3 & M3)]; rewrite E3; [left; reflexivity|].
  right. exists s3, (fun k => p1 (p2 (p3 k))). split; [reflexivity|]. split.
  - apply (permutes_comp lo (hi + 1) p1 (fun k => p2 (p3 k))); [exact P1|]. apply permutes_comp; [apply (permutes_wider lo (r + 1)); [lia|lia|exact P2]|apply (permutes_wider (r + 1) (hi + 1)); [lia|lia|exact P3]].
  - apply (all_moved_comp p1 (fun k => p2 (p3 k)) _ s s1 s3 M1). apply (all_moved_comp _ _ _ _ _ _ M2 M3).
Qed.
End S.
(** with a larger depth the result stays *)
Lemma quick_sort_more {V} (comp : V -> V -> bool) ids d : forall fuel s lo hi r, quick_sort comp fuel s ids d lo hi = Some r -> quick_sort comp (S fuel) s ids d lo hi = Some r.
Proof.
  induction fuel as [|f IH]; intros s lo hi r E; [discriminate E|]. cbn [quick_sort] in E. change (quick_sort comp (S (S f)) s ids d lo hi) with
    (if hi - lo <=? 1 then Some (Ok s) else match partition comp s ids d lo hi with
      | Ok (s, p) => match quick_sort comp (S f) s ids d lo p with Some (Ok s) => quick_sort comp (S f) s ids d (p + 1) hi | r => r end
      | Err e => Some (Err e) | UB => Some UB end).
  destruct (hi - lo <=? 1); [exact E|]. destruct (partition comp s ids d lo hi) as [[s1 p]|e|]; [|exact E|exact E].
  destruct (quick_sort comp f s1 ids d lo p) as [[s2|e|]|] eqn:E2; [|rewrite (IH _ _ _ _ E2); exact E|rewrite (IH _ _ _ _ E2); exact E|discriminate E].
  rewrite (IH _ _ _ _ E2). apply IH, E.
Qed.
