(** C22: strings are values.  Histories of string operations on a pool with [n] strings and [m] string variables. *)
From Verif Require Import Base BaseLemmas Pool PoolSpec PoolProofs.
From Coq Require Import Lia ZArith List Bool Arith.
Import ListNotations.
Open Scope Z_scope.

Definition history (n m : nat) (l : list op) (p : pool) : Prop := fair_run l (start_pool n m) /\ run_pool l (start_pool n m) = Ok p.

(** A history on the pool gives every variable and every pending value the text it has when strings are plain values, and fails exactly when that fails, or when at some point all strings of the pool are in use.
    Missing: SWAP with MEM$, and going on after an assignment has run out of memory (both false, see below). *)
Theorem C22_values_partial : forall n m l, fair_run l (start_pool n m) ->
  match run_pool l (start_pool n m) with
  | Ok p => arun l (astart m) = Ok (seen p)
  | Err e => arun l (astart m) = Err e \/ (e = ERR_OUT_OF_MEMORY /\ gets_full l (start_pool n m))
  | UB => arun l (astart m) = UB \/ gets_full l (start_pool n m)
  end.
Proof.
  intros n m l F. pose proof (run_spec l _ (inv_start n m) F) as R. rewrite seen_start in R.
  destruct (run_pool l (start_pool n m)); auto. apply R.
Qed.

Lemma history_inv n m l p : history n m l p -> Inv p.
Proof. intros (F & R). pose proof (run_spec l _ (inv_start n m) F) as X. rewrite R in X. apply X. Qed.

(** (Same histories as above.) The string handed out for a new value is not referred to by any variable, array element or pending value. *)
Theorem C22_fresh_partial : forall n m l p i, history n m l p -> get_new_str p = Some i -> ~ referenced p i.
Proof.
  intros n m l p i H G R. apply history_inv in H. destruct (free_refs p i H G) as (Z & _). apply refs_pos in R. lia.
Qed.

(** (Same histories as above.) After [V$ = value], V$ has that text, every other variable and every other pending value keeps its own. *)
Theorem C22_only_assigned_partial : forall n m l p p' b v s, history n m l p -> stack_ p = b :: EVar v :: s -> step Assign p = Ok p' ->
  aread (seen p) (seen_entry p b) = Ok (text_at p' (nth v (vars_ p') RMem))
  /\ (forall w, w <> v -> nth_error (avars (seen p')) w = nth_error (avars (seen p)) w)
  /\ astack (seen p') = map (seen_entry p) s.
Proof.
  intros n m l p p' b v s H E S1. pose proof (history_inv _ _ _ _ H) as I.
  pose proof (step_spec Assign p I Coq.Init.Logic.I) as X. rewrite S1 in X. destruct X as (_ & _ & _ & _ & A).
  cbn [astep] in A. assert (Ea : astack (seen p) = seen_entry p b :: AVar v :: map (seen_entry p) s) by (cbn; now rewrite E).
  rewrite Ea in A. destruct (aread (seen p) (seen_entry p b)) as [t|?|]; cbn [bind] in A; try discriminate.
  destruct (nth_error (avars (seen p)) v) as [o|] eqn:O1; [|discriminate]. apply (f_equal (fun x => match x with Ok y => y | _ => seen p' end)) in A.
  assert (A1 : avars (seen p') = update (avars (seen p)) v t) by (rewrite <- A; reflexivity).
  assert (A2 : astack (seen p') = map (seen_entry p) s) by (rewrite <- A; reflexivity).
  conj.
  - f_equal. assert (N : nth_error (avars (seen p')) v = Some t) by (rewrite A1; eapply nth_update_same; eassumption).
    cbn in N. rewrite nth_error_map in N. destruct (nth_error (vars_ p') v) as [r|] eqn:V; [|discriminate]. cbn in N.
    rewrite (nth_error_nth _ _ _ V). congruence.
  - intros w D. rewrite A1. apply nth_update_other. congruence.
  - exact A2.
Qed.

Lemma excess_start n m i : excess (start_pool n m) i = 0.
Proof.
  unfold excess, uses_at, slot_at, start_pool, refs. cbn [slots vars_ stack_]. rewrite sum_const.
  - cbn. destruct (nth_error (repeat (mkSlot 0 false []) n) i) eqn:E; [|lia]. apply nth_error_In, repeat_spec in E. subst. cbn. lia.
  - intros x [<-|J]; [reflexivity|]. apply repeat_spec in J. now subst.
Qed.
(** Without the commands that forget strings, a string is in use exactly as often as it is referred to: one that is no longer referred to is available again. *)
Theorem C22_released_partial : forall n m l p, history n m l p -> tidy_run l (start_pool n m) ->
  forall i s, slot_at p i = Some s -> uses s = Z.of_nat (refs p i).
Proof.
  intros n m l p (F & R) T i s E. pose proof (run_spec l _ (inv_start n m) F) as X. rewrite R in X. destruct X as (_ & _ & _ & _ & X).
  specialize (X T (excess_start n m) i). unfold excess, uses_at in X. rewrite E in X. lia.
Qed.
(** ... and the pool has a free string whenever it has more strings than there are variables and pending values. *)
Theorem C22_room_partial : forall n m l p, history n m l p -> tidy_run l (start_pool n m) ->
  (S m + length (stack_ p) < n)%nat -> exists i, get_new_str p = Some i.
Proof.
  intros n m l p H T L. destruct (get_new_str p) as [i|] eqn:G; [now exists i|exfalso].
  pose proof (none_full _ G) as Fu. pose proof (C22_released_partial n m l p H T) as U. destruct H as (F & R).
  pose proof (run_spec l _ (inv_start n m) F) as X. rewrite R in X. destruct X as (I & Lv & Ls & _).
  assert (Ls' : length (slots p) = n) by (rewrite Ls; cbn; apply repeat_length).
  assert (Lv' : length (vars_ p) = S m) by (rewrite Lv; cbn; now rewrite repeat_length).
  pose proof (refs_total p (length (slots p))) as B. pose proof (sum_low (refs p) (seq 0 (length (slots p)))) as C.
  rewrite seq_length in C. assert (length (slots p) <= sum_of (refs p) (seq 0 (length (slots p))))%nat; [|lia].
  apply C. intros i Hi. apply in_seq in Hi. destruct (nth_error (slots p) i) as [s|] eqn:E.
  - specialize (Fu i s E). specialize (U i s E). lia.
  - apply nth_error_None in E. lia.
Qed.
Lemma tidy_app l1 l2 p : tidy_run (l1 ++ l2) p -> tidy_run l1 p.
Proof. revert p; induction l1 as [|o l1 IH]; intros p; cbn; [auto|]. intros (A & B). split; [exact A|]. destruct (step o p); auto. Qed.
Lemma fair_app l1 l2 p : fair_run (l1 ++ l2) p -> fair_run l1 p.
Proof. revert p; induction l1 as [|o l1 IH]; intros p; cbn; [auto|]. intros (A & B). split; [exact A|]. destruct (step o p); auto. Qed.
(** With more strings than variables and pending values together, the pool cannot be told from plain values. *)
Theorem C22_enough_strings_partial : forall n m d l, fair_run l (start_pool n m) -> tidy_run l (start_pool n m) ->
  (forall l1 l2 q, l = l1 ++ l2 -> run_pool l1 (start_pool n m) = Ok q -> (length (stack_ q) <= d)%nat) -> (S m + d < n)%nat ->
  match run_pool l (start_pool n m) with
  | Ok p => arun l (astart m) = Ok (seen p)
  | Err e => arun l (astart m) = Err e
  | UB => arun l (astart m) = UB
  end.
Proof.
  intros n m d l F T D L. pose proof (C22_values_partial n m l F) as V.
  assert (NF : ~ gets_full l (start_pool n m)).
  { intros (l1 & l2 & q & E & R & Fu). pose proof (D l1 l2 q E R). subst l.
    destruct (C22_room_partial n m l1 q) as (i & G).
    - split; [eapply fair_app; eassumption|exact R].
    - eapply tidy_app; eassumption.
    - lia.
    - destruct (free_slot _ _ G) as (s & A & B). specialize (Fu i s A). lia. }
  destruct (run_pool l (start_pool n m)); auto.
  - destruct V as [V|(_ & V)]; [exact V|contradiction].
  - destruct V as [V|V]; [exact V|contradiction].
Qed.

(** A$="AB":B$=A$:A$=B$+"C":SWAP A$,B$: variable 1 is A$, 2 is B$ *)
Definition concat2 (ts : list text_) : fres := match ts with [a; b] => if Nat.ltb 256 (length a + length b) then Fails ERR_STRING_TOO_LONG else Fresh (a ++ b) | _ => Fails ERR_SYNTAX end.
Definition example : list op :=
  [PushVar 1; PushConst [65; 66]; Assign; PushVar 2; PushVar 1; Assign; PushVar 1; PushVar 2; PushConst [67]; Func 2 true concat2; Assign; Swap 1 2].
Example example_fair : fair_run example (start_pool 8 2) /\ tidy_run example (start_pool 8 2).
Proof. cbn. intuition discriminate. Qed.
Example example_run : exists p, run_pool example (start_pool 8 2) = Ok p /\ seen p = mkStore [[]; [65; 66]; [65; 66; 67]] [] /\ refs p 0 = 1%nat /\ refs p 1 = 1%nat.
Proof. eexists. vm_compute. split; [reflexivity|]. repeat split. Qed.
Example example_depth : forall l1 l2 q, example = l1 ++ l2 -> run_pool l1 (start_pool 8 2) = Ok q -> (length (stack_ q) <= 3)%nat.
Proof.
  intros l1 l2 q E R.
  assert (In l1 (map (fun k => firstn k example) (seq 0 13))).
  { apply in_map_iff. exists (length l1). split; [rewrite E, firstn_app, Nat.sub_diag, firstn_all; apply app_nil_r|].
    apply in_seq. assert (L : length example = length (l1 ++ l2)) by now rewrite E. rewrite app_length in L. cbn in L. lia. }
  assert (G : forallb (fun l => match run_pool l (start_pool 8 2) with Ok q => Nat.leb (length (stack_ q)) 3 | _ => true end) (map (fun k => firstn k example) (seq 0 13)) = true) by (vm_compute; reflexivity).
  rewrite forallb_forall in G. specialize (G l1 H). rewrite R in G. now apply Nat.leb_le.
Qed.

Lemma find_used k r i : find_free (repeat (mkSlot 1 false [65]) k ++ r) i = find_free r (k + i).
Proof. revert i; induction k as [|k IH]; intros i; cbn; [reflexivity|]. rewrite IH. f_equal. lia. Qed.
Lemma update_used {A} k (s : A) r x : update (repeat s k ++ x :: r) k s = repeat s (S k) ++ r.
Proof. induction k as [|k IH]; cbn; [reflexivity|]. now rewrite IH. Qed.
(** READ A$ in a loop: every READ uses up a string for good; after as many as there are strings the pool is full although only A$ refers to one. *)
Theorem C22_read_forgets_strings_refuted : forall n, (0 < n)%nat -> exists p,
  history n 1 (repeat (StoreLeak 1 [65]) n) p /\ full p /\ length (vars_ p) = 2%nat /\ stack_ p = [].
Proof.
  intros n _.
  assert (G : forall k d old, fair_run (repeat (StoreLeak 1 [65]) k) (mkPool (repeat (mkSlot 1 false [65]) d ++ repeat (mkSlot 0 false []) k) [RMem; old] [] [])
     /\ exists r, run_pool (repeat (StoreLeak 1 [65]) k) (mkPool (repeat (mkSlot 1 false [65]) d ++ repeat (mkSlot 0 false []) k) [RMem; old] [] []) =
     Ok (mkPool (repeat (mkSlot 1 false [65]) (d + k)) [RMem; r] [] [])).
  { induction k as [|k IH]; intros d old; cbn [repeat run_pool fair_run].
    - split; [exact Logic.I|]. exists old. now rewrite app_nil_r, Nat.add_0_r.
    - assert (E : step (StoreLeak 1 [65]) (mkPool (repeat (mkSlot 1 false [65]) d ++ mkSlot 0 false [] :: repeat (mkSlot 0 false []) k) [RMem; old] [] [])
        = Ok (mkPool (repeat (mkSlot 1 false [65]) (S d) ++ repeat (mkSlot 0 false []) k) [RMem; RDyn d] [] [])).
      { cbn [step nth_error vars_]. unfold get_new_str. cbn [slots]. rewrite find_used. cbn. rewrite Nat.add_0_r.
        unfold fill, set_var, set_vars, set_slots; cbn [slots vars_ stack_ mem_ update]. now rewrite update_used. }
      rewrite E. cbn [bind fair]. destruct (IH (S d) (RDyn d)) as (A & r & B). split; [split; [exact Logic.I|exact A]|].
      exists r. rewrite B. replace (d + S k)%nat with (S d + k)%nat by lia. reflexivity. }
  destruct (G n 0%nat (RConst [])) as (A & r & B). cbn [repeat app] in A, B.
  eexists. split; [split; [exact A|exact B]|]. split; [|split; reflexivity].
  intros i s E. unfold slot_at in E. cbn in E. apply nth_error_In, repeat_spec in E. subst. cbn. lia.
Qed.
(** Every PRINT "A"+"B"+1/0 style error keeps the strings of the pending values: with a pool of two, the second error leaves no string.  (CLEAR helps.) *)
Theorem C22_errors_forget_strings_refuted : exists l p, history 2 1 l p /\ full p /\ (forall i, ~ referenced p i).
Proof.
  set (bad := [PushConst [65]; PushConst [66]; Func 2 true concat2; Failed (Look 0 (fun _ => Fails ERR_DIVIDE_BY_ZERO)) true]).
  exists (bad ++ bad). eexists. split; [split; [|reflexivity]|split].
  - cbn. repeat split; eexists; reflexivity.
  - intros [|[|[|i]]] s E; cbn in E; try discriminate; injection E as <-; cbn; lia.
  - intros i [J|J]; cbn in J; intuition discriminate.
Qed.
(** SWAP MEM$,A$ makes A$ another name for MEM$: a later assignment to MEM$ changes A$ too. *)
Theorem C22_swap_mem_refuted : exists l p p', run_pool l (start_pool 8 2) = Ok p /\ run_pool [PushVar 0; PushConst [90]; Assign; CheckMem] p = Ok p'
  /\ nth_error (avars (seen p)) 1 = Some [] /\ nth_error (avars (seen p')) 1 = Some [90].
Proof. exists [Swap 0 1; CheckMem]. eexists. eexists. repeat split; reflexivity. Qed.
(** A$="B" reports "out of memory" when all strings are in use, although A$ gives back its own string; and the string is then counted as free while A$ still refers to it: the next value overwrites A$. *)
Theorem C22_failed_assignment_refuted : exists p p',
  run_pool [PushVar 1; PushConst [65]; Assign; PushVar 1; PushConst [66]] (start_pool 1 2) = Ok p /\ step Assign p = Err ERR_OUT_OF_MEMORY
  /\ run_pool [Failed Assign true; PushVar 2; PushConst [67]; Assign] p = Ok p'
  /\ nth_error (avars (seen p)) 1 = Some [65] /\ nth_error (avars (seen p')) 1 = Some [67].
Proof. eexists. eexists. repeat split; reflexivity. Qed.
(** INPUT A$ over a wide string forgets it. *)
Theorem C22_input_forgets_wide_refuted : exists p, history 2 1 [StoreInput 1 true [65]; StoreInput 1 true [66]] p /\ full p /\ refs p 0 = 0%nat.
Proof.
  eexists. split; [split; [cbn; auto|reflexivity]|]. split; [|reflexivity].
  intros [|[|[|i]]] s E; cbn in E; try discriminate; injection E as <-; cbn; lia.
Qed.

Print Assumptions C22_values_partial.
Print Assumptions C22_fresh_partial.
Print Assumptions C22_only_assigned_partial.
Print Assumptions C22_released_partial.
Print Assumptions C22_room_partial.
Print Assumptions C22_enough_strings_partial.
Print Assumptions C22_read_forgets_strings_refuted.
Print Assumptions C22_errors_forget_strings_refuted.
Print Assumptions C22_swap_mem_refuted.
Print Assumptions C22_failed_assignment_refuted.
Print Assumptions C22_input_forgets_wide_refuted.
