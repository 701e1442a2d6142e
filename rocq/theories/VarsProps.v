(** Property theorems on variables and arrays: C11, C12, C14, C15.
    [run (start n e ids) ops] is the list of results of a history of variable
    accesses, DIM, element accesses, CLEAR and FREEVAR on a system with 2^n
    variables and e array elements; [srun] (VarsSpec.v) is the reference
    behaviour with maps instead of hash table and array memory. *)
From Verif Require Import Base Vars VarsSpec VarsRun VarsHist.
From Coq Require Import List ZArith Lia.
Import ListNotations.
Open Scope Z_scope.

(** C11/C14/C15: any legal history gives exactly the reference results, and
    never touches memory outside the table or the array memory. *)
Theorem C11_history : forall n e ids ops, legal_history n e ids ops ->
  run (start n e ids) ops = srun (2 ^ n) (e + 2 * 2 ^ n) ids sinit ops /\
  ~ In RUB (run (start n e ids) ops).
Proof. intros n e ids ops [A [B [C D]]]. exact (history n e ids ops A B C D). Qed.
Print Assumptions C11_history.

(** C11: a variable holds the last value written to this name and type, whatever
    other variables and arrays were used since. *)
Theorem C11_last_write : forall n e ids ops1 nm t x ops2,
  let ops := ops1 ++ Write nm t x :: ops2 in
  legal_history n e ids (ops ++ [Read nm t]) -> existsb fails (run (start n e ids) ops) = false ->
  forallb (fun o => negb (writes nm t o)) ops2 = true ->
  run (start n e ids) (ops ++ [Read nm t]) = run (start n e ids) ops ++ [RVal x].
Proof. exact scalar_last_write. Qed.
Print Assumptions C11_last_write.
(** ... and 0 or the empty string when it was not written since the start or the
    last CLEAR (or there is no room for the name). *)
Theorem C11_unwritten : forall n e ids ops nm t,
  legal_history n e ids (ops ++ [Read nm t]) -> existsb fails (run (start n e ids) ops) = false ->
  forallb (fun o => negb (writes nm t o)) ops = true ->
  run (start n e ids) (ops ++ [Read nm t]) = run (start n e ids) ops ++ [RVal (zero t)] \/
  run (start n e ids) (ops ++ [Read nm t]) = run (start n e ids) ops ++ [RErr ERR_OUT_OF_MEMORY].
Proof. exact scalar_never_written. Qed.
Print Assumptions C11_unwritten.
Theorem C11_cleared : forall n e ids ops1 nm t ops2,
  let ops := ops1 ++ Clear :: ops2 in
  legal_history n e ids (ops ++ [Read nm t]) -> existsb fails (run (start n e ids) ops) = false ->
  forallb (fun o => negb (writes nm t o)) ops2 = true ->
  run (start n e ids) (ops ++ [Read nm t]) = run (start n e ids) ops ++ [RVal (zero t)] \/
  run (start n e ids) (ops ++ [Read nm t]) = run (start n e ids) ops ++ [RErr ERR_OUT_OF_MEMORY].
Proof. exact scalar_after_clear. Qed.
Print Assumptions C11_cleared.

Ltac legal_hist := unfold legal_history; repeat split; try (vm_compute; congruence); try lia;
  cbn; repeat (first [split|constructor]); try (intro; discriminate); try tauto; try lia.
(** names used in the examples *)
Definition nA := [65]. Definition nB := [66]. Definition nC := [67]. Definition nAB := [65; 66].
Example C11_ok :
  run (start 2 100 false) [Write nA 1 (VNum 5); Write nA 2 (VStr 3); Write nAB 1 (VNum 6); Read nA 1; Read nA 2; Read nB 1;
                           Read nC 1; Clear; Read nA 1]
  = [RUnit; RUnit; RUnit; RVal (VNum 5); RVal (VStr 3); RVal (VNum 0); RErr ERR_OUT_OF_MEMORY].
Proof. reflexivity. Qed.
Example C11_legal : legal_history 2 100 false [Write nA 1 (VNum 5); Write nA 2 (VStr 3); Dim nB 1 5 None; AWrite nB 1 2 None (VNum 1); Clear; Read nA 1].
Proof. legal_hist. Qed.

(** C12: as many new variables as FREEVAR reports can be created; when it reports
    none, a name not used before is refused with Out of memory.  (Mode in which
    CLEAR forgets the names, see C12_freevar_drift_refuted for the other one.) *)
Theorem C12_room : forall n e ops ks, 0 <= n -> legal_history n e false ops ->
  Forall (fun k : key => legal_name (fst k) /\ (snd k = 1 \/ snd k = 2)) ks ->
  existsb fails (run (start n e false) ops) = false ->
  exists f, run (start n e false) (ops ++ [FreeVar]) = run (start n e false) ops ++ [RVal (VNum f)] /\ 0 <= f <= 2 ^ n /\
  (Z.of_nat (length ks) <= f ->
     existsb fails (run (start n e false) (ops ++ map (fun k => Read (fst k) (snd k)) ks)) = false) /\
  (f = 0 -> forall nm t, legal_name nm -> t = 1 \/ t = 2 -> forallb (fun o => negb (mentions (nm, t) o)) ops = true ->
     run (start n e false) (ops ++ [Read nm t]) = run (start n e false) ops ++ [RErr ERR_OUT_OF_MEMORY]).
Proof. exact room. Qed.
Print Assumptions C12_room.
Example C12_ok : run (start 1 100 false) [Read nA 1; FreeVar; Read nB 1; FreeVar; Read nC 1] =
  [RVal (VNum 0); RVal (VNum 1); RVal (VNum 0); RVal (VNum 0); RErr ERR_OUT_OF_MEMORY].
Proof. reflexivity. Qed.
(** In the mode where CLEAR keeps the names, every DIM after a CLEAR is counted
    again: FREEVAR is 2 here although only the one name A exists. *)
Theorem C12_freevar_drift_refuted :
  run (start 2 100 true) [Dim nA 1 5 None; Clear; Dim nA 1 5 None; FreeVar] = [RUnit; RUnit; RUnit; RVal (VNum 2)].
Proof. reflexivity. Qed.
Print Assumptions C12_freevar_drift_refuted.

(** C14: an element holds the last value written to it *)
Theorem C14_last_write_partial : forall n e ids ops1 nm t i j x ops2,
  let ops := ops1 ++ AWrite nm t i j x :: ops2 in
  legal_history n e ids (ops ++ [ARead nm t i j]) -> existsb fails (run (start n e ids) ops) = false ->
  forallb (fun o => negb (awrites nm t i (match j with Some y => y | None => 0 end) o)) ops2 = true ->
  run (start n e ids) (ops ++ [ARead nm t i j]) = run (start n e ids) ops ++ [RVal x].
Proof. exact element_last_write. Qed.
Print Assumptions C14_last_write_partial.
Example C14_ok :
  run (start 3 200 false) [Dim nA 1 5 None; Dim nB 1 3 (Some 2); AWrite nB 1 2 (Some 1) (VNum 7); AWrite nA 1 4 None (VNum 8);
     ARead nB 1 2 (Some 1); ARead nA 1 4 None; ARead nB 1 1 (Some 1); ARead nC 2 9 None; ARead nB 1 2 (Some 2)] =
  [RUnit; RUnit; RUnit; RUnit; RVal (VNum 7); RVal (VNum 8); RVal (VNum 0); RVal (VStr 0); RErr ERR_SUBSCRIPT_OUT_OF_RANGE_Y].
Proof. reflexivity. Qed.
Example C14_legal : legal_history 3 200 false [Dim nA 1 5 None; Dim nB 1 3 (Some 2); AWrite nB 1 2 (Some 1) (VNum 7); ARead nB 1 (-3) (Some 7)].
Proof. legal_hist. Qed.

(** The full C14 fails outside legal histories.  A(2,1) on a one-dimensional
    A(5) is not rejected: it reads B(0). *)
Theorem C14_second_subscript_refuted :
  run (start 2 100 false) [Dim nA 1 5 None; Dim nB 1 5 None; AWrite nB 1 0 None (VNum 7); ARead nA 1 2 (Some 1)] =
  [RUnit; RUnit; RUnit; RVal (VNum 7)].
Proof. reflexivity. Qed.
(** A(1,-1) is not rejected: it is A(1,0). *)
Theorem C14_minus_one_refuted :
  run (start 2 100 false) [Dim nA 1 3 (Some 3); AWrite nA 1 1 (Some 0) (VNum 7); ARead nA 1 1 (Some (-1))] =
  [RUnit; RUnit; RVal (VNum 7)].
Proof. reflexivity. Qed.
(** after DIM A(5,0), A(0) addresses memory that belongs to the next array *)
Theorem C14_zero_rows_refuted :
  run (start 2 100 false) [Dim nA 1 5 (Some 0); Dim nB 1 5 None; AWrite nA 1 0 None (VNum 2); ARead nB 1 2 None] =
  [RUnit; RUnit; RUnit; RErr ERR_SUBSCRIPT_OUT_OF_RANGE_X].
Proof. reflexivity. Qed.
Print Assumptions C14_second_subscript_refuted.
Print Assumptions C14_minus_one_refuted.
Print Assumptions C14_zero_rows_refuted.

(** C15: after a legal history the arrays lie inside the memory and are
    pairwise disjoint, headers included. *)
Theorem C15_layout_partial : forall n e ids ops v, legal_history n e ids ops -> exec (start n e ids) ops = Some v ->
  forall p, 0 <= p < 2 ^ n -> v_type (slot v p) = 9 \/ v_type (slot v p) = 10 ->
  forall off, v_value (slot v p) = VArr off ->
  0 <= off /\ off + extent v off <= e + 2 * 2 ^ n /\
  forall q, 0 <= q < 2 ^ n -> q <> p -> v_type (slot v q) = 9 \/ v_type (slot v q) = 10 ->
  forall off', v_value (slot v q) = VArr off' -> off + extent v off <= off' \/ off' + extent v off' <= off.
Proof. exact layout. Qed.
Print Assumptions C15_layout_partial.
Example C15_ok : match exec (start 1 100 false) [Dim nA 1 5 None; Dim nB 1 3 (Some 2)] with
  | Some v => map v_value (vars v) = [VArr 7; VArr 0] /\ extent v 0 = 7 /\ extent v 7 = 8
  | None => False end.
Proof. vm_compute. repeat split. Qed.
(** CLEAR makes the whole memory available again *)
Example C15_clear : run (start 2 20 false) [Dim nA 1 20 None; Clear; Dim nA 1 20 None; ARead nA 1 19 None] =
  [RUnit; RUnit; RUnit; RVal (VNum 0)].
Proof. reflexivity. Qed.
(** DIM A(-1) is accepted; the next array overlaps it: A(1) is B(0). *)
Theorem C15_negative_size_refuted :
  run (start 2 100 false) [Dim nA 1 (-1) None; Dim nB 1 5 None; AWrite nB 1 0 None (VNum 7); ARead nA 1 1 None] =
  [RUnit; RUnit; RUnit; RVal (VNum 7)].
Proof. reflexivity. Qed.
(** DIM A(65536,65536) is accepted as an array of size 0; A(1,0) is the row
    count of the next array. *)
Theorem C15_size_wraps_refuted :
  run (start 2 100 false) [Dim nA 1 65536 (Some 65536); Dim nB 1 5 (Some 6); ARead nA 1 1 (Some 0)] =
  [RUnit; RUnit; RVal (VNum 6)].
Proof. reflexivity. Qed.
(** a DIM that does not fit reports no error; the array silently becomes a
    default one of 10 elements *)
Theorem C15_silent_refuted :
  run (start 2 20 false) [Dim nA 1 1000 None; ARead nA 1 9 None; ARead nA 1 10 None] =
  [RUnit; RVal (VNum 0); RErr ERR_SUBSCRIPT_OUT_OF_RANGE_X].
Proof. reflexivity. Qed.
(** after any variable error, every later DIM reports an error, also after CLEAR *)
Theorem C15_stale_error_refuted : forall v nm t a b e, v_error v = Some e ->
  snd (step v (Dim nm t a b)) <> RUnit /\ v_error (cmd_clear v) = Some e.
Proof.
  intros v nm t a b e H. split.
  - cbn [step]. unfold dim. destruct (search_name_type v nm (t + VAR_ARRAY)) as [i|]; [|discriminate].
    destruct (_ || _).
    + destruct (get_init_new_arr _ _ _ _) as [[[a' off]|]|e'|]; unfold dim_result; simpl; rewrite ?H; simpl; intro C; discriminate C.
    + discriminate.
  - unfold cmd_clear, reset_var. destruct (clear_values v); exact H.
Qed.
Example C15_stale_ok : let v := fst (step (start 2 100 false) (ARead nA 1 10 None)) in
  v_error v = Some ERR_SUBSCRIPT_OUT_OF_RANGE_X /\
  snd (step (cmd_clear v) (Dim nB 1 5 None)) = RErr ERR_SUBSCRIPT_OUT_OF_RANGE_X.
Proof. split; reflexivity. Qed.
Print Assumptions C15_negative_size_refuted.
Print Assumptions C15_size_wraps_refuted.
Print Assumptions C15_silent_refuted.
Print Assumptions C15_stale_error_refuted.
