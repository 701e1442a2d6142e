(** C34: FOR and NEXT.

    The theorems are about any code containing the translation of a FOR statement at position [pre] and that of
    a NEXT statement at position [prex]; [scode] is what the compiler makes of a statement (EvalLine.line_compiles).
    The body is arbitrary code between them: [body st] is the state it leads to from [st], whatever it does, as
    long as it comes to the NEXT with the call stack it was entered with (inner loops and subroutines
    finished) and leaves the loop variable alone. *)
From Verif Require Import Base BaseLemmas Tokens ExprSpec NumText Bytecode BytecodeSpec BytecodeProofs Runner RunnerSpec StmtSpec ExecProofs FlowSpec FlowProofs FlowLine FlowDemo ForSpec ForProofs ForSkip.
Ltac Zify.zify_post_hook ::= Z.div_mod_to_equations.

(** numeric variables behave like variables *)
Definition proper_host (h : host) : Prop := (forall l, same h l l = true) /\ (forall st l v, getn h (setn h st l v) l = v).
Record loop_code ids (lv a b : expr) (s : option expr) (args : list arg_) (first nfirst : bool) (pre : list Z) (fs : list instr) (rest : list instr) (prex : list Z) (inx : list instr) (post code : list Z) : Prop := {
  lc_for : wfs (SFor lv a b s) /\ sspelled (SFor lv a b s) /\ (length (stoks (SFor lv a b s)) <= 100)%nat;
  lc_next : Forall afine args /\ Forall aspelled args /\ (length (concat (map atoks args)) < 100)%nat /\ (length args <= 1)%nat;
  lc_fs : instrs ids (scode first (SFor lv a b s)) = Ok fs;
  lc_inx : instrs ids (scode nfirst (SCmd CMD_NEXT args)) = Ok inx;
  lc_rest : Forall good rest;
  lc_code1 : code = pre ++ encode (fs ++ rest);
  lc_code2 : code = prex ++ encode inx ++ post;
  lc_size : Z.of_nat (length (pre ++ encode fs)) < 2 ^ 24;
  (** the code of TO b [STEP s] has less than 256 bytes *)
  lc_bounds : forall ic, instrs ids (bounds_code b s) = Ok ic -> (length (encode ic) < 256)%nat
}.
(** NEXT names no variable, or the loop's variable *)
Definition names {h} ids (args : list arg_) (r : Loc h) (st : St h) : Prop := args = [] \/ asems h (ref_of ids) args st = Ok ([ER false r], st).

(** the code right before the bounds comes before the body *)
Lemma parts ids lv a b s first fs i1 i2 ic (pre : list Z) : fs = i1 ++ ICmd first CMD_FOR :: i2 ++ IOp OP_ASSIGN :: ic ++ [ILoop] -> instrs ids (bounds_code b s) = Ok ic ->
  Z.of_nat (length (pre ++ encode fs)) < 2 ^ 24 -> (forall ic, instrs ids (bounds_code b s) = Ok ic -> (length (encode ic) < 256)%nat) -> lv = lv :> expr -> a = a :> expr ->
  to_start first i1 i2 pre < 16777216 /\ to_size ic < 256.
Proof.
  intros -> Q L B _ _. split; [|unfold to_size; specialize (B _ Q); lia]. unfold to_start. change (2 ^ 24) with 16777216 in L.
  rewrite !app_length, !encode_app, !encode_cons, !encode_app, !encode_cons, !app_length in L. rewrite !app_length. lia.
Qed.

(** ** The body runs exactly [trips] times, the variable taking the values a, a+s, a+2s, ...; then control is after
    NEXT, the call stack as before the loop, the variable one step beyond; an overflow of the variable is reported.
    Missing from the full statement: bounds whose value changes while the loop runs, bounds of 256 bytes of code or
    more, and what the refutations below show. *)
Theorem C34_loop_partial : forall (h : host) (lab : labels_fun h) ids lv a b s args first nfirst pre fs rest prex inx post code,
  (forall f, ids = Some f -> good_ids f) -> proper_host h -> loop_code ids lv a b s args first nfirst pre fs rest prex inx post code ->
  forall (body : St h -> St h) k st r st1 va st2 v0 e x, (length k < 255)%nat ->
  sem h (ref_of ids) lv st = Ok (ER false r, st1) -> sem h (ref_of ids) a st1 = Ok (va, st2) -> value_num h st2 va = Ok v0 ->
  is_s32 v0 -> is_s32 e -> x <> 0 -> ~ over x e v0 ->
  let T := turn h r body v0 x (setn h st2 r v0) in
  let n := trips v0 e x in
  let bounds_are st := limits h (ref_of ids) b s st = Ok (e, x, st) in
  (forall i, Z.of_nat i < n ->
     bounds_are (T i) /\ bounds_are (body (T i)) /\ getn h (body (T i)) r = getn h (T i) r /\ names ids args r (body (T i)) /\
     forall adr, exists m, steps lab code m (mkC (Z.of_nat (length (pre ++ encode fs))) [] (CFor adr r :: k) 0 (T i)) = Ok (mkC (Z.of_nat (length prex)) [] (CFor adr r :: k) 0 (body (T i)))) ->
  (forall i, Z.of_nat i < n -> exists m adr, steps lab code m (mkC (Z.of_nat (length pre)) [] k 0 st) = Ok (mkC (Z.of_nat (length (pre ++ encode fs))) [] (CFor adr r :: k) 0 (T i)) /\
     getn h (T i) r = v0 + Z.of_nat i * x) /\
  exists m, steps lab code m (mkC (Z.of_nat (length pre)) [] k 0 st) =
    if (INT_MIN <=? v0 + n * x) && (v0 + n * x <=? INT_MAX) then Ok (mkC (Z.of_nat (length (prex ++ encode inx))) [] k 0 (T (Z.to_nat n))) else Err ERR_OVERFLOW.
Proof.
  intros h lab ids lv a b s args first nfirst pre fs rest prex inx post code Gi [Same GS] [(Wf & Sp & Ln) (Fa & Sa & La & L1) Qf Qn Gr C1 C2 Sz Bd] body k st r st1 va st2 v0 e x Lk E1 E2 E3 R0 Re Nx No T n bounds_are Hk.
  destruct (for_split ids first lv a b s fs Qf) as (i1 & i2 & ic & Q1 & Q2 & Qc & Efs). destruct (parts ids lv a b s first fs i1 i2 ic pre Efs Qc Sz Bd eq_refl eq_refl) as [Sm Sh]. subst fs.
  assert (E4 : assign h (ER false r) va st2 = Ok (setn h st2 r v0)) by (unfold assign; rewrite E3; reflexivity).
  destruct (for_enter ids Gi lab lv a b s first Wf Sp Ln i1 i2 ic rest pre Q1 Q2 Qc Gr Sm Sh k st r st1 va st2 _ Lk E1 E2 E4) as [m0 M0].
  assert (V0 : getn h (setn h st2 r v0) r = v0) by apply GS.
  pose proof (for_loop ids Gi lab lv a b s first Wf Sp Ln i1 i2 ic rest pre Qc Sm Same args nfirst inx prex post ltac:(rewrite <- C1; exact C2) Fa Sa Qn La L1 GS r body k (setn h st2 r v0) e x) as F.
  rewrite V0 in F. rewrite <- C1 in *. destruct F as [F1 [m1 F2]]; [exact R0|exact Re|exact Nx|exact No| |].
  { intros j Hj. destruct (Hk j Hj) as (B1 & B2 & B3 & B4 & B5). unfold turn_ok. rewrite V0, <- C1. split; [exact B1|]. split; [apply B5|]. split; [exact B3|]. split; [|exact B2].
    destruct B4 as [->|B4]; [exists []; split; [reflexivity|left; reflexivity]|eexists; split; [exact B4|right; reflexivity]]. }
  split.
  - intros i Hi. destruct (F1 i ltac:(unfold n in Hi; lia)) as (m & M & V). exists (m0 + m)%nat, (for_address first i1 i2 ic pre). rewrite steps_add, M0. cbn [bind]. split; [exact M|exact V].
  - exists (m0 + m1)%nat. rewrite steps_add, M0. cbn [bind]. exact F2.
Qed.
Print Assumptions C34_loop_partial.

(** STEP 0 with a first value not beyond the last: the body runs for ever. *)
Theorem C34_step_zero_partial : forall (h : host) (lab : labels_fun h) ids lv a b s args first nfirst pre fs rest prex inx post code,
  (forall f, ids = Some f -> good_ids f) -> proper_host h -> loop_code ids lv a b s args first nfirst pre fs rest prex inx post code ->
  forall (body : St h -> St h) k st r st1 va st2 v0 e, (length k < 255)%nat ->
  sem h (ref_of ids) lv st = Ok (ER false r, st1) -> sem h (ref_of ids) a st1 = Ok (va, st2) -> value_num h st2 va = Ok v0 ->
  is_s32 v0 -> v0 <= e ->
  let T := turn h r body v0 0 (setn h st2 r v0) in
  let bounds_are st := limits h (ref_of ids) b s st = Ok (e, 0, st) in
  (forall i,
     bounds_are (T i) /\ bounds_are (body (T i)) /\ getn h (body (T i)) r = getn h (T i) r /\ names ids args r (body (T i)) /\
     forall adr, exists m, steps lab code m (mkC (Z.of_nat (length (pre ++ encode fs))) [] (CFor adr r :: k) 0 (T i)) = Ok (mkC (Z.of_nat (length prex)) [] (CFor adr r :: k) 0 (body (T i)))) ->
  forall i, exists m adr, steps lab code m (mkC (Z.of_nat (length pre)) [] k 0 st) = Ok (mkC (Z.of_nat (length (pre ++ encode fs))) [] (CFor adr r :: k) 0 (T i)).
Proof.
  intros h lab ids lv a b s args first nfirst pre fs rest prex inx post code Gi [Same GS] [(Wf & Sp & Ln) (Fa & Sa & La & L1) Qf Qn Gr C1 C2 Sz Bd] body k st r st1 va st2 v0 e Lk E1 E2 E3 R0 Le T bounds_are Hk i.
  destruct (for_split ids first lv a b s fs Qf) as (i1 & i2 & ic & Q1 & Q2 & Qc & Efs). destruct (parts ids lv a b s first fs i1 i2 ic pre Efs Qc Sz Bd eq_refl eq_refl) as [Sm Sh]. subst fs.
  assert (E4 : assign h (ER false r) va st2 = Ok (setn h st2 r v0)) by (unfold assign; rewrite E3; reflexivity).
  destruct (for_enter ids Gi lab lv a b s first Wf Sp Ln i1 i2 ic rest pre Q1 Q2 Qc Gr Sm Sh k st r st1 va st2 _ Lk E1 E2 E4) as [m0 M0].
  assert (V0 : getn h (setn h st2 r v0) r = v0) by apply GS.
  pose proof (for_forever ids Gi lab lv a b s first Wf Sp Ln i1 i2 ic rest pre Qc Sm Same args nfirst inx prex post ltac:(rewrite <- C1; exact C2) Fa Sa Qn La L1 GS r body k (setn h st2 r v0) e 0) as F.
  rewrite V0 in F. rewrite <- C1 in *. destruct (F R0 eq_refl Le) with (j := i) as [m M].
  { intros j. destruct (Hk j) as (B1 & B2 & B3 & B4 & B5). unfold turn_ok. rewrite V0, <- C1. split; [exact B1|]. split; [apply B5|]. split; [exact B3|]. split; [|exact B2].
    destruct B4 as [->|B4]; [exists []; split; [reflexivity|left; reflexivity]|eexists; split; [exact B4|right; reflexivity]]. }
  exists (m0 + m)%nat, (for_address first i1 i2 ic pre). rewrite steps_add, M0. cbn [bind]. exact M.
Qed.
Print Assumptions C34_step_zero_partial.

(** ** Zero times: control goes to after the NEXT that closes the loop.  [mid] is the body; inner loops in it are
    closed by NEXT without a variable ([walk mid]: back at the outer level at its end).  The closing NEXT is
    at the start of a statement, without variable ([v] = false), or with the loop's variable.
    Missing from the full statement: the loop is not taken off the call stack (see below). *)
Theorem C34_zero_trips_partial : forall (h : host) (lab : labels_fun h) ids lv a b s first pre fs mid tail code,
  (forall f, ids = Some f -> good_ids f) -> proper_host h ->
  wfs (SFor lv a b s) -> sspelled (SFor lv a b s) -> (length (stoks (SFor lv a b s)) <= 100)%nat ->
  instrs ids (scode first (SFor lv a b s)) = Ok fs -> Forall good mid -> Forall good tail -> code = pre ++ encode (fs ++ mid ++ ICmd true CMD_NEXT :: tail) ->
  Z.of_nat (length (pre ++ encode fs)) < 2 ^ 24 -> (forall ic, instrs ids (bounds_code b s) = Ok ic -> (length (encode ic) < 256)%nat) ->
  forall k st r st1 va st2 v0 e x v, (length k < 255)%nat ->
  sem h (ref_of ids) lv st = Ok (ER false r, st1) -> sem h (ref_of ids) a st1 = Ok (va, st2) -> value_num h st2 va = Ok v0 ->
  let st3 := setn h st2 r v0 in
  limits h (ref_of ids) b s st3 = Ok (e, x, st3) -> over x e v0 ->
  walk 0 false mid = Some (0%nat, v) ->
  (v = true -> exists q i rf l, mid = q ++ [i] /\ var_of i = Some rf /\ hvar h rf st3 = Ok (false, l, st3) /\ same h r l = true) ->
  exists m adr, steps lab code m (mkC (Z.of_nat (length pre)) [] k 0 st) =
    Ok (mkC (Z.of_nat (length (pre ++ encode (fs ++ mid ++ [ICmd true CMD_NEXT])))) [] (CFor adr r :: k) 0 st3).
Proof.
  intros h lab ids lv a b s first pre fs mid tail code Gi [Same GS] Wf Sp Ln Qf Gm Gt C1 Sz Bd k st r st1 va st2 v0 e x v Lk E1 E2 E3 st3 Lm Ov Wk Cl.
  destruct (for_split ids first lv a b s fs Qf) as (i1 & i2 & ic & Q1 & Q2 & Qc & Efs). destruct (parts ids lv a b s first fs i1 i2 ic pre Efs Qc Sz Bd eq_refl eq_refl) as [Sm Sh]. subst fs.
  assert (E4 : assign h (ER false r) va st2 = Ok st3) by (unfold assign; rewrite E3; reflexivity).
  set (rest := mid ++ ICmd true CMD_NEXT :: tail) in *.
  assert (Gr : Forall good rest) by (apply Forall_app; split; [exact Gm|constructor; [cbn; unfold is_byte, CMD_NEXT; lia|exact Gt]]).
  destruct (for_enter ids Gi lab lv a b s first Wf Sp Ln i1 i2 ic rest pre Q1 Q2 Qc Gr Sm Sh k st r st1 va st2 _ Lk E1 E2 E4) as [m0 M0].
  destruct (bounds_check ids Gi lab lv a b s first Wf Sp Ln i1 i2 ic rest pre Qc k st3 r (for_address first i1 i2 ic pre) e x st3 Lm) as [m1 M1].
  rewrite <- C1 in *. replace (getn h st3 r) with v0 in M1 by (symmetry; apply GS). apply past_over in Ov. rewrite Ov in M1.
  exists (m0 + m1)%nat, (for_address first i1 i2 ic pre). rewrite steps_add, M0. cbn [bind]. rewrite M1.
  unfold body_start. set (fs := i1 ++ ICmd first CMD_FOR :: i2 ++ IOp OP_ASSIGN :: ic ++ [ILoop]) in *.
  assert (C2 : code = (pre ++ encode fs) ++ encode ([] ++ mid ++ ICmd true CMD_NEXT :: tail)) by (rewrite C1; unfold rest; cbn [app]; rewrite (encode_app fs), <- app_assoc; reflexivity).
  rewrite C2. rewrite (skip_walk r tail Gt mid [] (pre ++ encode fs) 0 _ st3 v); [|constructor|exact Gm|reflexivity|exact Wk| |exact Cl].
  - cbn [bind app]. rewrite (encode_app fs), <- !app_assoc. reflexivity.
  - rewrite !app_length. cbn [app]. rewrite encode_app, app_length. pose proof (encode_length_ge mid Gm). lia.
Qed.
Print Assumptions C34_zero_trips_partial.

(** ** Concrete cases *)
Definition ex_for (lo hi : list Z) : lin := LOne (SFor (eV 73) (eN lo) (eN hi) None).     (* FOR I=lo TO hi *)
Definition set_to (s : list Z) : lin := LOne (SLet (eV 65) (eN s)).   (* A=s *)
Definition ex_next : lin := LOne (SCmd CMD_NEXT []).
Definition inc : lin := LOne (SLet (eV 65) (Bin OP_ADD (eV 65) (eN [49]))).                (* A=A+1 *)
Lemma demo_proper : proper_host demo.
Proof. split; [intros l; apply Nat.eqb_refl|]. intros st l v. cbn. rewrite Nat.eqb_refl. reflexivity. Qed.
(** FOR I=1 TO 3 / A=A+1 / NEXT *)
Definition prog1 : list (list token) := map line_toks [ex_for [49] [51]; inc; ex_next].
Definition get {A} (d : A) (r : outcome A) : A := match r with Ok a => a | _ => d end.
Definition fs1 := get [] (instrs None (scode true (SFor (eV 73) (eN [49]) (eN [51]) None))).
Definition rest1 := get [] (instrs None (lcode true inc ++ lcode true ex_next)).
Definition inx1 := get [] (instrs None (lcode true ex_next)).
Definition code1 : list Z := get [] (dcode prog1).
Definition bd (st : dstate) : dstate := setn demo st 0%nat (fst st 0%nat + 4096).
Example C34_case : loop_code None (eV 73) (eN [49]) (eN [51]) None [] true true [] fs1 rest1 (firstn 24 code1) inx1 [] code1 /\
  trips 4096 (3 * 4096) 4096 = 3 /\
  (forall i, let T := turn demo 8%nat bd 4096 4096 (setn demo dst 8%nat 4096) in
     limits demo (ref_of None) (eN [51]) None (T i) = Ok (3 * 4096, 4096, T i) /\ limits demo (ref_of None) (eN [51]) None (bd (T i)) = Ok (3 * 4096, 4096, bd (T i)) /\
     getn demo (bd (T i)) 8%nat = getn demo (T i) 8%nat /\ names (h := demo) None [] 8%nat (bd (T i)) /\
     forall k adr, exists m, steps dlab code1 m (@mkC demo (Z.of_nat (length ([] ++ encode fs1))) [] (CFor adr 8%nat :: k) 0 (T i)) = Ok (@mkC demo (Z.of_nat (length (firstn 24 code1))) [] (CFor adr 8%nat :: k) 0 (bd (T i)))) /\
  (let* c := run_to_end 200 code1 (@mkC demo 0 [] [] 0 dst) in Ok (ix c, calls c, fst (hst c) 0%nat, fst (hst c) 8%nat)) = Ok (26, [], 3 * 4096, 4 * 4096).
Proof.
  split; [|split; [reflexivity|split; [|vm_compute; reflexivity]]].
  - constructor; [split; [cbn; unfold fine; prop_tac|split; [cbn; prop_tac|cbn; lia]]|split; [constructor|split; [constructor|split; cbn; lia]]|reflexivity|reflexivity| |vm_compute; reflexivity|vm_compute; reflexivity|vm_compute; reflexivity|].
    + unfold rest1. cbn. repeat (constructor; [cbn; unfold good_name, is_byte; prop_tac|]). constructor.
    + intros ic [= <-]. vm_compute. lia.
  - intros i T. split; [reflexivity|]. split; [reflexivity|]. split; [reflexivity|]. split; [left; reflexivity|]. intros k adr. exists 5%nat. generalize (T i). intros st. vm_compute. reflexivity.
Qed.
(** FOR I=2 TO 1: the loop is skipped *)
Example C34_zero_case : exists fs mid tail code, instrs None (scode true (SFor (eV 73) (eN [50]) (eN [49]) None)) = Ok fs /\ Forall good mid /\ Forall good tail /\
  code = [] ++ encode (fs ++ mid ++ ICmd true CMD_NEXT :: tail) /\ dcode (map line_toks [ex_for [50] [49]; inc; ex_next; set_to [53]]) = Ok code /\ walk 0 false mid = Some (0%nat, false) /\
  (let* c := drun (map line_toks [ex_for [50] [49]; inc; ex_next; set_to [53]]) in Ok (var_A c)) = Ok (5 * 4096).
Proof.
  exists (get [] (instrs None (scode true (SFor (eV 73) (eN [50]) (eN [49]) None)))), (get [] (instrs None (lcode true inc))), (get [] (instrs None (lcode true (set_to [53])))).
  eexists. split; [reflexivity|]. split; [cbn; repeat (constructor; [cbn; unfold good_name, is_byte; prop_tac|]); constructor|]. split; [cbn; repeat (constructor; [cbn; unfold good_name, is_byte; prop_tac|]); constructor|].
  split; [reflexivity|]. split; [vm_compute; reflexivity|]. split; vm_compute; reflexivity.
Qed.

(** ** Refutations *)
(** A loop that runs zero times stays on the call stack: after 255 of them the next loop fails. *)
Theorem C34_zero_trips_leak_refuted : 
  (let* c := drun (map line_toks [ex_for [50] [49]; ex_next]) in Ok (length (calls c))) = Ok 1%nat /\
  (let* code := dcode (concat (repeat (map line_toks [ex_for [50] [49]; ex_next]) 256)) in run_to_end 2000 code (@mkC demo 0 [] [] 0 dst)) = Err ERR_OUT_OF_MEMORY.
Proof. split; vm_compute; reflexivity. Qed.
(** Skipping an outer loop whose inner loop is closed by NEXT J and which itself is closed by NEXT:
    the end of the loop is not found.  (Written with NEXT I, or with NEXT for both, it is.) *)
Definition for_j : lin := LOne (SFor (eV 74) (eN [49]) (eN [50]) None).
Definition next_of (v : Z) : lin := LOne (SCmd CMD_NEXT [AE (eV v)]).
Theorem C34_mixed_next_refuted :
  drun (map line_toks [ex_for [50] [49]; for_j; next_of 74; ex_next; set_to [53]]) = Err ERR_FOR_WITHOUT_NEXT /\
  (let* c := drun (map line_toks [ex_for [50] [49]; for_j; next_of 74; next_of 73; set_to [53]]) in Ok (var_A c)) = Ok (5 * 4096).
Proof. split; vm_compute; reflexivity. Qed.
(** FOR I=1 TO 3 / A=A+1 / FOR J=2 TO 1 / NEXT / NEXT : the second NEXT continues the inner loop, which ran zero times and
    was not taken off the call stack; the body of the outer loop runs once instead of three times. *)
Theorem C34_zero_trips_nested_refuted : trips 4096 (3 * 4096) 4096 = 3 /\
  (let* c := drun (map line_toks [ex_for [49] [51]; inc; LOne (SFor (eV 74) (eN [50]) (eN [49]) None); ex_next; ex_next]) in Ok (var_A c)) = Ok 4096.
Proof. split; vm_compute; reflexivity. Qed.
(** FOR I=1 TO 2 / FOR J=5 TO 9 / A=A+1 / NEXT I : the inner loop is left unfinished; the outer one
    should run its body twice, but its bounds are compared with J the second time, and the NEXT of J is looked for. *)
Theorem C34_abandoned_loop_refuted :
  (let* c := drun (map line_toks [ex_for [49] [50]; LOne (SFor (eV 74) (eN [53]) (eN [57]) None); inc; next_of 73]) in Ok (var_A c)) = Err ERR_FOR_WITHOUT_NEXT.
Proof. vm_compute. reflexivity. Qed.
(** Bounds of 256 bytes: FOR I=1 TO 100+100+...+100 (32 numbers); NEXT finds no bounds at all. *)
Definition sum_of (n : nat) : expr := Nat.iter n (fun e => Bin OP_ADD e (eN [49; 48; 48])) (eN [49; 48; 48]).
Theorem C34_long_bounds_refuted : exists b ic, b = sum_of 31 /\ wfs (SFor (eV 73) (eN [49]) b None) /\ instrs None (bounds_code b None) = Ok ic /\ length (encode ic) = 256%nat /\
  drun (map line_toks [LOne (SFor (eV 73) (eN [49]) b None); ex_next]) = UB.
Proof. do 2 eexists. split; [reflexivity|]. split; [cbn; unfold fine; cbn; prop_tac|]. split; [vm_compute; reflexivity|]. split; vm_compute; reflexivity. Qed.
