(** C70: whole programs, from their text to what they do. *)
From Coq Require Import String Ascii.
From Verif Require Import Base BaseLemmas Tokens ExprSpec NumText Hash HashProofs Labels LabelsProofs Bytecode BytecodeSpec BytecodeProofs Runner RunnerSpec StmtSpec ExecProofs FlowSpec FlowProofs FlowLine FlowDemo ForSpec ProgSpec Lexer LexSpec LexProofs LexProps Link ProgProofs ProgSim ProgEnd.
Local Open Scope string_scope.
Local Open Scope list_scope.
Open Scope Z_scope.

(** ** C70: a program does what its statements say, line after line, through every GOTO, GOSUB, RETURN, IF, FOR and NEXT, however
    long it runs: [run_program] (ProgSpec.v) is the reference, on statements, with no code, no offsets and no value stack.
    The interpreter ends where the program ends, reports the error the program makes, and runs on as long as the program does.
    Missing from the full statement: NEXT of an outer loop, of a loop around one without a single pass, in a subroutine for a loop outside it
    (the code leaves loops behind: C34_abandoned_loop, C34_zero_trips_nested), NEXT with and without variable mixed in a loop without a pass (C34_mixed_next), loop bounds of 256 bytes and more (C34_long_bounds), FOR and NEXT
    inside IF, a table of labels of size 0. *)
Theorem C70_program_partial : forall (h : host) (strv : St h -> Loc h -> list Z) errno ids test n prog code tbl,
  (forall f, ids = Some f -> good_ids f) -> (forall a b, same h a b = true <-> a = b) -> 0 <= n ->
  Forall proper_pline prog -> link errno ids false test [] (init_labels (2 ^ n)) (map (fun p => Tokens (ptoks p)) prog) = Ok (code, tbl, []) ->
  Z.of_nat (length code) < 16777216 -> Forall (short_bounds ids) (statements prog) ->
  forall m st, let runs k := run (table_lab h strv tbl) code k (mkC 0 [] [] 0 st) in
  match run_program h (ref_of ids) strv (statements prog) m st with
  | ProgSpec.Go _ _ st' => exists k c, runs k = Ok c /\ hst c = st' /\ (m <= 2 * k)%nat
  | ProgSpec.End st' => exists k calls, forall j, runs (k + j)%nat = Ok (mkC (Z.of_nat (length code)) [] calls 0 st')
  | Stops e => e <> ERR_INVALID_BC -> exists k, forall j, runs (k + j)%nat = Err e
  | Unspecified => True
  end.
Proof.
  intros h strv errno ids test n prog code tbl Gi Same Hn P L Sz Sb m st. cbv zeta.
  destruct (link_program errno ids test prog Gi P [] _ _ _ eq_refl L) as (iss & U & E & T). cbn [app length] in E, T. change (Z.of_nat 0) with 0 in T.
  pose proof (program_uok prog P) as Uo. rewrite E in Sz.
  pose proof (labels_right strv n (statements prog) iss tbl ids Hn Uo U Sz T) as Lab.
  pose proof (run_sim ids Gi strv (table_lab h strv tbl) (statements prog) iss Uo U Lab Sz Sb Same m (At 0) [] st (mkC 0 [] [] 0 st)) as R.
  assert (S0 : sim ids (table_lab h strv tbl) (statements prog) iss (At 0) [] st (mkC 0 [] [] 0 st)) by (exists 0, []; split; [reflexivity|]; split; [reflexivity|constructor]).
  specialize (R S0). rewrite <- E in R. unfold run_program. destruct (prun h (ref_of ids) strv (statements prog) m (At 0) [] st) as [p fs st'|st'|e|]; [| | |exact I].
  - destruct R as (k & c & R & (i & cs & -> & _) & Lm). exists k. eexists. split; [apply run_ok; exact R|]. split; [reflexivity|]. cbn [is_rest] in Lm. lia.
  - destruct R as (k & cs & R). exists k, cs. intros j. rewrite run_more, (run_ok _ _ _ _ _ R). cbn [bind]. apply run_over. cbn [ix]. lia.
  - intros N. destruct R as (k & R). exists k. intros j. rewrite run_more, (run_err _ _ e N _ _ R). reflexivity.
Qed.
Print Assumptions C70_program_partial.

Lemma proper_short p : proper_pline p -> (length (ptoks p) <= 100)%nat.
Proof. destruct p as [w|l|[r|]|s]; cbn [proper_pline ptoks length]; try lia. intros (_ & _ & L & _). exact L. Qed.
(** The same from the text of the program: every line spelled as in C67.  Missing: as in C67_source_partial and C70_program_partial. *)
Theorem C70_text_partial : forall (h : host) (strv : St h -> Loc h -> list Z) errno ids test n texts prog code tbl,
  (forall f, ids = Some f -> good_ids f) -> (forall a b, same h a b = true <-> a = b) -> 0 <= n ->
  Forall2 line_spelled texts (map ptoks prog) -> Forall proper_pline prog -> link_text errno ids false test (2 ^ n) (concat texts) = Ok (code, tbl, []) ->
  Z.of_nat (length code) < 16777216 -> Forall (short_bounds ids) (statements prog) ->
  forall m st, let runs k := run (table_lab h strv tbl) code k (mkC 0 [] [] 0 st) in
  match run_program h (ref_of ids) strv (statements prog) m st with
  | ProgSpec.Go _ _ st' => exists k c, runs k = Ok c /\ hst c = st' /\ (m <= 2 * k)%nat
  | ProgSpec.End st' => exists k calls, forall j, runs (k + j)%nat = Ok (mkC (Z.of_nat (length code)) [] calls 0 st')
  | Stops e => e <> ERR_INVALID_BC -> exists k, forall j, runs (k + j)%nat = Err e
  | Unspecified => True
  end.
Proof.
  intros h strv errno ids test n texts prog code tbl Gi Same Hn Sp P L Sz Sb. apply (C70_program_partial h strv errno ids test n prog code tbl Gi Same Hn P); [|exact Sz|exact Sb].
  unfold link_text in L. rewrite (C67_source_partial _ _ Sp), reset_init, map_map in L; [exact L|]. apply Forall_map. eapply Forall_impl; [apply proper_short|exact P].
Qed.
Print Assumptions C70_text_partial.

(** *** Examples: a loop around a subroutine that returns early, run to its end *)
Definition ex_prog : list pline :=
  [PLine (LOne (SFor (eNm "A") (eNu "1") (eNu "3") None));
   PLine (LSeq (SCmd CMD_GOSUB [AL (letters "S")]) (LOne (SCmd CMD_NEXT [])));
   PNote (Some (letters "REM"));
   PLine (LOne (SCmd CMD_END []));
   PLab (letters "S");
   PLine (LSeq (SLet (eNm "B") (Bin OP_ADD (eNm "B") (eNm "A"))) (LIf (Bin OP_EQUAL (eNm "A") (eNu "2")) (LOne (SCmd CMD_RETURN [])) None));
   PLine (LSeq (SLet (eNm "B") (Bin OP_ADD (eNm "B") (eNu "1"))) (LOne (SCmd CMD_RETURN [])))].
Definition ex_texts : list (list Z) := Eval vm_compute in map (fun s => letters s ++ [13])
  ["for A=1 to 3"; "gosub @S:next"; "REM the end"; "end"; "@S"; "B=B+A:if A==2 then return"; "B=B+1:return"].
Definition ex_linked := Eval vm_compute in link_text (fun _ => 0) None false (fun _ => None) (2 ^ 4) (concat ex_texts).
Ltac cmd i := apply (LxCommand _ i); [now split|reflexivity|discriminate].
Example C70_used : Forall2 line_spelled ex_texts (map ptoks ex_prog) /\ Forall proper_pline ex_prog /\ Forall (short_bounds None) (statements ex_prog) /\
  exists code tbl, link_text (fun _ => 0) None false (fun _ => None) (2 ^ 4) (concat ex_texts) = Ok (code, tbl, []) /\ (length code < 5000)%nat /\
  (exists st, run_program demo (ref_of None) (fun _ _ => []) (statements ex_prog) 60 dst = ProgSpec.End st /\ fst st 0%nat = 4 * 4096 /\ fst st 1%nat = 8 * 4096).
Proof.
  split; [|split; [|split; [|]]].
  - unfold ex_texts. change (map ptoks ex_prog) with (ltac:(let x := eval vm_compute in (map ptoks ex_prog) in exact x)). repeat apply Forall2_cons; [| | | | | | |apply Forall2_nil].
    + lx (letters "for") ltac:(cmd 4%nat). lx (letters "A") kName. lx (letters "=") ltac:(kOp 6%nat). lx (letters "1") kNum. lx (letters "to") ltac:(cmd 5%nat). lx (letters "3") kNum. apply SpEnd.
    + lx (letters "gosub") ltac:(cmd 13%nat). lx (letters "@S") ltac:(apply LxLabel; split; [discriminate|split; [cbn; lia|reflexivity]]). lx (letters ":") ltac:(apply LxColon). lx (letters "next") ltac:(cmd 7%nat). apply SpEnd.
    + apply (SpRem (letters "REM") (letters " the end")); [reflexivity|cbn; intuition discriminate|reflexivity].
    + lx (letters "end") ltac:(cmd 16%nat). apply SpEnd.
    + lx (letters "@S") ltac:(apply LxLabel; split; [discriminate|split; [cbn; lia|reflexivity]]). apply SpEnd.
    + lx (letters "B") kName. lx (letters "=") ltac:(kOp 6%nat). lx (letters "B") kName. lx (letters "+") ltac:(kOp 0%nat). lx (letters "A") kName. lx (letters ":") ltac:(apply LxColon).
      lx (letters "if") ltac:(cmd 8%nat). lx (letters "A") kName. lx (letters "==") ltac:(kOp 8%nat). lx (letters "2") kNum. lx (letters "then") ltac:(cmd 9%nat). lx (letters "return") ltac:(cmd 15%nat). apply SpEnd.
    + lx (letters "B") kName. lx (letters "=") ltac:(kOp 6%nat). lx (letters "B") kName. lx (letters "+") ltac:(kOp 0%nat). lx (letters "1") kNum. lx (letters ":") ltac:(apply LxColon). lx (letters "return") ltac:(cmd 15%nat). apply SpEnd.
  - unfold ex_prog, proper_pline, proper_line, plain_line, plain_stmt, basic. prop_tac. all: first [left; split; [reflexivity|lia] | right; prop_tac].
  - change (statements ex_prog) with (ltac:(let x := eval vm_compute in (statements ex_prog) in exact x)). repeat (apply Forall_cons; [first [exact I | intros ic Q; vm_compute in Q; injection Q as <-; cbn; lia]|]). apply Forall_nil.
  - do 2 eexists. split; [vm_compute; reflexivity|]. split; [cbn; lia|]. eexists. split; [vm_compute; reflexivity|]. split; vm_compute; reflexivity.
Qed.
(** a loop without a pass, with another one inside it, then one closed by NEXT A: both bodies are skipped *)
Definition ex_skip : list pline :=
  [PLine (LOne (SFor (eNm "A") (eNu "2") (eNu "1") None));
   PLine (LSeq (SFor (eNm "B") (eNu "1") (eNu "9") None) (LOne (SCmd CMD_NEXT [])));
   PLine (LOne (SCmd CMD_NEXT []));
   PLine (LOne (SFor (eNm "A") (eNu "5") (eNu "3") None));
   PLine (LSeq (SLet (eNm "B") (eNu "7")) (LOne (SCmd CMD_NEXT [AE (eNm "A")])));
   PLine (LOne (SFor (eNm "B") (eNu "1") (eNu "3") None));
   PLine (LOne (SCmd CMD_NEXT [AE (eNm "B")]))].
Example C70_skip : Forall proper_pline ex_skip /\ Forall (short_bounds None) (statements ex_skip) /\
  exists st, run_program demo (ref_of None) (fun _ _ => []) (statements ex_skip) 60 dst = ProgSpec.End st /\ fst st 0%nat = 5 * 4096 /\ fst st 1%nat = 4 * 4096.
Proof.
  split; [|split].
  - unfold ex_skip, proper_pline, proper_line, plain_line, plain_stmt, basic. prop_tac. all: first [left; split; [reflexivity|cbn; lia] | right; prop_tac].
  - change (statements ex_skip) with (ltac:(let x := eval vm_compute in (statements ex_skip) in exact x)). repeat (apply Forall_cons; [first [exact I | intros ic Q; vm_compute in Q; injection Q as <-; cbn; lia]|]). apply Forall_nil.
  - eexists. split; [vm_compute; reflexivity|]. split; vm_compute; reflexivity.
Qed.
