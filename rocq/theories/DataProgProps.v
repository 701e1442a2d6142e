(** C79: programs with DATA, READ and RESTORE, from their text to their variables and the screen. *)
From Coq Require Import String Ascii.
From Verif Require Import Base BaseLemmas Tokens ExprSpec NumText Hash HashProofs Labels LabelsProofs Bytecode BytecodeSpec BytecodeProofs Runner RunnerSpec StmtSpec ExecProofs FlowSpec FlowProofs FlowLine FlowDemo ForSpec ProgSpec Lexer LexSpec LexProofs LexProps Link ProgProofs ProgSim ProgEnd ProgProps.
From Verif Require Import Codes Vars Strs Data DataSpec Console ConsoleSpec ConsoleProofs Machine Ideal HostSim MachineSim MachineHost MachineProps HostData MachineData IdealData DataHost.
Local Open Scope string_scope.
Local Open Scope list_scope.
Open Scope Z_scope.

(** ** C79: the machine of C71 with the reader of DATA statements, run from a program text, does what the ideal computer does whose READ takes the next items
    of the program's DATA lines (whatever loops, subroutines and jumps lie between), whose RESTORE goes on with the items behind a label, and which
    reports Out of data when there are none left and Read failure for an item that is no number.  [its] are the items of each statement (DataSpec.v).
    Missing from the full statement: what C71 leaves out; DATA lines with text behind an unquoted item; READ with more variables than items left (C37_past_end_refuted);
    numbers of more than 16 characters, with more than six decimals or from 524288 on; the exhaustion of the string memory. *)
Theorem C79_program_partial : forall errno test n elements labels sources prog code tbl its,
  0 <= n <= 18 -> 0 <= elements -> elements + 2 * 2 ^ n < 2 ^ 30 -> 0 <= labels ->
  Forall2 line_spelled sources (map ptoks prog) -> Forall proper_pline prog -> link_text errno None false test (2 ^ labels) (concat sources) = Ok (code, tbl, []) ->
  Z.of_nat (length code) < 16777216 -> Forall (short_bounds None) (statements prog) -> Forall2 data_line (statements prog) its ->
  let cells := elements + 2 * 2 ^ n in let host := machine_data code tbl in
  forall m, let runs k := Link.run (table_lab host dtext tbl) code k (mkC (h := host) 0 [] [] 0 (machine_data_start (2 ^ n) elements)) in
  match run_program (ideal_data (statements prog) its (2 ^ n) cells) (ref_of None) ideal_data_text (statements prog) m (ideal_data_start its) with
  | ProgSpec.Go _ _ s => exists k c, runs k = Ok c /\ shows (2 ^ n) cells (fst s) (fst (hst c)) /\ (m <= 2 * k)%nat
  | ProgSpec.End s => exists k (calls : list (call (Loc host))) (st : St host), shows (2 ^ n) cells (fst s) (fst st) /\ forall j, runs (k + j)%nat = Ok (mkC (h := host) (Z.of_nat (length code)) [] calls 0 st)
  | Stops e => e <> ERR_INVALID_BC -> exists k, forall j, runs (k + j)%nat = Err e
  | Unspecified => True
  end.
Proof.
  intros errno test n elements labels sources prog code tbl its Hn He Hc Hl Sp P L Sz Sb Dl cells host m. cbv zeta.
  assert (Lk : link errno None false test [] (init_labels (2 ^ labels)) (map (fun p => Tokens (ptoks p)) prog) = Ok (code, tbl, [])).
  { pose proof L as L1. unfold link_text in L1. rewrite (C67_source_partial _ _ Sp), reset_init, map_map in L1; [exact L1|]. apply Forall_map. eapply Forall_impl; [apply proper_short|exact P]. }
  destruct (link_program errno None test prog ltac:(discriminate) P [] _ _ _ eq_refl Lk) as (iss & U & E & T). cbn [app length] in E, T. change (Z.of_nat 0) with 0 in T.
  pose proof (program_uok prog P) as Uo. rewrite E in Sz.
  pose proof (start_ok n cells elements ltac:(lia) He eq_refl Hc) as S0.
  pose proof (data_agrees n cells Hn (statements prog) iss its tbl labels Hl Uo U Dl T Sz) as Ag. rewrite <- E in Ag.
  pose proof (run_program_sim _ _ _ _ _ _ Ag (ref_of None) (statements prog) m (ideal_data_start its) (machine_data_start (2 ^ n) elements)
    (conj S0 (start_reading (statements prog) iss its U Dl 0))) as Sim.
  rewrite <- E in Sz.
  pose proof (C70_text_partial host dtext errno None test labels sources prog code tbl ltac:(discriminate)
    ltac:(intros a b; cbn [same host machine_data attach machine]; destruct (mloc_eq a b); split; congruence) Hl Sp P L Sz Sb m (machine_data_start (2 ^ n) elements)) as G. cbv zeta in G.
  fold host in Sim. unfold ideal_data in *. destruct (run_program (attach (ideal _ _) _ _) _ _ _ _ _) as [q fs s|s|e|]; cbn [mr] in Sim; [| | |exact I].
  - destruct Sim as (gs & t & Er & R1 & _). rewrite Er in G. destruct G as (k & c & G1 & G2 & G3). exists k, c. subst t. split; [exact G1|]. split; [apply SR_shows, R1|exact G3].
  - destruct Sim as (t & Er & R1). rewrite Er in G. destruct G as (k & calls & G). exists k, calls, t. split; [apply SR_shows, R1|exact G].
  - rewrite Sim in G. exact G.
Qed.
Print Assumptions C79_program_partial.

(** *** Example: two DATA lines read in a loop, then once more from the first of them *)
Definition data_prog : list pline :=
  [PLine (LOne (SFor (eNm "I") (eNu "1") (eNu "3") None));
   PLine (LSeq (SCmd CMD_READ [AE (eNm "A"); AE (eNm "B$")]) (LSeq (SLet (eNm "S") (Bin OP_ADD (eNm "S") (eNm "A"))) (LOne (SPrint [(Some (eNm "B$"), OP_SEMICOLON)] None))));
   PLine (LOne (SCmd CMD_NEXT []));
   PLine (LSeq (SCmd CMD_RESTORE [AL (letters "D")]) (LOne (SCmd CMD_READ [AE (eNm "C")])));
   PLine (LOne (SPrint [(Some (eNm "S"), OP_SEMICOLON)] (Some (eNm "C"))));
   PLab (letters "D");
   PData (letters " 10,HELLO,-2.5" ++ [13]);
   PData (letters " "" A,B"",3,X" ++ [13])].
Definition data_texts : list (list Z) := Eval vm_compute in map (fun s => letters s ++ [13])
  ["FOR I=1 TO 3"; "READ A,B$:S=S+A:?B$;"; "NEXT"; "RESTORE @D:READ C"; "?S;C"; "@D"; "DATA 10,HELLO,-2.5"; "DATA "" A,B"",3,X"].
Definition data_its : list (list (list Z)) := Eval vm_compute in
  [[]; []; []; []; []; []; []; []; []; map letters ["10"; "HELLO"; "-2.5"]; map letters [" A,B"; "3"; "X"]].
(** the screen afterwards: HELLO, A,B and X, then 10.5 and 10 *)
Example C79_used : Forall2 line_spelled data_texts (map ptoks data_prog) /\ Forall proper_pline data_prog /\ Forall (short_bounds None) (statements data_prog) /\ Forall2 data_line (statements data_prog) data_its /\
  exists code tbl, link_text (fun _ => 0) None false (fun _ => None) (2 ^ 4) (concat data_texts) = Ok (code, tbl, []) /\ (length code < 5000)%nat /\
  (exists s, run_program (ideal_data (statements data_prog) data_its (2 ^ 4) (100 + 2 * 2 ^ 4)) (ref_of None) ideal_data_text (statements data_prog) 60 (ideal_data_start data_its) = ProgSpec.End s /\
     firstn 17 (map fst (visible (page (fst s)))) = map to_wide (letters "HELLO A,BX10.510") ++ [0]).
Proof.
  split; [|split; [|split; [|split; [|]]]].
  - unfold data_texts. change (map ptoks data_prog) with (ltac:(let x := eval vm_compute in (map ptoks data_prog) in exact x)). repeat apply Forall2_cons; [| | | | | | | |apply Forall2_nil].
    + lx (letters "FOR") ltac:(cmd 4%nat). lx (letters "I") kName. lx (letters "=") ltac:(kOp 6%nat). lx (letters "1") kNum. lx (letters "TO") ltac:(cmd 5%nat). lx (letters "3") kNum. apply SpEnd.
    + lx (letters "READ") ltac:(cmd 78%nat). lx (letters "A") kName. lx (letters ",") ltac:(kOp 1%nat). lx (letters "B$") kName. lx (letters ":") ltac:(apply LxColon).
      lx (letters "S") kName. lx (letters "=") ltac:(kOp 6%nat). lx (letters "S") kName. lx (letters "+") ltac:(kOp 0%nat). lx (letters "A") kName. lx (letters ":") ltac:(apply LxColon).
      lx (letters "?") ltac:(apply LxQuestion). lx (letters "B$") kName. lx (letters ";") ltac:(kOp 5%nat). apply SpEnd.
    + lx (letters "NEXT") ltac:(cmd 7%nat). apply SpEnd.
    + lx (letters "RESTORE") ltac:(cmd 82%nat). lx (letters "@D") ltac:(apply LxLabel; split; [discriminate|split; [cbn; lia|reflexivity]]). lx (letters ":") ltac:(apply LxColon). lx (letters "READ") ltac:(cmd 78%nat). lx (letters "C") kName. apply SpEnd.
    + lx (letters "?") ltac:(apply LxQuestion). lx (letters "S") kName. lx (letters ";") ltac:(kOp 5%nat). lx (letters "C") kName. apply SpEnd.
    + lx (letters "@D") ltac:(apply LxLabel; split; [discriminate|split; [cbn; lia|reflexivity]]). apply SpEnd.
    + apply (SpData (letters "DATA") (letters " 10,HELLO,-2.5")); [reflexivity|cbn; intuition discriminate|reflexivity].
    + apply (SpData (letters "DATA") (letters " "" A,B"",3,X")); [reflexivity|cbn; intuition discriminate|reflexivity].
  - unfold data_prog, proper_pline, proper_line, plain_line, plain_stmt, basic. prop_tac. all: first [left; split; [reflexivity|lia] | right; prop_tac].
  - change (statements data_prog) with (ltac:(let x := eval vm_compute in (statements data_prog) in exact x)). repeat (apply Forall_cons; [first [exact I | intros ic Q; vm_compute in Q; injection Q as <-; cbn; lia]|]). apply Forall_nil.
  - assert (W : forall w, match w with [] => False | c :: _ => c <> 34 end -> forallb (fun c => negb ((c =? 0) || (c =? 32) || (c =? 44) || (c =? 13))) w = true -> DataSpec.word w).
    { intros w N F. split; [exact N|]. rewrite forallb_forall in F. apply Forall_forall. intros c H. specialize (F c H). lia. }
    assert (Fw : forall a w, DataSpec.blank a -> DataSpec.word w -> DataSpec.field (a ++ w) w) by (intros a w B X; rewrite <- (app_nil_r w) at 1; apply f_word; [exact B|exact X|constructor]).
    change (statements data_prog) with (ltac:(let x := eval vm_compute in (statements data_prog) in exact x)). repeat (apply Forall2_cons; [first [reflexivity|idtac]|]); [| |apply Forall2_nil].
    + exists (letters " 10,HELLO,-2.5"). split; [reflexivity|]. apply (dt_more (letters " 10") (letters "10") (letters "HELLO,-2.5")); [apply (Fw [32]); [repeat constructor|apply W; [discriminate|reflexivity]]|].
      apply (dt_more (letters "HELLO") (letters "HELLO") (letters "-2.5")); [apply (Fw []); [constructor|apply W; [discriminate|reflexivity]]|]. apply dt_last. apply (Fw []); [constructor|apply W; [discriminate|reflexivity]].
    + exists (letters " "" A,B"",3,X"). split; [reflexivity|]. apply (dt_more (letters " "" A,B""") (letters " A,B") (letters "3,X")).
      { apply (f_quoted [32] (letters " A,B") []); [repeat constructor|cbn; repeat constructor; discriminate|constructor]. }
      apply (dt_more (letters "3") (letters "3") (letters "X")); [apply (Fw []); [constructor|apply W; [discriminate|reflexivity]]|]. apply dt_last. apply (Fw []); [constructor|apply W; [discriminate|reflexivity]].
  - do 2 eexists. split; [vm_compute; reflexivity|]. split; [cbn; lia|].
    assert (C : match run_program (ideal_data (statements data_prog) data_its (2 ^ 4) (100 + 2 * 2 ^ 4)) (ref_of None) ideal_data_text (statements data_prog) 60 (ideal_data_start data_its) with
                ProgSpec.End s => firstn 17 (map fst (visible (page (fst s)))) = map to_wide (letters "HELLO A,BX10.510") ++ [0] | _ => False end) by (vm_compute; reflexivity).
    destruct (run_program _ _ _ _ _ _) as [| s | |]; try contradiction. exists s. split; [reflexivity|exact C].
Qed.
