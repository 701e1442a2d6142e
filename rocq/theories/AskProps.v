(** C80: programs that ask, from their text and the keys pressed to their variables and the screen. *)
From Coq Require Import String Ascii.
From Verif Require Import Base BaseLemmas Tokens ExprSpec NumText Hash HashProofs Labels LabelsProofs Bytecode BytecodeSpec BytecodeProofs Runner RunnerSpec StmtSpec ExecProofs FlowSpec FlowProofs FlowLine FlowDemo ForSpec ProgSpec Lexer LexSpec LexProofs LexProps Link ProgProofs ProgSim ProgEnd ProgProps.
From Verif Require Import Codes Vars Strs Data DataSpec Console ConsoleSpec ConsoleProofs Machine Ideal HostSim MachineSim MachineHost MachineProps HostData MachineData IdealData DataHost.
From Verif Require Import LineInput LineInputSpec LineInputProps LineInputFields Ask IdealAsk AskProofs AskHost.
Local Open Scope string_scope.
Local Open Scope list_scope.
Open Scope Z_scope.

(** ** C80: the machine of C79 with INPUT and LINPUT and the keys [ks] that will be pressed, run from a program text, does what the ideal computer does that is told
    the lines typed ([todo]): a question mark and the line typed appear on the page, LINPUT delivers the whole line, INPUT its fields, asks again when there are more or
    fewer fields than variables or the first number is none, and breaking off stops the program.
    Missing from the full statement: what C79 leaves out; lines of 32 characters (C50_full_line_refuted, C50_last_character_refuted); a question asked below the last
    row or in a line that is not empty; a later field that is no number (C50_redo_refuted) and numbers ended by a space (C50_space_refuted); the prompt in front of
    a semicolon; characters outside the character set. *)
Theorem C80_program_partial : forall errno test n elements labels sources prog code tbl its todo ks,
  0 <= n <= 18 -> 0 <= elements -> elements + 2 * 2 ^ n < 2 ^ 30 -> 0 <= labels ->
  Forall2 line_spelled sources (map ptoks prog) -> Forall proper_pline prog -> link_text errno None false test (2 ^ labels) (concat sources) = Ok (code, tbl, []) ->
  Z.of_nat (length code) < 16777216 -> Forall (short_bounds None) (statements prog) -> Forall2 data_line (statements prog) its -> player todo ks ->
  let cells := elements + 2 * 2 ^ n in let host := machine_ask code tbl in
  forall m, let runs k := Link.run (table_lab host atext tbl) code k (mkC (h := host) 0 [] [] 0 (machine_ask_start (2 ^ n) elements ks)) in
  match run_program (ideal_ask (statements prog) its (2 ^ n) cells) (ref_of None) ideal_ask_text (statements prog) m (ideal_ask_start its todo) with
  | ProgSpec.Go _ _ s => exists k c, runs k = Ok c /\ MachineProps.shows (2 ^ n) cells (fst (fst s)) (fst (fst (hst c))) /\ (m <= 2 * k)%nat
  | ProgSpec.End s => exists k (calls : list (call (Loc host))) (st : St host), MachineProps.shows (2 ^ n) cells (fst (fst s)) (fst (fst st)) /\ player (snd s) (snd st) /\
      forall j, runs (k + j)%nat = Ok (mkC (h := host) (Z.of_nat (length code)) [] calls 0 st)
  | Stops e => e <> ERR_INVALID_BC -> exists k, forall j, runs (k + j)%nat = Err e
  | Unspecified => True
  end.
Proof.
  intros errno test n elements labels sources prog code tbl its todo ks Hn He Hc Hl Sp P L Sz Sb Dl Pl cells host m. cbv zeta.
  assert (Lk : link errno None false test [] (init_labels (2 ^ labels)) (map (fun p => Tokens (ptoks p)) prog) = Ok (code, tbl, [])).
  { pose proof L as L1. unfold link_text in L1. rewrite (C67_source_partial _ _ Sp), reset_init, map_map in L1; [exact L1|]. apply Forall_map. eapply Forall_impl; [apply proper_short|exact P]. }
  destruct (link_program errno None test prog ltac:(discriminate) P [] _ _ _ eq_refl Lk) as (iss & U & E & T). cbn [app length] in E, T. change (Z.of_nat 0) with 0 in T.
  pose proof (program_uok prog P) as Uo. rewrite E in Sz.
  pose proof (start_ok n cells elements ltac:(lia) He eq_refl Hc) as S0.
  pose proof (ask_agrees n cells Hn (statements prog) iss its tbl labels Hl Uo U Dl T Sz) as Ag. rewrite <- E in Ag.
  pose proof (run_program_sim _ _ _ _ _ _ Ag (ref_of None) (statements prog) m (ideal_ask_start its todo) (machine_ask_start (2 ^ n) elements ks)
    (conj (conj S0 (start_reading (statements prog) iss its U Dl 0)) Pl)) as Sim.
  rewrite <- E in Sz.
  pose proof (C70_text_partial host atext errno None test labels sources prog code tbl ltac:(discriminate)
    ltac:(intros a b; cbn [same host machine_ask machine_data attach machine]; destruct (mloc_eq a b); split; congruence) Hl Sp P L Sz Sb m (machine_ask_start (2 ^ n) elements ks)) as G. cbv zeta in G.
  fold host in Sim. unfold ideal_ask in *. destruct (run_program (attach (ideal_data _ _ _ _) _ _) _ _ _ _ _) as [q fs s|s|e|]; cbn [mr] in Sim; [| | |exact I].
  - destruct Sim as (gs & t & Er & [[R1 _] _]). rewrite Er in G. destruct G as (k & c & G1 & G2 & G3). exists k, c. subst t. split; [exact G1|]. split; [apply SR_shows, R1|exact G3].
  - destruct Sim as (t & Er & [[R1 _] R2]). rewrite Er in G. destruct G as (k & calls & G). exists k, calls, t. split; [apply SR_shows, R1|]. split; [exact R2|exact G].
  - rewrite Sim in G. exact G.
Qed.
Print Assumptions C80_program_partial.
(** A program that asks and is broken off stops with the error of the escape key, wherever it asks *)
Theorem C80_break_partial : forall errno test n elements labels sources prog code tbl its todo ks m,
  0 <= n <= 18 -> 0 <= elements -> elements + 2 * 2 ^ n < 2 ^ 30 -> 0 <= labels ->
  Forall2 line_spelled sources (map ptoks prog) -> Forall proper_pline prog -> link_text errno None false test (2 ^ labels) (concat sources) = Ok (code, tbl, []) ->
  Z.of_nat (length code) < 16777216 -> Forall (short_bounds None) (statements prog) -> Forall2 data_line (statements prog) its -> player todo ks ->
  run_program (ideal_ask (statements prog) its (2 ^ n) (elements + 2 * 2 ^ n)) (ref_of None) ideal_ask_text (statements prog) m (ideal_ask_start its todo) = Stops ERR_BREAK ->
  exists k, forall j, Link.run (table_lab (machine_ask code tbl) atext tbl) code (k + j) (mkC (h := machine_ask code tbl) 0 [] [] 0 (machine_ask_start (2 ^ n) elements ks)) = Err ERR_BREAK.
Proof.
  intros errno test n elements labels sources prog code tbl its todo ks m Hn He Hc Hl Sp P L Sz Sb Dl Pl St.
  pose proof (C80_program_partial errno test n elements labels sources prog code tbl its todo ks Hn He Hc Hl Sp P L Sz Sb Dl Pl m) as G. cbv zeta in G. rewrite St in G. apply G. discriminate.
Qed.
Print Assumptions C80_break_partial.

(** *** Example: a name (with one character taken back), then two numbers, the first time wrongly *)
Definition ask_prog : list pline :=
  [PLine (LSeq (SPrint [(Some (eSt "NAME"), OP_SEMICOLON)] None) (LOne (SCmd Ask.CMD_LINPUT [AE (eNm "N$")])));
   PLine (LOne (SCmd Ask.CMD_INPUT [AE (eNm "A"); AE (eNm "B")]));
   PLine (LOne (SPrint [(Some (eNm "N$"), OP_SEMICOLON)] (Some (Bin OP_MULTIPLY (eNm "A") (eNm "B")))))].
Definition ask_texts : list (list Z) := Eval vm_compute in map (fun s => letters s ++ [13])
  ["?""NAME"";:LINPUT N$"; "INPUT A,B"; "?N$;A*B"].
Definition ask_keys : list keys := Eval vm_compute in map (fun b => key (to_wide b)) (letters "SAN") ++ [backspace] ++ keys_of (letters "M") ++ keys_of (letters "X,1") ++ keys_of (letters "3,4.5").
Definition ask_todo : list (option (list Z)) := Eval vm_compute in map (fun s => Some (letters s)) ["SAM"; "X,1"; "3,4.5"].
Definition page_row (s : String.string) : list Z := map to_wide (letters s) ++ repeat 0 (32 - length (letters s)).
Definition ask_page : list Z := concat (map page_row ["NAME?"; "SAM"; "?"; "X,1"; "?Redo from start"; "?"; "3,4.5"; "SAM13.5"]).
(** the last: A typed, then the escape key at the second question *)
Definition ask_keys2 : list keys := Eval vm_compute in keys_of (letters "SAM") ++ [key (to_wide 65); break].
Definition ask_todo2 : list (option (list Z)) := Eval vm_compute in [Some (letters "SAM"); None].
Ltac typing_tac := repeat first [apply t_more; [reflexivity|reflexivity|] | apply t_finish; reflexivity | apply t_break; reflexivity].
Ltac line_tac := eexists; split; [typing_tac|]; split; [vm_compute; reflexivity|]; split; [vm_compute; reflexivity|]; split; [repeat constructor; lia|cbn; lia].
Example C80_used : Forall2 line_spelled ask_texts (map ptoks ask_prog) /\ Forall proper_pline ask_prog /\ Forall (short_bounds None) (statements ask_prog) /\
  Forall2 data_line (statements ask_prog) [[]; []; []; []] /\ player ask_todo ask_keys /\ player ask_todo2 ask_keys2 /\
  exists code tbl, link_text (fun _ => 0) None false (fun _ => None) (2 ^ 4) (concat ask_texts) = Ok (code, tbl, []) /\ (length code < 5000)%nat /\
  (exists s, run_program (ideal_ask (statements ask_prog) [[]; []; []; []] (2 ^ 4) (100 + 2 * 2 ^ 4)) (ref_of None) ideal_ask_text (statements ask_prog) 10 (ideal_ask_start [[]; []; []; []] ask_todo) = ProgSpec.End s /\
     firstn 256 (map fst (visible (page (fst (fst s))))) = ask_page) /\
  run_program (ideal_ask (statements ask_prog) [[]; []; []; []] (2 ^ 4) (100 + 2 * 2 ^ 4)) (ref_of None) ideal_ask_text (statements ask_prog) 10 (ideal_ask_start [[]; []; []; []] ask_todo2) = Stops ERR_BREAK.
Proof.
  split; [|split; [|split; [|split; [|split; [|split]]]]].
  - unfold ask_texts. change (map ptoks ask_prog) with (ltac:(let x := eval vm_compute in (map ptoks ask_prog) in exact x)). repeat apply Forall2_cons; [| | |apply Forall2_nil].
    + lx (letters "?") ltac:(apply LxQuestion). lx (letters """NAME""") ltac:(apply (LxString (letters "NAME")); [cbn; lia|vm_compute; intuition discriminate|vm_compute; intuition discriminate]). lx (letters ";") ltac:(kOp 5%nat). lx (letters ":") ltac:(apply LxColon). lx (letters "LINPUT") ltac:(cmd 24%nat). lx (letters "N$") kName. apply SpEnd.
    + lx (letters "INPUT") ltac:(cmd 23%nat). lx (letters "A") kName. lx (letters ",") ltac:(kOp 1%nat). lx (letters "B") kName. apply SpEnd.
    + lx (letters "?") ltac:(apply LxQuestion). lx (letters "N$") kName. lx (letters ";") ltac:(kOp 5%nat). lx (letters "A") kName. lx (letters "*") ltac:(kOp 3%nat). lx (letters "B") kName. apply SpEnd.
  - unfold ask_prog, proper_pline, proper_line, plain_line, plain_stmt, basic. prop_tac. all: first [left; split; [reflexivity|lia] | right; prop_tac].
  - change (statements ask_prog) with (ltac:(let x := eval vm_compute in (statements ask_prog) in exact x)). repeat (apply Forall_cons; [first [exact I | intros ic Q; vm_compute in Q; injection Q as <-; cbn; lia]|]). apply Forall_nil.
  - change (statements ask_prog) with (ltac:(let x := eval vm_compute in (statements ask_prog) in exact x)). repeat (apply Forall2_cons; [reflexivity|]). apply Forall2_nil.
  - unfold ask_todo, ask_keys. eapply player_line; [line_tac|]. eapply player_line; [line_tac|]. eapply player_line; [line_tac|]. apply player_done.
  - unfold ask_todo2, ask_keys2. eapply player_line; [line_tac|]. apply player_break. do 2 eexists. split; [typing_tac|vm_compute; reflexivity].
  - do 2 eexists. split; [vm_compute; reflexivity|]. split; [cbn; lia|]. split.
    2:{ assert (C : match run_program (ideal_ask (statements ask_prog) [[]; []; []; []] (2 ^ 4) (100 + 2 * 2 ^ 4)) (ref_of None) ideal_ask_text (statements ask_prog) 10 (ideal_ask_start [[]; []; []; []] ask_todo2) with
                Stops ERR_BREAK => True | _ => False end) by (vm_compute; exact I).
      destruct (run_program _ _ _ _ _ _) as [| |e|]; try contradiction. destruct e; try contradiction. reflexivity. }
    assert (C : match run_program (ideal_ask (statements ask_prog) [[]; []; []; []] (2 ^ 4) (100 + 2 * 2 ^ 4)) (ref_of None) ideal_ask_text (statements ask_prog) 10 (ideal_ask_start [[]; []; []; []] ask_todo) with
                ProgSpec.End s => firstn 256 (map fst (visible (page (fst (fst s))))) = ask_page | _ => False end) by (vm_compute; reflexivity).
    destruct (run_program _ _ _ _ _ _) as [| s | |]; try contradiction. exists s. split; [reflexivity|exact C].
Qed.
