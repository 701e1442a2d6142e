(** C82: programs that draw, from their text to the graphics pages. *)
From Coq Require Import String Ascii.
From Verif Require Import Base BaseLemmas Tokens ExprSpec NumText Hash HashProofs Labels LabelsProofs Bytecode BytecodeSpec BytecodeProofs Runner RunnerSpec StmtSpec ExecProofs FlowSpec FlowProofs FlowLine FlowDemo ForSpec ProgSpec Lexer LexSpec LexProofs LexProps Link ProgProofs ProgSim ProgEnd ProgProps.
From Verif Require Import Codes Vars Strs Data DataSpec Console ConsoleSpec ConsoleProofs Machine Ideal HostSim MachineSim MachineHost MachineProps HostData MachineData IdealData DataHost.
From Verif Require Import LineInput LineInputSpec Ask IdealAsk AskHost Draw IdealDraw DrawProofs DrawHost.
From Verif Require Graphics GraphicsSpec GraphicsProps.
Ltac Zify.zify_post_hook ::= Z.div_mod_to_equations.
Local Open Scope string_scope.
Local Open Scope list_scope.
Open Scope Z_scope.

(** ** C82: the machine of C80 with the graphics pages [g], run from a program text, does what the ideal computer does that has four boards of dots ([b]):
    GPAGE, GCOLOR, GDRAWMD and GPRIO choose, GCLS, GPSET, GFILL, GBOX and GLINE draw exactly the dots asked for on the board chosen, GCOPY copies a rectangle of any of the boards to it (whatever the overlap), GSPOIT tells the colour of a dot,
    values out of range stop the program with the error; in the end (and after every statement) every dot of every page has the colour of the board's dot.
    Missing from the full statement: what C80 leaves out; rectangles with the corners exchanged or wholly beside the page and frames that begin beside it or are drawn in the
    exclusive-or mode (C29_gfill_outside_refuted, C29_gfill_swapped_refuted, C29_gbox_outside_refuted, C29_gbox_xor_refuted); lines neither level, upright nor diagonal
    (C29_gline_partial says how these run); GCIRCLE, GPAINT and GPUTCHR as statements of a program; a wrong number of arguments. *)
Theorem C82_program_partial : forall errno test n elements labels sources prog code tbl its todo ks b g,
  0 <= n <= 18 -> 0 <= elements -> elements + 2 * 2 ^ n < 2 ^ 30 -> 0 <= labels ->
  Forall2 line_spelled sources (map ptoks prog) -> Forall proper_pline prog -> link_text errno None false test (2 ^ labels) (concat sources) = Ok (code, tbl, []) ->
  Z.of_nat (length code) < 16777216 -> Forall (short_bounds None) (statements prog) -> Forall2 data_line (statements prog) its -> player todo ks -> pictured b g ->
  let cells := elements + 2 * 2 ^ n in let host := machine_draw code tbl in
  forall m, let runs k := Link.run (table_lab host drtext tbl) code k (mkC (h := host) 0 [] [] 0 (machine_draw_start (2 ^ n) elements ks g)) in
  match run_program (ideal_draw (statements prog) its (2 ^ n) cells) (ref_of None) ideal_draw_text (statements prog) m (ideal_draw_start its todo b) with
  | ProgSpec.Go _ _ s => exists k c, runs k = Ok c /\ MachineProps.shows (2 ^ n) cells (fst (fst (fst s))) (fst (fst (fst (hst c)))) /\ pictured (snd s) (snd (hst c)) /\ (m <= 2 * k)%nat
  | ProgSpec.End s => exists k (calls : list (call (Loc host))) (st : St host), MachineProps.shows (2 ^ n) cells (fst (fst (fst s))) (fst (fst (fst st))) /\
      pictured (snd s) (snd st) /\ player (snd (fst s)) (snd (fst st)) /\
      forall j, runs (k + j)%nat = Ok (mkC (h := host) (Z.of_nat (length code)) [] calls 0 st)
  | Stops e => e <> ERR_INVALID_BC -> exists k, forall j, runs (k + j)%nat = Err e
  | Unspecified => True
  end.
Proof.
  intros errno test n elements labels sources prog code tbl its todo ks b g Hn He Hc Hl Sp P L Sz Sb Dl Pl Pc cells host m. cbv zeta.
  assert (Lk : link errno None false test [] (init_labels (2 ^ labels)) (map (fun p => Tokens (ptoks p)) prog) = Ok (code, tbl, [])).
  { pose proof L as L1. unfold link_text in L1. rewrite (C67_source_partial _ _ Sp), reset_init, map_map in L1; [exact L1|]. apply Forall_map. eapply Forall_impl; [apply proper_short|exact P]. }
  destruct (link_program errno None test prog ltac:(discriminate) P [] _ _ _ eq_refl Lk) as (iss & U & E & T). cbn [app length] in E, T. change (Z.of_nat 0) with 0 in T.
  pose proof (program_uok prog P) as Uo. rewrite E in Sz.
  pose proof (start_ok n cells elements ltac:(lia) He eq_refl Hc) as S0.
  pose proof (draw_agrees n cells Hn (statements prog) iss its tbl labels Hl Uo U Dl T Sz) as Ag. rewrite <- E in Ag.
  pose proof (run_program_sim _ _ _ _ _ _ Ag (ref_of None) (statements prog) m (ideal_draw_start its todo b) (machine_draw_start (2 ^ n) elements ks g)
    (conj (conj (conj S0 (start_reading (statements prog) iss its U Dl 0)) Pl) Pc)) as Sim.
  rewrite <- E in Sz.
  pose proof (C70_text_partial host drtext errno None test labels sources prog code tbl ltac:(discriminate)
    ltac:(intros x y; cbn [same host machine_draw with_fun machine_ask machine_data attach machine]; destruct (mloc_eq x y); split; congruence) Hl Sp P L Sz Sb m (machine_draw_start (2 ^ n) elements ks g)) as G. cbv zeta in G.
  fold host in Sim. destruct (run_program (ideal_draw _ _ _ _) _ _ _ _ _) as [q fs s|s|e|]; cbn [mr] in Sim; [| | |exact I].
  - destruct Sim as (gs & t & Er & [[[R1 _] _] R3] & _). rewrite Er in G. destruct G as (k & c & G1 & G2 & G3). exists k, c. subst t. split; [exact G1|]. split; [apply SR_shows, R1|]. split; [exact R3|exact G3].
  - destruct Sim as (t & Er & [[[R1 _] R2] R3]). rewrite Er in G. destruct G as (k & calls & G). exists k, calls, t. split; [apply SR_shows, R1|]. split; [exact R3|]. split; [exact R2|exact G].
  - rewrite Sim in G. exact G.
Qed.
Print Assumptions C82_program_partial.

(** *** Example *)
Definition eCall (f : Z) (l : list expr) : expr := ExprSpec.Call true f [] false l.
Definition cmd_of (c : Z) (l : list String.string) : stmt := SCmd c (map (fun s => AE (eNu s)) l).
Definition spoit (l : list String.string) : expr := eCall FUNC_GSPOIT (map eNu l).
Definition draw_prog : list pline :=
  [PLine (LSeq (cmd_of CMD_GPAGE ["0"; "1"; "1"]) (LSeq (cmd_of CMD_GCLS ["3"]) (LOne (cmd_of CMD_GCOLOR ["7"]))));
   PLine (LOne (SFor (eNm "I") (eNu "1") (eNu "3") None));
   PLine (LOne (SCmd CMD_GPSET [AE (Bin OP_MULTIPLY (eNm "I") (eNu "10")); AE (eNm "I")]));
   PLine (LOne (SCmd CMD_NEXT []));
   PLine (LSeq (cmd_of CMD_GFILL ["100"; "100"; "120"; "110"; "9"]) (LSeq (cmd_of CMD_GDRAWMD ["1"]) (LOne (cmd_of CMD_GFILL ["110"; "105"; "300"; "108"]))));
   PLine (LSeq (cmd_of CMD_GDRAWMD ["0"]) (LSeq (cmd_of CMD_GBOX ["5"; "50"; "8"; "55"; "12"]) (LOne (cmd_of CMD_GLINE ["9"; "69"; "0"; "60"]))));
   PLine (LOne (SPrint [(Some (spoit ["20"; "2"]), OP_SEMICOLON); (Some (spoit ["112"; "106"]), OP_SEMICOLON); (Some (spoit ["4"; "64"]), OP_SEMICOLON); (Some (spoit ["8"; "53"]), OP_SEMICOLON)]
      (Some (spoit ["0"; "8"; "53"]))));
   PLine (LSeq (cmd_of CMD_GCOPY ["119"; "105"; "100"; "100"; "110"; "102"; "0"]) (LOne (cmd_of CMD_GCOPY ["0"; "100"; "0"; "101"; "0"; "1"; "0"; "1"])));
   PLine (LOne (cmd_of CMD_GCOLOR ["256"]))].
Definition draw_texts : list (list Z) := Eval vm_compute in map (fun s => letters s ++ [13])
  ["GPAGE 0,1,1:GCLS 3:GCOLOR 7"; "FOR I=1 TO 3"; "GPSET I*10,I"; "NEXT"; "GFILL 100,100,120,110,9:GDRAWMD 1:GFILL 110,105,300,108"; "GDRAWMD 0:GBOX 5,50,8,55,12:GLINE 9,69,0,60";
   "?GSPOIT(20,2);GSPOIT(112,106);GSPOIT(4,64);GSPOIT(8,53);GSPOIT(0,8,53)"; "GCOPY 119,105,100,100,110,102,0:GCOPY 0,100,0,101,0,1,0,1"; "GCOLOR 256"].
Definition no_data (p : list pline) : list (list (list Z)) := map (fun _ => []) (statements p).
(** the pages as after switching on *)
Definition blank_pages : Graphics.gfx := Graphics.init_graphics 0 (fun _ _ => 0).
Lemma blank_pictured : pictured blank_board blank_pages.
Proof.
  assert (W : GraphicsSpec.well blank_pages).
  { repeat split; cbn [blank_pages Graphics.init_graphics Graphics.screen Graphics.color Graphics.drawpage Graphics.displaypage Graphics.prio Graphics.pages]; lia. }
  split; [exact W|]. split; [reflexivity|]. split; [reflexivity|]. split; [reflexivity|]. split; [intros s _; repeat split; reflexivity|].
  intros n x y Hn Hx Hy. symmetry. apply (GraphicsProofs.colour_on blank_pages n x y Hn Hx Hy). cbn. lia.
Qed.
Ltac spt := lx (letters "GSPOIT") ltac:(apply (LxFunction _ 14%nat); reflexivity); lx (letters "(") ltac:(kOp 20%nat).
Example C82_used : Forall2 line_spelled draw_texts (map ptoks draw_prog) /\ Forall proper_pline draw_prog /\ Forall (short_bounds None) (statements draw_prog) /\
  Forall2 data_line (statements draw_prog) (no_data draw_prog) /\ player [] [] /\ pictured blank_board blank_pages /\
  exists code tbl, link_text (fun _ => 0) None false (fun _ => None) (2 ^ 4) (concat draw_texts) = Ok (code, tbl, []) /\ (length code < 5000)%nat /\
  (exists q fs s, run_program (ideal_draw (statements draw_prog) (no_data draw_prog) (2 ^ 4) (100 + 2 * 2 ^ 4)) (ref_of None) ideal_draw_text (statements draw_prog) 20 (ideal_draw_start (no_data draw_prog) [] blank_board) = ProgSpec.Go q fs s /\
     firstn 8 (map fst (visible (page (fst (fst (fst s)))))) = map to_wide (letters "7147120") ++ [0] /\ b_dot (snd s) 1 30 3 = 7 /\ b_dot (snd s) 1 200 106 = 4 /\ b_dot (snd s) 1 7 52 = 3) /\
  (exists q fs s, run_program (ideal_draw (statements draw_prog) (no_data draw_prog) (2 ^ 4) (100 + 2 * 2 ^ 4)) (ref_of None) ideal_draw_text (statements draw_prog) 22 (ideal_draw_start (no_data draw_prog) [] blank_board) = ProgSpec.Go q fs s /\
     map (fun q => b_dot (snd s) 1 (fst q) (snd q)) [(110, 102); (129, 107); (130, 107); (2, 0); (3, 0)] = [9; 14; 4; 0; 3]) /\
  run_program (ideal_draw (statements draw_prog) (no_data draw_prog) (2 ^ 4) (100 + 2 * 2 ^ 4)) (ref_of None) ideal_draw_text (statements draw_prog) 60 (ideal_draw_start (no_data draw_prog) [] blank_board) = Stops ERR_OUT_OF_RANGE.
Proof.
  split; [|split; [|split; [|split; [|split; [|split]]]]].
  - unfold draw_texts. change (map ptoks draw_prog) with (ltac:(let x := eval vm_compute in (map ptoks draw_prog) in exact x)). repeat apply Forall2_cons; [| | | | | | | | |apply Forall2_nil].
    + lx (letters "GPAGE") ltac:(cmd 65%nat). lx (letters "0") kNum. lx (letters ",") ltac:(kOp 1%nat). lx (letters "1") kNum. lx (letters ",") ltac:(kOp 1%nat). lx (letters "1") kNum. lx (letters ":") ltac:(apply LxColon).
      lx (letters "GCLS") ltac:(cmd 59%nat). lx (letters "3") kNum. lx (letters ":") ltac:(apply LxColon). lx (letters "GCOLOR") ltac:(cmd 60%nat). lx (letters "7") kNum. apply SpEnd.
    + lx (letters "FOR") ltac:(cmd 4%nat). lx (letters "I") kName. lx (letters "=") ltac:(kOp 6%nat). lx (letters "1") kNum. lx (letters "TO") ltac:(cmd 5%nat). lx (letters "3") kNum. apply SpEnd.
    + lx (letters "GPSET") ltac:(cmd 67%nat). lx (letters "I") kName. lx (letters "*") ltac:(kOp 3%nat). lx (letters "10") kNum. lx (letters ",") ltac:(kOp 1%nat). lx (letters "I") kName. apply SpEnd.
    + lx (letters "NEXT") ltac:(cmd 7%nat). apply SpEnd.
    + lx (letters "GFILL") ltac:(cmd 63%nat). lx (letters "100") kNum. lx (letters ",") ltac:(kOp 1%nat). lx (letters "100") kNum. lx (letters ",") ltac:(kOp 1%nat). lx (letters "120") kNum. lx (letters ",") ltac:(kOp 1%nat). lx (letters "110") kNum. lx (letters ",") ltac:(kOp 1%nat). lx (letters "9") kNum. lx (letters ":") ltac:(apply LxColon).
      lx (letters "GDRAWMD") ltac:(cmd 62%nat). lx (letters "1") kNum. lx (letters ":") ltac:(apply LxColon).
      lx (letters "GFILL") ltac:(cmd 63%nat). lx (letters "110") kNum. lx (letters ",") ltac:(kOp 1%nat). lx (letters "105") kNum. lx (letters ",") ltac:(kOp 1%nat). lx (letters "300") kNum. lx (letters ",") ltac:(kOp 1%nat). lx (letters "108") kNum. apply SpEnd.
    + lx (letters "GDRAWMD") ltac:(cmd 62%nat). lx (letters "0") kNum. lx (letters ":") ltac:(apply LxColon).
      lx (letters "GBOX") ltac:(cmd 57%nat). lx (letters "5") kNum. lx (letters ",") ltac:(kOp 1%nat). lx (letters "50") kNum. lx (letters ",") ltac:(kOp 1%nat). lx (letters "8") kNum. lx (letters ",") ltac:(kOp 1%nat). lx (letters "55") kNum. lx (letters ",") ltac:(kOp 1%nat). lx (letters "12") kNum. lx (letters ":") ltac:(apply LxColon).
      lx (letters "GLINE") ltac:(cmd 64%nat). lx (letters "9") kNum. lx (letters ",") ltac:(kOp 1%nat). lx (letters "69") kNum. lx (letters ",") ltac:(kOp 1%nat). lx (letters "0") kNum. lx (letters ",") ltac:(kOp 1%nat). lx (letters "60") kNum. apply SpEnd.
    + lx (letters "?") ltac:(apply LxQuestion). spt. lx (letters "20") kNum. lx (letters ",") ltac:(kOp 1%nat). lx (letters "2") kNum. lx (letters ")") ltac:(kOp 21%nat). lx (letters ";") ltac:(kOp 5%nat).
      spt. lx (letters "112") kNum. lx (letters ",") ltac:(kOp 1%nat). lx (letters "106") kNum. lx (letters ")") ltac:(kOp 21%nat). lx (letters ";") ltac:(kOp 5%nat).
      spt. lx (letters "4") kNum. lx (letters ",") ltac:(kOp 1%nat). lx (letters "64") kNum. lx (letters ")") ltac:(kOp 21%nat). lx (letters ";") ltac:(kOp 5%nat).
      spt. lx (letters "8") kNum. lx (letters ",") ltac:(kOp 1%nat). lx (letters "53") kNum. lx (letters ")") ltac:(kOp 21%nat). lx (letters ";") ltac:(kOp 5%nat).
      spt. lx (letters "0") kNum. lx (letters ",") ltac:(kOp 1%nat). lx (letters "8") kNum. lx (letters ",") ltac:(kOp 1%nat). lx (letters "53") kNum. lx (letters ")") ltac:(kOp 21%nat). apply SpEnd.
    + lx (letters "GCOPY") ltac:(cmd 61%nat). lx (letters "119") kNum. lx (letters ",") ltac:(kOp 1%nat). lx (letters "105") kNum. lx (letters ",") ltac:(kOp 1%nat). lx (letters "100") kNum. lx (letters ",") ltac:(kOp 1%nat). lx (letters "100") kNum. lx (letters ",") ltac:(kOp 1%nat). lx (letters "110") kNum. lx (letters ",") ltac:(kOp 1%nat). lx (letters "102") kNum. lx (letters ",") ltac:(kOp 1%nat). lx (letters "0") kNum. lx (letters ":") ltac:(apply LxColon).
      lx (letters "GCOPY") ltac:(cmd 61%nat). lx (letters "0") kNum. lx (letters ",") ltac:(kOp 1%nat). lx (letters "100") kNum. lx (letters ",") ltac:(kOp 1%nat). lx (letters "0") kNum. lx (letters ",") ltac:(kOp 1%nat). lx (letters "101") kNum. lx (letters ",") ltac:(kOp 1%nat). lx (letters "0") kNum. lx (letters ",") ltac:(kOp 1%nat). lx (letters "1") kNum. lx (letters ",") ltac:(kOp 1%nat). lx (letters "0") kNum. lx (letters ",") ltac:(kOp 1%nat). lx (letters "1") kNum. apply SpEnd.
    + lx (letters "GCOLOR") ltac:(cmd 60%nat). lx (letters "256") kNum. apply SpEnd.
  - unfold draw_prog, cmd_of, spoit, eCall, proper_pline, proper_line, plain_line, plain_stmt, basic. prop_tac. all: first [left; split; [reflexivity|lia] | right; prop_tac].
  - change (statements draw_prog) with (ltac:(let x := eval vm_compute in (statements draw_prog) in exact x)). repeat (apply Forall_cons; [first [exact I | intros ic Q; vm_compute in Q; injection Q as <-; cbn; lia]|]). apply Forall_nil.
  - unfold no_data. change (statements draw_prog) with (ltac:(let x := eval vm_compute in (statements draw_prog) in exact x)). cbn [map]. repeat (apply Forall2_cons; [reflexivity|]). apply Forall2_nil.
  - apply player_done.
  - exact blank_pictured.
  - do 2 eexists. split; [vm_compute; reflexivity|]. split; [cbn; lia|]. apply and_assoc. split.
    2:{ assert (C : match run_program (ideal_draw (statements draw_prog) (no_data draw_prog) (2 ^ 4) (100 + 2 * 2 ^ 4)) (ref_of None) ideal_draw_text (statements draw_prog) 60 (ideal_draw_start (no_data draw_prog) [] blank_board) with
                Stops ERR_OUT_OF_RANGE => True | _ => False end) by (vm_compute; exact I).
      destruct (run_program _ _ _ _ _ _) as [| |e|]; try contradiction. destruct e; try contradiction. reflexivity. }
    split.
    2:{ assert (C : match run_program (ideal_draw (statements draw_prog) (no_data draw_prog) (2 ^ 4) (100 + 2 * 2 ^ 4)) (ref_of None) ideal_draw_text (statements draw_prog) 22 (ideal_draw_start (no_data draw_prog) [] blank_board) with
                ProgSpec.Go _ _ s => map (fun q => b_dot (snd s) 1 (fst q) (snd q)) [(110, 102); (129, 107); (130, 107); (2, 0); (3, 0)] = [9; 14; 4; 0; 3] | _ => False end) by (vm_compute; reflexivity).
        destruct (run_program _ _ _ _ _ _) as [q fs s| s | |]; try contradiction. exists q, fs, s. split; [reflexivity|exact C]. }
    assert (C : match run_program (ideal_draw (statements draw_prog) (no_data draw_prog) (2 ^ 4) (100 + 2 * 2 ^ 4)) (ref_of None) ideal_draw_text (statements draw_prog) 20 (ideal_draw_start (no_data draw_prog) [] blank_board) with
                ProgSpec.Go _ _ s => firstn 8 (map fst (visible (page (fst (fst (fst s)))))) = map to_wide (letters "7147120") ++ [0] /\ b_dot (snd s) 1 30 3 = 7 /\ b_dot (snd s) 1 200 106 = 4 /\ b_dot (snd s) 1 7 52 = 3 | _ => False end) by (vm_compute; auto).
    destruct (run_program _ _ _ _ _ _) as [q fs s| s | |]; try contradiction. exists q, fs, s. split; [reflexivity|exact C].
Qed.
