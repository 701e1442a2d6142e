(** C83: programs with background layers, from their text to the tiles. *)
From Coq Require Import String Ascii.
From Verif Require Import Base BaseLemmas Tokens ExprSpec NumText Hash HashProofs Labels LabelsProofs Bytecode BytecodeSpec BytecodeProofs Runner RunnerSpec StmtSpec ExecProofs FlowSpec FlowProofs FlowLine FlowDemo ForSpec ProgSpec Lexer LexSpec LexProofs LexProps Link ProgProofs ProgSim ProgEnd ProgProps.
From Verif Require Import Codes Vars Strs Data DataSpec Console ConsoleSpec ConsoleProofs Machine Ideal HostSim MachineSim MachineHost MachineProps HostData MachineData IdealData DataHost.
From Verif Require Import LineInput LineInputSpec Ask IdealAsk AskHost Draw IdealDraw DrawProofs DrawHost DrawProps Tiles IdealTiles TilesProofs TilesHost.
From Verif Require Background BackgroundProofs Graphics GraphicsSpec GraphicsProps.
Ltac Zify.zify_post_hook ::= Z.div_mod_to_equations.
Local Open Scope string_scope.
Local Open Scope list_scope.
Open Scope Z_scope.

(** ** C83: the machine of C82 with the background layers [s], run from a program text, does what the ideal computer does that has two pages of two layers of 64 x 64 tiles ([w]):
    BGPAGE chooses a page, BGCLR empties it or one layer, BGPUT puts a tile (counting round at 64), BGFILL fills a rectangle, BGCOPY copies one (whatever the overlap),
    BGREAD stores the tile in a number, a text or four numbers; tiles are given as a number, as hexadecimal digits or in parts; values out of range stop the program with the error;
    in the end (and after every statement) BGREAD would tell the ideal tile for every cell of every layer of both pages.
    Missing from the full statement: what C82 leaves out; BGOFS and BGCHK (time passes there, C51), BGCLIP; copies that do not fit into the layer (C27_copy_outside_refuted); texts for a tile
    other than up to four digits and capital letters A to F; a wrong number of arguments. *)
Theorem C83_program_partial : forall errno test n elements labels sources prog code tbl its todo ks b g w s0,
  0 <= n <= 18 -> 0 <= elements -> elements + 2 * 2 ^ n < 2 ^ 30 -> 0 <= labels ->
  Forall2 line_spelled sources (map ptoks prog) -> Forall proper_pline prog -> link_text errno None false test (2 ^ labels) (concat sources) = Ok (code, tbl, []) ->
  Z.of_nat (length code) < 16777216 -> Forall (short_bounds None) (statements prog) -> Forall2 data_line (statements prog) its -> player todo ks -> pictured b g -> pinned w s0 ->
  let cells := elements + 2 * 2 ^ n in let host := machine_tiles code tbl in
  forall m, let runs k := Link.run (table_lab host titext tbl) code k (mkC (h := host) 0 [] [] 0 (machine_tiles_start (2 ^ n) elements ks g s0)) in
  match run_program (ideal_tiles (statements prog) its (2 ^ n) cells) (ref_of None) ideal_tiles_text (statements prog) m (ideal_tiles_start its todo b w) with
  | ProgSpec.Go _ _ s => exists k c, runs k = Ok c /\ MachineProps.shows (2 ^ n) cells (fst (fst (fst (fst s)))) (fst (fst (fst (fst (hst c))))) /\ pictured (snd (fst s)) (snd (fst (hst c))) /\
      pinned (snd s) (snd (hst c)) /\ (m <= 2 * k)%nat
  | ProgSpec.End s => exists k (calls : list (call (Loc host))) (st : St host), MachineProps.shows (2 ^ n) cells (fst (fst (fst (fst s)))) (fst (fst (fst (fst st)))) /\
      pictured (snd (fst s)) (snd (fst st)) /\ pinned (snd s) (snd st) /\ player (snd (fst (fst s))) (snd (fst (fst st))) /\
      forall j, runs (k + j)%nat = Ok (mkC (h := host) (Z.of_nat (length code)) [] calls 0 st)
  | Stops e => e <> ERR_INVALID_BC -> exists k, forall j, runs (k + j)%nat = Err e
  | Unspecified => True
  end.
Proof.
  intros errno test n elements labels sources prog code tbl its todo ks b g w s0 Hn He Hc Hl Sp P L Sz Sb Dl Pl Pc Pn cells host m. cbv zeta.
  assert (Lk : link errno None false test [] (init_labels (2 ^ labels)) (map (fun p => Tokens (ptoks p)) prog) = Ok (code, tbl, [])).
  { pose proof L as L1. unfold link_text in L1. rewrite (C67_source_partial _ _ Sp), reset_init, map_map in L1; [exact L1|]. apply Forall_map. eapply Forall_impl; [apply proper_short|exact P]. }
  destruct (link_program errno None test prog ltac:(discriminate) P [] _ _ _ eq_refl Lk) as (iss & U & E & T). cbn [app length] in E, T. change (Z.of_nat 0) with 0 in T.
  pose proof (program_uok prog P) as Uo. rewrite E in Sz.
  pose proof (start_ok n cells elements ltac:(lia) He eq_refl Hc) as S0.
  pose proof (tiles_agrees n cells Hn (statements prog) iss its tbl labels Hl Uo U Dl T Sz) as Ag. rewrite <- E in Ag.
  pose proof (run_program_sim _ _ _ _ _ _ Ag (ref_of None) (statements prog) m (ideal_tiles_start its todo b w) (machine_tiles_start (2 ^ n) elements ks g s0)
    (conj (conj (conj (conj S0 (start_reading (statements prog) iss its U Dl 0)) Pl) Pc) Pn)) as Sim.
  rewrite <- E in Sz.
  pose proof (C70_text_partial host titext errno None test labels sources prog code tbl ltac:(discriminate)
    ltac:(intros x y; cbn [same host machine_tiles machine_draw with_fun machine_ask machine_data attach machine]; destruct (mloc_eq x y); split; congruence) Hl Sp P L Sz Sb m (machine_tiles_start (2 ^ n) elements ks g s0)) as G. cbv zeta in G.
  fold host in Sim. destruct (run_program (ideal_tiles _ _ _ _) _ _ _ _ _) as [q fs s|s|e|]; cbn [mr] in Sim; [| | |exact I].
  - destruct Sim as (gs & t & Er & [[[[R1 _] _] R3] R4] & _). rewrite Er in G. destruct G as (k & c & G1 & G2 & G3). exists k, c. subst t. split; [exact G1|]. split; [apply SR_shows, R1|]. split; [exact R3|]. split; [exact R4|exact G3].
  - destruct Sim as (t & Er & [[[[R1 _] R2] R3] R4]). rewrite Er in G. destruct G as (k & calls & G). exists k, calls, t. split; [apply SR_shows, R1|]. split; [exact R3|]. split; [exact R4|]. split; [exact R2|exact G].
  - rewrite Sim in G. exact G.
Qed.
Print Assumptions C83_program_partial.


(** *** Example *)
Definition tile_prog : list pline :=
  [PLine (LOne (SCmd CMD_BGPUT [AE (eNu "0"); AE (eNu "65"); AE (eNu "127"); AE (eNu "1023"); AE (eNu "15"); AE (eNu "1"); AE (eNu "0")]));
   PLine (LSeq (SCmd CMD_BGREAD [AE (eNu "0"); AE (eNu "1"); AE (eNu "63"); AE (eNm "A$")]) (LSeq (SCmd CMD_BGPUT [AE (eNu "1"); AE (eNu "2"); AE (eNu "3"); AE (eNm "A$")]) (LOne (SCmd CMD_BGFILL [AE (eNu "0"); AE (eNu "5"); AE (eNu "70"); AE (eNu "3"); AE (eNu "61"); AE (eNu "7")]))));
   PLine (LSeq (SCmd CMD_BGCOPY [AE (eNu "0"); AE (eNu "1"); AE (eNu "62"); AE (eNu "4"); AE (eNu "63"); AE (eNu "2"); AE (eNu "0")]) (LOne (SCmd CMD_BGREAD [AE (eNu "0"); AE (eNu "2"); AE (eNu "1"); AE (eNm "C"); AE (eNm "P"); AE (eNm "H"); AE (eNm "V")])));
   PLine (LOne (SPrint [(Some (eNm "C"), OP_SEMICOLON); (Some (eNm "P"), OP_SEMICOLON); (Some (eNm "H"), OP_SEMICOLON); (Some (eNm "V"), OP_SEMICOLON)] (Some (eNm "A$"))));
   PLine (LSeq (SCmd CMD_BGPAGE [AE (eNu "1")]) (LSeq (SCmd CMD_BGREAD [AE (eNu "1"); AE (eNu "2"); AE (eNu "3"); AE (eNm "D")]) (LSeq (SPrint [] (Some (eNm "D"))) (LSeq (SCmd CMD_BGCLR []) (LSeq (SCmd CMD_BGPAGE [AE (eNu "0")]) (LOne (SCmd CMD_BGCLR [AE (eNu "1")])))))));
   PLine (LOne (SCmd CMD_BGPUT [AE (eNu "2"); AE (eNu "0"); AE (eNu "0"); AE (eNu "0")]))].
Definition tile_texts : list (list Z) := Eval vm_compute in map (fun s => letters s ++ [13])
  ["BGPUT 0,65,127,1023,15,1,0"; "BGREAD 0,1,63,A$:BGPUT 1,2,3,A$:BGFILL 0,5,70,3,61,7"; "BGCOPY 0,1,62,4,63,2,0:BGREAD 0,2,1,C,P,H,V"; "?C;P;H;V;A$"; "BGPAGE 1:BGREAD 1,2,3,D:?D:BGCLR:BGPAGE 0:BGCLR 1"; "BGPUT 2,0,0,0"].
Lemma blank_pinned : pinned blank_wall Background.init_bg.
Proof.
  split; [exact BackgroundProofs.wf_init|]. split; [exact BackgroundProofs.words_init|]. split; [reflexivity|]. intros p l x y Hp Hl Hx Hy.
  assert (B : Background.bank (turned Background.init_bg p) l = repeat 0 (Z.to_nat 4096)).
  { unfold Background.bank, turned, Background.init_bg. cbn [Background.scr]. generalize (repeat 0 (Z.to_nat 4096)). intros z. assert (p = 0 \/ p = 1) as [-> | ->] by lia; assert (l = 0 \/ l = 1) as [-> | ->] by lia; reflexivity. }
  unfold Background.bgread_word. replace (Background.bad_layer l) with false by (unfold Background.bad_layer; lia). rewrite B. unfold Background.peek.
  pose proof (BackgroundProofs.bg_index_range (x mod 64) (y mod 64) ltac:(unfold BackgroundProofs.tile_xy; lia)) as R. replace (_ && _) with true by lia. rewrite nth_repeat. reflexivity.
Qed.
Example C83_used : Forall2 line_spelled tile_texts (map ptoks tile_prog) /\ Forall proper_pline tile_prog /\ Forall (short_bounds None) (statements tile_prog) /\
  Forall2 data_line (statements tile_prog) (no_data tile_prog) /\ player [] [] /\ pictured blank_board blank_pages /\ pinned blank_wall Background.init_bg /\
  exists code tbl, link_text (fun _ => 0) None false (fun _ => None) (2 ^ 4) (concat tile_texts) = Ok (code, tbl, []) /\ (length code < 5000)%nat /\
  (exists q fs s, run_program (ideal_tiles (statements tile_prog) (no_data tile_prog) (2 ^ 4) (100 + 2 * 2 ^ 4)) (ref_of None) ideal_tiles_text (statements tile_prog) 13 (ideal_tiles_start (no_data tile_prog) [] blank_board blank_wall) = ProgSpec.Go q fs s /\
     firstn 12 (map fst (visible (page (fst (fst (fst (fst s))))))) = map to_wide (letters "10231510F7FF") /\
     w_page (snd s) = 0 /\ map (fun q => w_tile (snd s) 0 (fst (fst q)) (snd (fst q)) (snd q)) [(0, 1, 63); (0, 2, 1); (0, 2, 0); (0, 4, 62); (0, 5, 1); (1, 2, 3)] = [63487; 63487; 0; 7; 7; 0]) /\
  run_program (ideal_tiles (statements tile_prog) (no_data tile_prog) (2 ^ 4) (100 + 2 * 2 ^ 4)) (ref_of None) ideal_tiles_text (statements tile_prog) 60 (ideal_tiles_start (no_data tile_prog) [] blank_board blank_wall) = Stops ERR_OUT_OF_RANGE.
Proof.
  split; [|split; [|split; [|split; [|split; [|split; [|split]]]]]].
  - unfold tile_texts. change (map ptoks tile_prog) with (ltac:(let x := eval vm_compute in (map ptoks tile_prog) in exact x)). repeat apply Forall2_cons; [| | | | | | apply Forall2_nil].
    + lx (letters "BGPUT") ltac:(cmd 41%nat). lx (letters "0") kNum. lx (letters ",") ltac:(kOp 1%nat). lx (letters "65") kNum. lx (letters ",") ltac:(kOp 1%nat). lx (letters "127") kNum. lx (letters ",") ltac:(kOp 1%nat). lx (letters "1023") kNum. lx (letters ",") ltac:(kOp 1%nat). lx (letters "15") kNum. lx (letters ",") ltac:(kOp 1%nat). lx (letters "1") kNum. lx (letters ",") ltac:(kOp 1%nat). lx (letters "0") kNum. apply SpEnd.
    + lx (letters "BGREAD") ltac:(cmd 42%nat). lx (letters "0") kNum. lx (letters ",") ltac:(kOp 1%nat). lx (letters "1") kNum. lx (letters ",") ltac:(kOp 1%nat). lx (letters "63") kNum. lx (letters ",") ltac:(kOp 1%nat). lx (letters "A$") kName. lx (letters ":") ltac:(apply LxColon). lx (letters "BGPUT") ltac:(cmd 41%nat). lx (letters "1") kNum. lx (letters ",") ltac:(kOp 1%nat). lx (letters "2") kNum. lx (letters ",") ltac:(kOp 1%nat). lx (letters "3") kNum. lx (letters ",") ltac:(kOp 1%nat). lx (letters "A$") kName. lx (letters ":") ltac:(apply LxColon). lx (letters "BGFILL") ltac:(cmd 30%nat). lx (letters "0") kNum. lx (letters ",") ltac:(kOp 1%nat). lx (letters "5") kNum. lx (letters ",") ltac:(kOp 1%nat). lx (letters "70") kNum. lx (letters ",") ltac:(kOp 1%nat). lx (letters "3") kNum. lx (letters ",") ltac:(kOp 1%nat). lx (letters "61") kNum. lx (letters ",") ltac:(kOp 1%nat). lx (letters "7") kNum. apply SpEnd.
    + lx (letters "BGCOPY") ltac:(cmd 29%nat). lx (letters "0") kNum. lx (letters ",") ltac:(kOp 1%nat). lx (letters "1") kNum. lx (letters ",") ltac:(kOp 1%nat). lx (letters "62") kNum. lx (letters ",") ltac:(kOp 1%nat). lx (letters "4") kNum. lx (letters ",") ltac:(kOp 1%nat). lx (letters "63") kNum. lx (letters ",") ltac:(kOp 1%nat). lx (letters "2") kNum. lx (letters ",") ltac:(kOp 1%nat). lx (letters "0") kNum. lx (letters ":") ltac:(apply LxColon). lx (letters "BGREAD") ltac:(cmd 42%nat). lx (letters "0") kNum. lx (letters ",") ltac:(kOp 1%nat). lx (letters "2") kNum. lx (letters ",") ltac:(kOp 1%nat). lx (letters "1") kNum. lx (letters ",") ltac:(kOp 1%nat). lx (letters "C") kName. lx (letters ",") ltac:(kOp 1%nat). lx (letters "P") kName. lx (letters ",") ltac:(kOp 1%nat). lx (letters "H") kName. lx (letters ",") ltac:(kOp 1%nat). lx (letters "V") kName. apply SpEnd.
    + lx (letters "?") ltac:(apply LxQuestion). lx (letters "C") kName. lx (letters ";") ltac:(kOp 5%nat). lx (letters "P") kName. lx (letters ";") ltac:(kOp 5%nat). lx (letters "H") kName. lx (letters ";") ltac:(kOp 5%nat). lx (letters "V") kName. lx (letters ";") ltac:(kOp 5%nat). lx (letters "A$") kName. apply SpEnd.
    + lx (letters "BGPAGE") ltac:(cmd 40%nat). lx (letters "1") kNum. lx (letters ":") ltac:(apply LxColon). lx (letters "BGREAD") ltac:(cmd 42%nat). lx (letters "1") kNum. lx (letters ",") ltac:(kOp 1%nat). lx (letters "2") kNum. lx (letters ",") ltac:(kOp 1%nat). lx (letters "3") kNum. lx (letters ",") ltac:(kOp 1%nat). lx (letters "D") kName. lx (letters ":") ltac:(apply LxColon). lx (letters "?") ltac:(apply LxQuestion). lx (letters "D") kName. lx (letters ":") ltac:(apply LxColon). lx (letters "BGCLR") ltac:(cmd 28%nat). lx (letters ":") ltac:(apply LxColon). lx (letters "BGPAGE") ltac:(cmd 40%nat). lx (letters "0") kNum. lx (letters ":") ltac:(apply LxColon). lx (letters "BGCLR") ltac:(cmd 28%nat). lx (letters "1") kNum. apply SpEnd.
    + lx (letters "BGPUT") ltac:(cmd 41%nat). lx (letters "2") kNum. lx (letters ",") ltac:(kOp 1%nat). lx (letters "0") kNum. lx (letters ",") ltac:(kOp 1%nat). lx (letters "0") kNum. lx (letters ",") ltac:(kOp 1%nat). lx (letters "0") kNum. apply SpEnd.
  - unfold tile_prog, proper_pline, proper_line, plain_line, plain_stmt, basic. prop_tac. all: first [left; split; [reflexivity|lia] | right; prop_tac].
  - change (statements tile_prog) with (ltac:(let x := eval vm_compute in (statements tile_prog) in exact x)). repeat (apply Forall_cons; [first [exact I | intros ic Q; vm_compute in Q; injection Q as <-; cbn; lia]|]). apply Forall_nil.
  - unfold no_data. change (statements tile_prog) with (ltac:(let x := eval vm_compute in (statements tile_prog) in exact x)). cbn [map]. repeat (apply Forall2_cons; [reflexivity|]). apply Forall2_nil.
  - apply player_done.
  - exact blank_pictured.
  - exact blank_pinned.
  - do 2 eexists. split; [vm_compute; reflexivity|]. split; [cbn; lia|]. split.
    2:{ assert (C : match run_program (ideal_tiles (statements tile_prog) (no_data tile_prog) (2 ^ 4) (100 + 2 * 2 ^ 4)) (ref_of None) ideal_tiles_text (statements tile_prog) 60 (ideal_tiles_start (no_data tile_prog) [] blank_board blank_wall) with
                Stops ERR_OUT_OF_RANGE => True | _ => False end) by (vm_compute; exact I).
      destruct (run_program _ _ _ _ _ _) as [| |e|]; try contradiction. destruct e; try contradiction. reflexivity. }
    assert (C : match run_program (ideal_tiles (statements tile_prog) (no_data tile_prog) (2 ^ 4) (100 + 2 * 2 ^ 4)) (ref_of None) ideal_tiles_text (statements tile_prog) 13 (ideal_tiles_start (no_data tile_prog) [] blank_board blank_wall) with
                ProgSpec.Go _ _ s => firstn 12 (map fst (visible (page (fst (fst (fst (fst s))))))) = map to_wide (letters "10231510F7FF") /\
     w_page (snd s) = 0 /\ map (fun q => w_tile (snd s) 0 (fst (fst q)) (snd (fst q)) (snd q)) [(0, 1, 63); (0, 2, 1); (0, 2, 0); (0, 4, 62); (0, 5, 1); (1, 2, 3)] = [63487; 63487; 0; 7; 7; 0] | _ => False end) by (vm_compute; auto).
    destruct (run_program _ _ _ _ _ _) as [q fs s| s | |]; try contradiction. exists q, fs, s. split; [reflexivity|exact C].
Qed.
