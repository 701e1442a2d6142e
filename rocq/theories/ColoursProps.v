(** C84: programs with palettes, from their text to the colours. *)
From Coq Require Import String Ascii.
From Verif Require Import Base BaseLemmas Tokens ExprSpec NumText Hash HashProofs Labels LabelsProofs Bytecode BytecodeSpec BytecodeProofs Runner RunnerSpec StmtSpec ExecProofs FlowSpec FlowProofs FlowLine FlowDemo ForSpec ProgSpec Lexer LexSpec LexProofs LexProps Link ProgProofs ProgSim ProgEnd ProgProps.
From Verif Require Import Codes Vars Strs Data DataSpec Console ConsoleSpec ConsoleProofs Machine Ideal HostSim MachineSim MachineHost MachineProps HostData MachineData IdealData DataHost.
From Verif Require Import LineInput LineInputSpec Ask IdealAsk AskHost Draw IdealDraw DrawProofs DrawHost DrawProps Tiles IdealTiles TilesProofs TilesHost TilesProps Colours IdealColours ColoursProofs.
From Verif Require ChrCol Resources Background BackgroundProofs Graphics GraphicsSpec GraphicsProps.
Ltac Zify.zify_post_hook ::= Z.div_mod_to_equations.
Local Open Scope string_scope.
Local Open Scope list_scope.
Open Scope Z_scope.

(** ** C84: the machine of C83 with the palettes [r], run from a program text, does what the ideal computer does that has 256 colours for the background, the sprites and the graphics of each
    screen ([h]): COLSET mixes a colour from six hexadecimal digits (kept to 5, 6 and 5 bits) for the screen BGPAGE or GPAGE has chosen, COLREAD stores red, green and blue in three variables;
    numbers out of range, other names and other texts stop the program with the error; in the end (and after every statement) COLREAD would tell the ideal colour for every entry of every palette.
    Missing from the full statement: what C83 leaves out; SPPAGE (sprite palettes are the upper screen's); COLINIT; that the picture shows the new colours (C72, DisplayFrame);
    a wrong number of arguments. *)
Theorem C84_program_partial : forall errno test n elements labels sources prog code tbl its todo ks b g w s0 h r0,
  0 <= n <= 18 -> 0 <= elements -> elements + 2 * 2 ^ n < 2 ^ 30 -> 0 <= labels ->
  Forall2 line_spelled sources (map ptoks prog) -> Forall proper_pline prog -> link_text errno None false test (2 ^ labels) (concat sources) = Ok (code, tbl, []) ->
  Z.of_nat (length code) < 16777216 -> Forall (short_bounds None) (statements prog) -> Forall2 data_line (statements prog) its -> player todo ks -> pictured b g -> pinned w s0 -> dyed h r0 ->
  let cells := elements + 2 * 2 ^ n in let host := machine_colours code tbl in
  forall m, let runs k := Link.run (table_lab host cotext tbl) code k (mkC (h := host) 0 [] [] 0 (machine_colours_start (2 ^ n) elements ks g s0 r0)) in
  match run_program (ideal_colours (statements prog) its (2 ^ n) cells) (ref_of None) ideal_colours_text (statements prog) m (ideal_colours_start its todo b w h) with
  | ProgSpec.Go _ _ s => exists k c, runs k = Ok c /\ MachineProps.shows (2 ^ n) cells (fst (fst (fst (fst (fst s))))) (fst (fst (fst (fst (fst (hst c)))))) /\
      pictured (snd (fst (fst s))) (snd (fst (fst (hst c)))) /\ pinned (snd (fst s)) (snd (fst (hst c))) /\ dyed (snd s) (snd (hst c)) /\ (m <= 2 * k)%nat
  | ProgSpec.End s => exists k (calls : list (call (Loc host))) (st : St host), MachineProps.shows (2 ^ n) cells (fst (fst (fst (fst (fst s))))) (fst (fst (fst (fst (fst st))))) /\
      pictured (snd (fst (fst s))) (snd (fst (fst st))) /\ pinned (snd (fst s)) (snd (fst st)) /\ dyed (snd s) (snd st) /\ player (snd (fst (fst (fst s)))) (snd (fst (fst (fst st)))) /\
      forall j, runs (k + j)%nat = Ok (mkC (h := host) (Z.of_nat (length code)) [] calls 0 st)
  | Stops e => e <> ERR_INVALID_BC -> exists k, forall j, runs (k + j)%nat = Err e
  | Unspecified => True
  end.
Proof.
  intros errno test n elements labels sources prog code tbl its todo ks b g w s0 h r0 Hn He Hc Hl Sp P L Sz Sb Dl Pl Pc Pn Dy cells host m. cbv zeta.
  assert (Lk : link errno None false test [] (init_labels (2 ^ labels)) (map (fun p => Tokens (ptoks p)) prog) = Ok (code, tbl, [])).
  { pose proof L as L1. unfold link_text in L1. rewrite (C67_source_partial _ _ Sp), reset_init, map_map in L1; [exact L1|]. apply Forall_map. eapply Forall_impl; [apply proper_short|exact P]. }
  destruct (link_program errno None test prog ltac:(discriminate) P [] _ _ _ eq_refl Lk) as (iss & U & E & T). cbn [app length] in E, T. change (Z.of_nat 0) with 0 in T.
  pose proof (program_uok prog P) as Uo. rewrite E in Sz.
  pose proof (start_ok n cells elements ltac:(lia) He eq_refl Hc) as S0.
  pose proof (colours_agrees n cells Hn (statements prog) iss its tbl labels Hl Uo U Dl T Sz) as Ag. rewrite <- E in Ag.
  pose proof (run_program_sim _ _ _ _ _ _ Ag (ref_of None) (statements prog) m (ideal_colours_start its todo b w h) (machine_colours_start (2 ^ n) elements ks g s0 r0)
    (conj (conj (conj (conj (conj S0 (start_reading (statements prog) iss its U Dl 0)) Pl) Pc) Pn) Dy)) as Sim.
  rewrite <- E in Sz.
  pose proof (C70_text_partial host cotext errno None test labels sources prog code tbl ltac:(discriminate)
    ltac:(intros x y; cbn [same host machine_colours machine_tiles machine_draw with_fun machine_ask machine_data attach machine]; destruct (mloc_eq x y); split; congruence) Hl Sp P L Sz Sb m (machine_colours_start (2 ^ n) elements ks g s0 r0)) as G. cbv zeta in G.
  fold host in Sim. destruct (run_program (ideal_colours _ _ _ _) _ _ _ _ _) as [q fs s|s|e|]; cbn [mr] in Sim; [| | |exact I].
  - destruct Sim as (gs & t & Er & [[[[[R1 _] _] R3] R4] R5] & _). rewrite Er in G. destruct G as (k & c & G1 & G2 & G3). exists k, c. subst t. split; [exact G1|]. split; [apply SR_shows, R1|]. split; [exact R3|]. split; [exact R4|]. split; [exact R5|exact G3].
  - destruct Sim as (t & Er & [[[[[R1 _] R2] R3] R4] R5]). rewrite Er in G. destruct G as (k & calls & G). exists k, calls, t. split; [apply SR_shows, R1|]. split; [exact R3|]. split; [exact R4|]. split; [exact R5|]. split; [exact R2|exact G].
  - rewrite Sim in G. exact G.
Qed.
Print Assumptions C84_program_partial.



(** *** Example *)
Definition colour_prog : list pline :=
  [PLine (LSeq (SLet (eNm "A$") (eSt "BG")) (LOne (SCmd CMD_COLSET [AE (eNm "A$"); AE (eNu "5"); AE (eSt "FF8013")])));
   PLine (LSeq (SCmd CMD_COLREAD [AE (eNm "A$"); AE (eNu "5"); AE (eNm "R"); AE (eNm "G"); AE (eNm "B")]) (LOne (SPrint [(Some (eNm "R"), OP_SEMICOLON); (Some (eNm "G"), OP_SEMICOLON)] (Some (eNm "B")))));
   PLine (LSeq (SCmd CMD_BGPAGE [AE (eNu "1")]) (LSeq (SCmd CMD_COLREAD [AE (eNm "A$"); AE (eNu "5"); AE (eNm "R"); AE (eNm "G"); AE (eNm "B")]) (LOne (SPrint [(Some (eNm "R"), OP_SEMICOLON); (Some (eNm "G"), OP_SEMICOLON)] (Some (eNm "B"))))));
   PLine (LOne (SCmd CMD_COLSET [AE (eSt "XX"); AE (eNu "5"); AE (eSt "000000")]))].
Definition colour_texts : list (list Z) := Eval vm_compute in map (fun s => letters s ++ [13])
  ["A$=""BG"":COLSET A$,5,""FF8013"""; "COLREAD A$,5,R,G,B:?R;G;B"; "BGPAGE 1:COLREAD A$,5,R,G,B:?R;G;B"; "COLSET ""XX"",5,""000000"""].
Definition black_paint : paint := fun _ _ _ => (0, 0, 0).
Definition black_banks : banks := ChrCol.mkBanks (fun _ => []) (fun _ => repeat 0 256).
Lemma black_dyed : dyed black_paint black_banks.
Proof.
  split; [intros j _; apply repeat_length|]. intros k s n Hk Hs Hn.
  rewrite (read_entry (Resources.mkPages s s s) (palette_name k) (3 * s + k) black_banks (4096 * n) (SChar (palette_name k))).
  - cbn [black_banks ChrCol.col]. rewrite nth_repeat. reflexivity.
  - unfold ResourcesProps.page_ok. cbn. lia.
  - apply name_palette, Hk.
  - apply spell_name, Hk.
  - apply repeat_length.
  - rewrite whole_fp. exact Hn.
Qed.
Ltac kString s := apply (LxString (letters s)); [cbn; lia|vm_compute; intuition discriminate|vm_compute; intuition discriminate].
Ltac comma := lx (letters ",") ltac:(kOp 1%nat).
Example C84_used : Forall2 line_spelled colour_texts (map ptoks colour_prog) /\ Forall proper_pline colour_prog /\ Forall (short_bounds None) (statements colour_prog) /\
  Forall2 data_line (statements colour_prog) (no_data colour_prog) /\ player [] [] /\ pictured blank_board blank_pages /\ pinned blank_wall Background.init_bg /\ dyed black_paint black_banks /\
  exists code tbl, link_text (fun _ => 0) None false (fun _ => None) (2 ^ 4) (concat colour_texts) = Ok (code, tbl, []) /\ (length code < 5000)%nat /\
  (exists q fs s, run_program (ideal_colours (statements colour_prog) (no_data colour_prog) (2 ^ 4) (100 + 2 * 2 ^ 4)) (ref_of None) ideal_colours_text (statements colour_prog) 7 (ideal_colours_start (no_data colour_prog) [] blank_board blank_wall black_paint) = ProgSpec.Go q fs s /\
     firstn 8 (map fst (visible (page (fst (fst (fst (fst (fst s)))))))) = map to_wide (letters "25513016") /\ nth 32 (map fst (visible (page (fst (fst (fst (fst (fst s)))))))) 0 = to_wide 48 /\
     map (fun q => snd s (fst (fst q)) (snd (fst q)) (snd q)) [(0, 0, 5); (0, 1, 5); (2, 0, 5); (0, 0, 6)] = [(255, 130, 16); (0, 0, 0); (0, 0, 0); (0, 0, 0)]) /\
  run_program (ideal_colours (statements colour_prog) (no_data colour_prog) (2 ^ 4) (100 + 2 * 2 ^ 4)) (ref_of None) ideal_colours_text (statements colour_prog) 60 (ideal_colours_start (no_data colour_prog) [] blank_board blank_wall black_paint) = Stops ERR_INVALID_RESOURCE_TYPE.
Proof.
  split; [|split; [|split; [|split; [|split; [|split; [|split; [|split]]]]]]].
  - unfold colour_texts. change (map ptoks colour_prog) with (ltac:(let x := eval vm_compute in (map ptoks colour_prog) in exact x)). repeat apply Forall2_cons; [| | | | apply Forall2_nil].
    + lx (letters "A$") kName. lx (letters "=") ltac:(kOp 6%nat). lx (letters """BG""") ltac:(kString "BG"). lx (letters ":") ltac:(apply LxColon). lx (letters "COLSET") ltac:(cmd 50%nat). lx (letters "A$") kName. comma. lx (letters "5") kNum. comma. lx (letters """FF8013""") ltac:(kString "FF8013"). apply SpEnd.
    + lx (letters "COLREAD") ltac:(cmd 49%nat). lx (letters "A$") kName. comma. lx (letters "5") kNum. comma. lx (letters "R") kName. comma. lx (letters "G") kName. comma. lx (letters "B") kName. lx (letters ":") ltac:(apply LxColon).
      lx (letters "?") ltac:(apply LxQuestion). lx (letters "R") kName. lx (letters ";") ltac:(kOp 5%nat). lx (letters "G") kName. lx (letters ";") ltac:(kOp 5%nat). lx (letters "B") kName. apply SpEnd.
    + lx (letters "BGPAGE") ltac:(cmd 40%nat). lx (letters "1") kNum. lx (letters ":") ltac:(apply LxColon). lx (letters "COLREAD") ltac:(cmd 49%nat). lx (letters "A$") kName. comma. lx (letters "5") kNum. comma. lx (letters "R") kName. comma. lx (letters "G") kName. comma. lx (letters "B") kName. lx (letters ":") ltac:(apply LxColon).
      lx (letters "?") ltac:(apply LxQuestion). lx (letters "R") kName. lx (letters ";") ltac:(kOp 5%nat). lx (letters "G") kName. lx (letters ";") ltac:(kOp 5%nat). lx (letters "B") kName. apply SpEnd.
    + lx (letters "COLSET") ltac:(cmd 50%nat). lx (letters """XX""") ltac:(kString "XX"). comma. lx (letters "5") kNum. comma. lx (letters """000000""") ltac:(kString "000000"). apply SpEnd.
  - unfold colour_prog, proper_pline, proper_line, plain_line, plain_stmt, basic. prop_tac. all: first [left; split; [reflexivity|lia] | right; prop_tac].
  - change (statements colour_prog) with (ltac:(let x := eval vm_compute in (statements colour_prog) in exact x)). repeat (apply Forall_cons; [first [exact I | intros ic Q; vm_compute in Q; injection Q as <-; cbn; lia]|]). apply Forall_nil.
  - unfold no_data. change (statements colour_prog) with (ltac:(let x := eval vm_compute in (statements colour_prog) in exact x)). cbn [map]. repeat (apply Forall2_cons; [reflexivity|]). apply Forall2_nil.
  - apply player_done.
  - exact blank_pictured.
  - exact blank_pinned.
  - exact black_dyed.
  - do 2 eexists. split; [vm_compute; reflexivity|]. split; [cbn; lia|]. split.
    2:{ assert (C : match run_program (ideal_colours (statements colour_prog) (no_data colour_prog) (2 ^ 4) (100 + 2 * 2 ^ 4)) (ref_of None) ideal_colours_text (statements colour_prog) 60 (ideal_colours_start (no_data colour_prog) [] blank_board blank_wall black_paint) with
                Stops ERR_INVALID_RESOURCE_TYPE => True | _ => False end) by (vm_compute; exact I).
      destruct (run_program _ _ _ _ _ _) as [| |e|]; try contradiction. destruct e; try contradiction. reflexivity. }
    assert (C : match run_program (ideal_colours (statements colour_prog) (no_data colour_prog) (2 ^ 4) (100 + 2 * 2 ^ 4)) (ref_of None) ideal_colours_text (statements colour_prog) 7 (ideal_colours_start (no_data colour_prog) [] blank_board blank_wall black_paint) with
                ProgSpec.Go _ _ s => firstn 8 (map fst (visible (page (fst (fst (fst (fst (fst s)))))))) = map to_wide (letters "25513016") /\ nth 32 (map fst (visible (page (fst (fst (fst (fst (fst s)))))))) 0 = to_wide 48 /\
     map (fun q => snd s (fst (fst q)) (snd (fst q)) (snd q)) [(0, 0, 5); (0, 1, 5); (2, 0, 5); (0, 0, 6)] = [(255, 130, 16); (0, 0, 0); (0, 0, 0); (0, 0, 0)] | _ => False end) by (vm_compute; auto).
    destruct (run_program _ _ _ _ _ _) as [q fs s| s | |]; try contradiction. exists q, fs, s. split; [reflexivity|exact C].
Qed.
