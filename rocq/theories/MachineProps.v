(** C71: from the text of a program to its variables and the screen. *)
From Coq Require Import String Ascii.
From Verif Require Import Base BaseLemmas Tokens ExprSpec NumText Hash HashProofs Labels LabelsProofs Bytecode BytecodeSpec BytecodeProofs Runner RunnerSpec StmtSpec ExecProofs FlowSpec FlowProofs FlowLine FlowDemo ForSpec ProgSpec Lexer LexSpec LexProofs LexProps Link ProgProofs ProgSim ProgEnd ProgProps.
From Verif Require Import Codes Vars Strs Console ConsoleSpec ConsoleProofs Machine Ideal HostSim MachineSim MachineHost.
Local Open Scope string_scope.
Local Open Scope list_scope.
Open Scope Z_scope.

(** what is at a place of the machine *)
Definition contents (m : mstate) (l : mloc) : thing :=
  match mget m l with VNum z => Number z | VStr h => Words (nth (Z.to_nat h) (texts m) []) | _ => Number 0 end.
(** The machine shows the state of the ideal computer: reading any variable [w] or array element [w(i)], [w(i,j)] gives the same number
    or text (or the same error), the screen and its colours are the visible part of the page, the cursor is where it should be. *)
Definition reads_alike (x : outcome (bool * iloc * istate)) (y : outcome (bool * mloc * mstate)) : Prop :=
  match x with
  | Ok (text, l, s) => exists p st, y = Ok (text, p, st) /\ contents st p = get s l
  | Err e => y = Err e
  | UB => True
  end.
Definition shows (max cells : Z) (s : istate) (st : mstate) : Prop :=
  (forall w, reads_alike (ivar max (ByName false w) s) (mvar (ByName false w) st)) /\
  (forall w i, reads_alike (iarr max cells (ByName false w) [EN i] s) (marr (ByName false w) [EN i] st)) /\
  (forall w i j, reads_alike (iarr max cells (ByName false w) [EN i; EN j] s) (marr (ByName false w) [EN i; EN j] st)) /\
  text (mcon st) = map fst (visible (page s)) /\ color (mcon st) = map snd (visible (page s)) /\
  ConsoleSpec.pos (page s) = top (page s) + 32 * cy (mcon st) + cx (mcon st) /\ 0 <= cx (mcon st) < 32.

Lemma reads n cells i m x y : MachineSim.SR n cells i m ->
  okr (on_place (ideal (2 ^ n) cells) machine (MachineSim.SR n cells) (MachineSim.LR n) i m) x y -> reads_alike x y.
Proof.
  intros S G. destruct x as [[[b l] t1]|e|]; cbn [okr reads_alike] in *; [|exact G|exact I]. destruct G as ([[c p] t2] & -> & (-> & (S2 & _) & L)). exists p, t2. split; [reflexivity|].
  pose proof (get_rel _ _ _ _ _ _ _ S2 L) as V. unfold contents. destruct (get t1 l), (mget t2 p); cbn [vrel] in V; try contradiction; [congruence|]. destruct V as [_ ->]. reflexivity.
Qed.
Lemma SR_shows n cells i m : MachineSim.SR n cells i m -> shows (2 ^ n) cells i m.
Proof.
  intros S. unfold shows. split; [|split; [|split]].
  - intros w. apply (reads n cells _ _ _ _ S). apply var_ok, S.
  - intros w x. apply (reads n cells _ _ _ _ S). apply arr_ok; [exact S|]. repeat constructor.
  - intros w x y. apply (reads n cells _ _ _ _ S). apply arr_ok; [exact S|]. repeat constructor.
  - destruct S as (s & _ & _ & (C & _) & _). destruct C as (_ & _ & T & K & _ & _ & _ & _ & P & X & _). auto.
Qed.

(** ** C71: the machine made of the lexer, the compiler, the interpreter loop, the variable table, the array memory, the numbers, the strings and the
    console runs a program text the way the ideal computer (Ideal.v) runs its statements, from an empty machine, for as long as it runs.
    Missing from the full statement: what C70 leaves out; statements the ideal computer leaves unspecified (functions, system variables and commands
    not in Codes.v, -524288 negated, numbers whose fraction prints wrong (C10), MID$ beyond 32767, DIM with a negative size, ...); the exhaustion of the string memory. *)
Theorem C71_text_partial : forall errno test n elements labels sources prog code tbl,
  0 <= n <= 18 -> 0 <= elements -> elements + 2 * 2 ^ n < 2 ^ 30 -> 0 <= labels ->
  Forall2 line_spelled sources (map ptoks prog) -> Forall proper_pline prog -> link_text errno None false test (2 ^ labels) (concat sources) = Ok (code, tbl, []) ->
  Z.of_nat (length code) < 16777216 -> Forall (short_bounds None) (statements prog) ->
  let cells := elements + 2 * 2 ^ n in
  forall m, let runs k := Link.run (table_lab machine mtext tbl) code k (mkC (h := machine) 0 [] [] 0 (machine_start (2 ^ n) elements)) in
  match run_program (ideal (2 ^ n) cells) (ref_of None) ideal_text (statements prog) m ideal_start with
  | ProgSpec.Go _ _ s => exists k c, runs k = Ok c /\ shows (2 ^ n) cells s (hst c) /\ (m <= 2 * k)%nat
  | ProgSpec.End s => exists k (calls : list (call (Loc machine))) (st : mstate), shows (2 ^ n) cells s st /\ forall j, runs (k + j)%nat = Ok (mkC (h := machine) (Z.of_nat (length code)) [] calls 0 st)
  | Stops e => e <> ERR_INVALID_BC -> exists k, forall j, runs (k + j)%nat = Err e
  | Unspecified => True
  end.
Proof.
  intros errno test n elements labels sources prog code tbl Hn He Hc Hl Sp P L Sz Sb cells m. cbv zeta.
  pose proof (start_ok n cells elements ltac:(lia) He eq_refl Hc) as S0.
  pose proof (run_program_sim _ _ _ _ _ _ (machine_agrees n cells ltac:(lia)) (ref_of None) (statements prog) m _ _ S0) as Sim.
  pose proof (C70_text_partial machine mtext errno None test labels sources prog code tbl ltac:(discriminate)
    ltac:(intros a b; cbn [same machine]; destruct (mloc_eq a b); split; congruence) Hl Sp P L Sz Sb m (machine_start (2 ^ n) elements)) as G. cbv zeta in G.
  destruct (run_program (ideal _ _) _ _ _ _ _) as [q fs s|s|e|]; cbn [mr] in Sim; [| | |exact I].
  - destruct Sim as (gs & t & E & R' & _). rewrite E in G. destruct G as (k & c & G1 & G2 & G3). exists k, c. subst t. split; [exact G1|]. split; [apply SR_shows, R'|exact G3].
  - destruct Sim as (t & E & R'). rewrite E in G. destruct G as (k & calls & G). exists k, calls, t. split; [apply SR_shows, R'|exact G].
  - rewrite Sim in G. exact G.
Qed.
Print Assumptions C71_text_partial.

(** *** Example: a program with a loop, an array, texts and PRINT, and the screen it leaves *)
Definition eSt (s : String.string) : expr := Atom string (LexSpec.len (letters s)) (letters s).
Definition eAt (s : String.string) (e : expr) : expr := ExprSpec.Call false (LexSpec.len (letters s)) (letters s) false [e].
Definition screen_prog : list pline :=
  [PLine (LOne (SDim [eAt "A" (eNu "4")]));
   PLine (LOne (SFor (eNm "I") (eNu "1") (eNu "3") None));
   PLine (LSeq (SLet (eAt "A" (eNm "I")) (Bin OP_MULTIPLY (eNm "I") (eNu "1.5"))) (LOne (SLet (eNm "S$") (Bin OP_ADD (eNm "S$") (eSt "AB")))));
   PLine (LOne (SCmd CMD_NEXT []));
   PLine (LSeq (SCmd CMD_LOCATE [AE (eNu "2"); AE (eNu "1")]) (LOne (SPrint [(Some (eNm "S$"), OP_SEMICOLON); (Some (ExprSpec.Call true FUNC_LEN [] false [eNm "S$"]), OP_SEMICOLON)] (Some (eAt "A" (eNu "3"))))))].
Definition screen_texts : list (list Z) := Eval vm_compute in map (fun s => letters s ++ [13])
  ["DIM A(4)"; "FOR I=1 TO 3"; "A(I)=I*1.5:S$=S$+""AB"""; "NEXT"; "LOCATE 2,1:?S$;LEN(S$);A(3)"].
Definition screen_linked := Eval vm_compute in link_text (fun _ => 0) None false (fun _ => None) (2 ^ 4) (concat screen_texts).
(** the screen afterwards: ABABAB64.5 at column 2 of row 1 *)
Example C71_used : Forall2 line_spelled screen_texts (map ptoks screen_prog) /\ Forall proper_pline screen_prog /\ Forall (short_bounds None) (statements screen_prog) /\
  exists code tbl, link_text (fun _ => 0) None false (fun _ => None) (2 ^ 4) (concat screen_texts) = Ok (code, tbl, []) /\ (length code < 5000)%nat /\
  (exists s, run_program (ideal (2 ^ 4) (100 + 2 * 2 ^ 4)) (ref_of None) ideal_text (statements screen_prog) 60 ideal_start = ProgSpec.End s /\
     firstn 12 (skipn 33 (map fst (visible (page s)))) = [0] ++ map to_wide (letters "ABABAB64.5") ++ [0]).
Proof.
  split; [|split; [|split; [|]]].
  - unfold screen_texts. change (map ptoks screen_prog) with (ltac:(let x := eval vm_compute in (map ptoks screen_prog) in exact x)). repeat apply Forall2_cons; [| | | | |apply Forall2_nil].
    + lx (letters "DIM") ltac:(cmd 3%nat). lx (letters "A") kName. lx (letters "(") ltac:(kOp 20%nat). lx (letters "4") kNum. lx (letters ")") ltac:(kOp 21%nat). apply SpEnd.
    + lx (letters "FOR") ltac:(cmd 4%nat). lx (letters "I") kName. lx (letters "=") ltac:(kOp 6%nat). lx (letters "1") kNum. lx (letters "TO") ltac:(cmd 5%nat). lx (letters "3") kNum. apply SpEnd.
    + lx (letters "A") kName. lx (letters "(") ltac:(kOp 20%nat). lx (letters "I") kName. lx (letters ")") ltac:(kOp 21%nat). lx (letters "=") ltac:(kOp 6%nat). lx (letters "I") kName. lx (letters "*") ltac:(kOp 3%nat).
      lx (letters "1.5") kNum. lx (letters ":") ltac:(apply LxColon). lx (letters "S$") kName. lx (letters "=") ltac:(kOp 6%nat). lx (letters "S$") kName. lx (letters "+") ltac:(kOp 0%nat).
      lx (letters """AB""") ltac:(apply (LxString (letters "AB")); [cbn; lia|vm_compute; intuition discriminate|vm_compute; intuition discriminate]). apply SpEnd.
    + lx (letters "NEXT") ltac:(cmd 7%nat). apply SpEnd.
    + lx (letters "LOCATE") ltac:(cmd 1%nat). lx (letters "2") kNum. lx (letters ",") ltac:(kOp 1%nat). lx (letters "1") kNum. lx (letters ":") ltac:(apply LxColon).
      lx (letters "?") ltac:(apply LxQuestion). lx (letters "S$") kName. lx (letters ";") ltac:(kOp 5%nat). lx (letters "LEN") ltac:(apply (LxFunction _ 20%nat); reflexivity).
      lx (letters "(") ltac:(kOp 20%nat). lx (letters "S$") kName. lx (letters ")") ltac:(kOp 21%nat). lx (letters ";") ltac:(kOp 5%nat).
      lx (letters "A") kName. lx (letters "(") ltac:(kOp 20%nat). lx (letters "3") kNum. lx (letters ")") ltac:(kOp 21%nat). apply SpEnd.
  - unfold screen_prog, proper_pline, proper_line, plain_line, plain_stmt, basic. prop_tac. all: first [left; split; [reflexivity|lia] | right; prop_tac].
  - change (statements screen_prog) with (ltac:(let x := eval vm_compute in (statements screen_prog) in exact x)). repeat (apply Forall_cons; [first [exact I | intros ic Q; vm_compute in Q; injection Q as <-; cbn; lia]|]). apply Forall_nil.
  - do 2 eexists. split; [vm_compute; reflexivity|]. split; [cbn; lia|].
    assert (C : match run_program (ideal (2 ^ 4) (100 + 2 * 2 ^ 4)) (ref_of None) ideal_text (statements screen_prog) 60 ideal_start with
                ProgSpec.End s => firstn 12 (skipn 33 (map fst (visible (page s)))) = [0] ++ map to_wide (letters "ABABAB64.5") ++ [0] | _ => False end) by (vm_compute; reflexivity).
    destruct (run_program _ _ _ _ _ _) as [| s | |]; try contradiction. exists s. split; [reflexivity|exact C].
Qed.
