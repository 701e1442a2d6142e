(** C81: direct mode. *)
From Coq Require Import String Ascii.
From Verif Require Import Base BaseLemmas Tokens ExprSpec NumText Hash HashProofs Labels LabelsProofs Bytecode BytecodeSpec BytecodeProofs Runner RunnerSpec StmtSpec ExecProofs FlowSpec FlowProofs FlowLine FlowDemo ForSpec ProgSpec Lexer LexSpec LexProofs LexProps Link ProgProofs ProgSim ProgEnd ProgProps.
From Verif Require Import Codes Vars Strs Data DataSpec Console ConsoleSpec ConsoleProofs Machine Ideal HostSim MachineSim MachineHost MachineProps HostData MachineData IdealData DataHost.
From Verif Require Acls.
From Verif Require Import LineInput LineInputSpec LineInputProps LineInputFields Ask IdealAsk AskProofs AskHost AskProps Direct IdealDirect DirectProofs.
Local Open Scope string_scope.
Local Open Scope list_scope.
Open Scope Z_scope.

(** ** C81: from the moment it is switched on, the computer asks for a line, keeps it in CODE$, carries it out once, on the variables, arrays and screen the lines before
    have left, says OK (or Unknown transition, if the line has a character that belongs to no word, or the message of the error the compiler refuses the line with, and then does
    nothing else), and asks again; the questions of INPUT
    and LINPUT in a line are answered by what is typed next.
    Missing from the full statement: what C80 leaves out; what happens after a line has raised an error (its message is given, but the machine keeps no state there);
    breaking off (C81_break_repeats_refuted); RUN, the editor, shutting down, REM BENCH and REM LABEL. *)
Theorem C81_direct_partial : forall errno test n elements labels k todo ks s' todo',
  0 <= n <= 18 -> 0 <= elements -> elements + 2 * 2 ^ n < 2 ^ 30 -> 0 <= labels ->
  let cells := elements + 2 * 2 ^ n in
  session errno test labels (2 ^ n) cells k (switched_on, todo) (s', todo') -> player todo ks ->
  exists m f m' ks', direct_start (2 ^ n) elements = Ok m /\ (forall fuel, (f <= fuel)%nat -> direct errno test (2 ^ labels) fuel k m ks = Ok (Some (m', ks'))) /\
    MachineProps.shows (2 ^ n) cells s' m' /\ player todo' ks'.
Proof.
  intros errno test n elements labels k todo ks s' todo' Hn He Hc Hl cells X P. destruct (start_direct n cells Hn elements He eq_refl Hc) as (m & E & S).
  destruct (session_ok n cells labels Hn Hl errno test k _ _ _ _ m ks X S P) as (f & m' & ks' & G & S' & P'). exists m, f, m', ks'. split; [exact E|]. split; [exact G|]. split; [apply SR_shows, S'|exact P'].
Qed.
Print Assumptions C81_direct_partial.
(** at any later moment too: one line more, on a machine that shows the ideal computer's state so far *)
Theorem C81_next_line_partial : forall errno test n elements labels k todo ks s1 todo1 s2 todo2,
  0 <= n <= 18 -> 0 <= elements -> elements + 2 * 2 ^ n < 2 ^ 30 -> 0 <= labels ->
  let cells := elements + 2 * 2 ^ n in
  session errno test labels (2 ^ n) cells k (switched_on, todo) (s1, todo1) -> turn errno test labels (2 ^ n) cells (s1, todo1) (s2, todo2) -> player todo ks ->
  exists m f m1 ks1 m2 ks2, direct_start (2 ^ n) elements = Ok m /\ forall fuel, (f <= fuel)%nat -> direct errno test (2 ^ labels) fuel k m ks = Ok (Some (m1, ks1)) /\
    direct_turn errno test (2 ^ labels) fuel m1 ks1 = Ok (Some (m2, ks2)) /\ MachineProps.shows (2 ^ n) cells s1 m1 /\ MachineProps.shows (2 ^ n) cells s2 m2.
Proof.
  intros errno test n elements labels k todo ks s1 todo1 s2 todo2 Hn He Hc Hl cells X T P. destruct (start_direct n cells Hn elements He eq_refl Hc) as (m & E & S).
  destruct (session_ok n cells labels Hn Hl errno test k _ _ _ _ m ks X S P) as (f1 & m1 & ks1 & G1 & S1 & P1).
  destruct (turn_ok n cells labels Hn Hl errno test _ _ _ _ m1 ks1 T S1 P1) as (f2 & m2 & ks2 & G2 & S2 & P2).
  exists m, (Nat.max f1 f2), m1, ks1, m2, ks2. split; [exact E|]. intros fuel F. split; [apply G1; lia|]. split; [apply G2; lia|]. split; apply SR_shows; assumption.
Qed.
Print Assumptions C81_next_line_partial.

(** *** Example: variables from line to line, LINPUT in a line, a line that is none *)
Section Run.
Variable errno : err -> Z.
Variable test : list token -> option err.
Variables labels max cells : Z.
(** the ideal session, computed *)
Definition turn_f (m : nat) (x : istate * list (option (list Z))) (d : option (pline * list (list (list Z)))) : option (istate * list (option (list Z))) :=
  match snd x with
  | Some t :: todo =>
      match Ideal.ivar max (ByName false variable_name) (fst x) with
      | Ok (true, l, s0) =>
          match ask (page s0) with
          | Ok p =>
              let s1 := put (with_page s0 (written p t)) l (Words t) in
              match d with
              | Some (line, its) =>
                  match run_program (ideal_ask (statements [line]) its max cells) (ref_of None) ideal_ask_text (statements [line]) m ((s1, from_here its 0), todo) with
                  | ProgSpec.End s => Some (say (fst (fst s)) ok_text, snd s)
                  | _ => None
                  end
              | None => Some (say s1 (letters "Unknown transition"), todo)
              end
          | _ => None
          end
      | _ => None
      end
  | _ => None
  end.
Fixpoint session_f (m : nat) (x : istate * list (option (list Z))) (ds : list (list Z * option (pline * list (list (list Z))))) : option (istate * list (option (list Z))) :=
  match ds with
  | [] => Some x
  | (t, d) :: ds =>
      match snd x with
      | Some t' :: _ => if list_eq_dec Z.eq_dec t t' then match turn_f m x d with Some y => session_f m y ds | None => None end else None
      | _ => None
      end
  end.
Definition reading_of (q : list Z * option (pline * list (list (list Z)))) : Prop :=
  ~ debug_line (fst q) /\ match snd q with Some (line, its) => means errno test labels (fst q) line its | None => not_a_line (fst q) end.
Lemma session_f_ok m : forall ds x y, Forall reading_of ds -> session_f m x ds = Some y -> session errno test labels max cells (length ds) x y.
Proof.
  induction ds as [|[t d] ds IH]; intros x y F; inversion F as [|? ? [Nd M] F']; subst; cbn [session_f length fst snd] in *; [intros [= <-]; constructor|].
  destruct x as [s todo]. cbn [fst snd]. destruct todo as [|[t'|] todo]; try discriminate. destruct (list_eq_dec Z.eq_dec t t') as [<-|]; [|discriminate].
  destruct (turn_f m (s, Some t :: todo) d) as [z|] eqn:T; [|discriminate]. intros Q. apply session_turn with z; [|apply IH; assumption].
  unfold turn_f in T. cbn [fst snd] in T. destruct (Ideal.ivar _ _ _) as [[[[|] l] s0]|e|] eqn:V; try discriminate T. destruct (ask (page s0)) as [p|e|] eqn:A; try discriminate T. cbv zeta in T.
  destruct d as [[line its]|].
  - destruct (run_program _ _ _ _ _ _) as [|sa| |] eqn:R; try discriminate T. injection T as <-. eapply (turn_done errno test labels max cells s t todo _ line its sa); [exists l, s0, p; auto|exact Nd|exact M|].
    exists m. rewrite R. reflexivity.
  - injection T as <-. eapply turn_refused; [exists l, s0, p; auto|exact Nd|exact M].
Qed.
End Run.
Definition direct_lines : list (list Z * option (pline * list (list (list Z)))) := Eval vm_compute in
  [(letters "A=2:B$=""X""", Some (PLine (LSeq (SLet (eNm "A") (eNu "2")) (LOne (SLet (eNm "B$") (eSt "X")))), [[]; []]));
   (letters "LINPUT N$", Some (PLine (LOne (SCmd Ask.CMD_LINPUT [AE (eNm "N$")])), [[]]));
   (letters "A #", None);
   (letters "?A*3;B$;N$", Some (PLine (LOne (SPrint [(Some (Bin OP_MULTIPLY (eNm "A") (eNu "3")), OP_SEMICOLON); (Some (eNm "B$"), OP_SEMICOLON)] (Some (eNm "N$")))), [[]]))].
Definition direct_typed : list (list Z) := Eval vm_compute in map letters ["A=2:B$=""X"""; "LINPUT N$"; "YES"; "A #"; "?A*3;B$;N$"].
Definition direct_todo : list (option (list Z)) := map Some direct_typed.
Definition direct_keys : list keys := Eval vm_compute in concat (map keys_of direct_typed).
Definition direct_page : list Z := Eval vm_compute in
  concat (map page_row ["Small BASIC Computer            "; "READY"; "?"; "A=2:B$=""X"""; "OK"; "?"; "LINPUT N$"; "?"; "YES"; "OK"; "?"; "A #"; "Unknown transition"; "?"; "?A*3;B$;N$"; "6XYES"; "OK"]).
Definition no_errno : err -> Z := fun _ => 0.
Definition no_test : list token -> option err := fun _ => None.
Lemma direct_understood : Forall (reading_of no_errno no_test 4) direct_lines.
Proof.
  unfold direct_lines. repeat (apply Forall_cons; [split; [intros [Q|Q]; vm_compute in Q; discriminate Q|]|]); [| | | |apply Forall_nil].
  1,2,4: cbn [fst snd]; unfold means.
  1,2,3: split; [|split; [|split; [|split; [|do 2 eexists; split; [vm_compute; reflexivity|vm_compute; reflexivity]]]]].
  all: cbn [app].
  - lx (letters "A") kName. lx (letters "=") ltac:(kOp 6%nat). lx (letters "2") kNum. lx (letters ":") ltac:(apply LxColon). lx (letters "B$") kName. lx (letters "=") ltac:(kOp 6%nat).
    lx (letters """X""") ltac:(apply (LxString (letters "X")); [cbn; lia|vm_compute; intuition discriminate|vm_compute; intuition discriminate]). apply SpEnd.
  - unfold proper_pline, proper_line, plain_line, plain_stmt, basic. prop_tac. all: first [left; split; [reflexivity|lia] | right; prop_tac].
  - repeat (apply Forall_cons; [first [exact I | intros ic Q; vm_compute in Q; injection Q as <-; cbn; lia]|]). apply Forall_nil.
  - repeat (apply Forall2_cons; [reflexivity|]). apply Forall2_nil.
  - lx (letters "LINPUT") ltac:(cmd 24%nat). lx (letters "N$") kName. apply SpEnd.
  - unfold proper_pline, proper_line, plain_line, plain_stmt, basic. prop_tac. all: first [left; split; [reflexivity|lia] | right; prop_tac].
  - repeat (apply Forall_cons; [first [exact I | intros ic Q; vm_compute in Q; injection Q as <-; cbn; lia]|]). apply Forall_nil.
  - repeat (apply Forall2_cons; [reflexivity|]). apply Forall2_nil.
  - lx (letters "?") ltac:(apply LxQuestion). lx (letters "A") kName. lx (letters "*") ltac:(kOp 3%nat). lx (letters "3") kNum. lx (letters ";") ltac:(kOp 5%nat). lx (letters "B$") kName. lx (letters ";") ltac:(kOp 5%nat). lx (letters "N$") kName. apply SpEnd.
  - unfold proper_pline, proper_line, plain_line, plain_stmt, basic. prop_tac. all: first [left; split; [reflexivity|lia] | right; prop_tac].
  - repeat (apply Forall_cons; [first [exact I | intros ic Q; vm_compute in Q; injection Q as <-; cbn; lia]|]). apply Forall_nil.
  - repeat (apply Forall2_cons; [reflexivity|]). apply Forall2_nil.
  - cbn [fst snd]. exists [letters "A"], [mk name 1 0 [65]], 35, []. split; [reflexivity|]. split; [constructor; [kName|constructor]|]. split; [cbn; lia|]. split; [|intros []].
    unfold illegal. repeat (split; [first [discriminate|reflexivity|vm_compute; intuition discriminate]|]). discriminate.
Qed.
Example C81_used : player direct_todo direct_keys /\
  exists s, session no_errno no_test 4 (2 ^ 4) (100 + 2 * 2 ^ 4) 4 (switched_on, direct_todo) (s, []) /\ firstn 544 (map fst (visible (page s))) = direct_page.
Proof.
  split; [unfold direct_todo, direct_typed, direct_keys; cbn [map]; repeat (eapply player_line; [line_tac|]); apply player_done|].
  assert (C : match session_f (2 ^ 4) (100 + 2 * 2 ^ 4) 20 (switched_on, direct_todo) direct_lines with Some (s, []) => firstn 544 (map fst (visible (page s))) = direct_page | _ => False end) by (vm_compute; reflexivity).
  destruct (session_f _ _ _ _ _) as [[s [|]]|] eqn:E; try contradiction. exists s. split; [|exact C]. apply (session_f_ok no_errno no_test 4 (2 ^ 4) (100 + 2 * 2 ^ 4) 20 direct_lines _ _ direct_understood E).
Qed.

(** lines that are refused, here by the checker of arguments: nothing in the line is carried out *)
Lemma typed_line_f max s t : match Ideal.ivar max (ByName false variable_name) s with Ok (true, l, s0) => match ask (page s0) with Ok p => typed_line max s t (put (with_page s0 (written p t)) l (Words t)) | _ => True end | _ => True end.
Proof. destruct (Ideal.ivar _ _ _) as [[[[|] l] s0]| |] eqn:V; auto. destruct (ask (page s0)) as [p| |] eqn:A; auto. exists l, s0, p. auto. Qed.
Definition wrong_page : list Z := Eval vm_compute in concat (map page_row ["Small BASIC Computer            "; "READY"; "?"; "A=1:LOCATE 1"; "Command has incorrect arguments"]).
Example C81_refused_used : refused no_errno Acls.checked 4 (letters "A=1:LOCATE 1") ERR_TEST_COMMAND /\ exists s, session no_errno Acls.checked 4 (2 ^ 4) (100 + 2 * 2 ^ 4) 1 (switched_on, [Some (letters "A=1:LOCATE 1")]) (s, []) /\ firstn 160 (map fst (visible (page s))) = wrong_page.
Proof.
  assert (W : refused no_errno Acls.checked 4 (letters "A=1:LOCATE 1") ERR_TEST_COMMAND) by (do 3 eexists; vm_compute; reflexivity). split; [exact W|].
  pose proof (typed_line_f (2 ^ 4) switched_on (letters "A=1:LOCATE 1")) as T.
  assert (C : match Ideal.ivar (2 ^ 4) (ByName false variable_name) switched_on with
              | Ok (true, l, s0) => match ask (page s0) with
                                    | Ok p => firstn 160 (map fst (visible (page (say (put (with_page s0 (written p (letters "A=1:LOCATE 1"))) l (Words (letters "A=1:LOCATE 1"))) (letters "Command has incorrect arguments"))))) = wrong_page
                                    | _ => False end
              | _ => False end) by (vm_compute; reflexivity).
  destruct (Ideal.ivar _ _ _) as [[[[|] l] s0]| |]; try contradiction. destruct (ask (page s0)) as [p| |]; try contradiction. eexists. split; [|exact C].
  eapply session_turn; [|apply session_over]. change (letters "Command has incorrect arguments") with (complaint ERR_TEST_COMMAND). eapply turn_wrong; [exact T| |exact W]. intros [Q|Q]; vm_compute in Q; discriminate Q.
Qed.

Definition repeat_keys : list keys := Eval vm_compute in keys_of (letters "N=N+1") ++ [break].
(** Breaking off the question carries out the line before once more: N=N+1 typed once and then the escape key leave 2 in N *)
Theorem C81_break_repeats_refuted : exists ks, player [Some (letters "N=N+1"); None] ks /\ exists m m' l st,
  direct_start (2 ^ 4) 100 = Ok m /\ direct no_errno no_test (2 ^ 4) 100 2 m ks = Ok (Some (m', [])) /\ mvar (ByName false (letters "N")) m' = Ok (false, l, st) /\ mgetn st l = 8192.
Proof.
  exists repeat_keys. split.
  { unfold repeat_keys. eapply player_line; [line_tac|]. apply player_break. do 2 eexists. split; [typing_tac|vm_compute; reflexivity]. }
  assert (C : match direct_start (2 ^ 4) 100 with
              | Ok m => match direct no_errno no_test (2 ^ 4) 100 2 m repeat_keys with
                        | Ok (Some (m', [])) => match mvar (ByName false (letters "N")) m' with Ok (false, l, st) => mgetn st l = 8192 | _ => False end
                        | _ => False end
              | _ => False end) by (vm_compute; reflexivity).
  destruct (direct_start _ _) as [m| |]; try contradiction. destruct (direct _ _ _ _ _ _ _) as [[[m' [|]]|]| |] eqn:E; try contradiction.
  destruct (mvar _ _) as [[[[|] l] st]| |] eqn:V; try contradiction. exists m, m', l, st. auto.
Qed.
Print Assumptions C81_break_repeats_refuted.
Definition long_keys : list keys := Eval vm_compute in keys_of (letters "CODE$=CODE$+CODE$") ++ [break].
(** When a program has put more than 32 characters into CODE$, breaking off the question writes past the end of the launcher's buffer *)
Theorem C81_long_code_refuted : exists ks m m1 ks1, player [Some (letters "CODE$=CODE$+CODE$"); None] ks /\ direct_start (2 ^ 4) 100 = Ok m /\
  direct no_errno no_test (2 ^ 4) 100 1 m ks = Ok (Some (m1, ks1)) /\ forall fuel, direct_turn no_errno no_test (2 ^ 4) fuel m1 ks1 = UB.
Proof.
  exists long_keys.
  assert (C : match direct_start (2 ^ 4) 100 with
              | Ok m => match direct no_errno no_test (2 ^ 4) 100 1 m long_keys with
                        | Ok (Some (m1, ks1)) =>
                            match mvar (ByName false CODE) m1 with
                            | Ok (_, l, m2) => match con_prompt (mcon m2) None with
                                               | Ok c => match shared_input c ks1 with Ok (Some (c1, true, _)) => (32 <? length (mtext (with_con m2 c1) l))%nat = true | _ => False end
                                               | _ => False end
                            | _ => False end
                        | _ => False end
              | _ => False end) by (vm_compute; reflexivity).
  destruct (direct_start _ _) as [m| |]; try contradiction. destruct (direct _ _ _ _ _ _ _) as [[[m1 ks1]|]| |] eqn:E; try contradiction. exists m, m1, ks1. split.
  { unfold long_keys. eapply player_line; [line_tac|]. apply player_break. do 2 eexists. split; [typing_tac|vm_compute; reflexivity]. }
  split; [reflexivity|]. split; [exact E|]. intros fuel. unfold direct_turn. destruct (mvar _ _) as [[[b l] m2]| |]; try contradiction. destruct (con_prompt _ _) as [c| |]; try contradiction. cbn [bind].
  destruct (shared_input c ks1) as [[[[c1 [|]] rest]|]| |]; try contradiction. cbn [bind]. cbv zeta. unfold direct_exec. rewrite C. reflexivity.
Qed.
Print Assumptions C81_long_code_refuted.
