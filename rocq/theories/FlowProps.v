(** C33, C35, C36, C47, C48: lines of a program, compiled and run.

    [compiled errno ids test before l after start next code]: in the program made of the lines [before],
    the line [l] and the lines [after], [l] compiles without error, the code of [l] starts at [start] and
    that of the following line at [next].  [test] is the argument checker, [ids] the variable numbering
    (None: names are stored).  The machine starts a line with an empty value stack. *)
From Verif Require Import Base BaseLemmas Tokens ExprSpec NumText Bytecode BytecodeSpec BytecodeProofs Runner RunnerSpec StmtSpec ExecProofs FlowSpec FlowProofs FlowLine FlowDemo.
Ltac Zify.zify_post_hook ::= Z.div_mod_to_equations.

(** ** C33: assignments.  The value assigned is [sem] of the expression tree, which is the tree with
    AND OR XOR < comparisons < + - < * / % < unary, left associative ([wfe]: parentheses are written
    wherever the tree deviates from that).  Missing from the full statement: the misread spellings below. *)
Theorem C33_assignment_partial : forall (h : host) (lab : labels_fun h) errno ids test before lv e after start next code,
  (forall f, ids = Some f -> good_ids f) -> (forall x, is_byte (errno x)) -> Forall good_line before -> Forall good_line after ->
  proper (LOne (SLet lv e)) -> test (line_code (LOne (SLet lv e))) = None ->
  compiled errno ids test before (LOne (SLet lv e)) after start next code ->
  forall k st, exists n, steps lab code n (mkC start [] k 0 st) =
    let* (r, st1) := sem h (ref_of ids) lv st in
    let* (v, st2) := sem h (ref_of ids) e st1 in
    let* st3 := assign h r v st2 in
    let* st4 := run_checks h (line_checks (LOne (SLet lv e))) st3 in
    Ok (mkC next [] k 0 st4).
Proof.
  intros h lab errno ids test before lv e after start next code Gi Ge Fb Fa Pr T C k st.
  destruct (program_line lab errno ids test before _ after start next code Gi Ge Fb Fa Pr I T C) as (fin & R & K).
  destruct (R k st) as [n N]. cbn [exec_lin exec_stmt] in N.
  destruct (sem h (ref_of ids) lv st) as [[r st1]|er|]; cbn [bind] in *; [|exists n; inversion N; subst; reflexivity..].
  destruct (sem h (ref_of ids) e st1) as [[v st2]|er|]; cbn [bind] in *; [|exists n; inversion N; subst; reflexivity..].
  destruct (assign h r v st2) as [st3|er|]; cbn [bind] in *; [|exists n; inversion N; subst; reflexivity..].
  exists (n + length (line_checks (LOne (SLet lv e))))%nat. rewrite steps_add. inversion N as [|? ? ? E1]; subst. cbn [lands bind]. apply K.
Qed.
Print Assumptions C33_assignment_partial.

(** ** C36: a line of statements, with IF and ELSE.  [exec_lin] is the meaning of the line: statements in
    order, IF takes exactly one branch, a jump leaves the line, a subroutine call returns to the rest of the
    line.  Missing from the full statement: IF inside the THEN part of an IF with ELSE (and an ELSE for
    the inner IF), a label directly after THEN or ELSE in a command other than GOTO and GOSUB, FOR and NEXT
    on a line with IF. *)
Theorem C36_line_partial : forall (h : host) (lab : labels_fun h) errno ids test before l after start next code,
  (forall f, ids = Some f -> good_ids f) -> (forall x, is_byte (errno x)) -> Forall good_line before -> Forall good_line after ->
  proper l -> if_ok l -> test (line_code l) = None -> compiled errno ids test before l after start next code ->
  exists fin,
    (forall k st, exists n, landed h (ref_of ids) lab code fin k (exec_lin h (ref_of ids) lab l st) (steps lab code n (mkC start [] k 0 st))) /\
    (forall k st, steps lab code (length (line_checks l)) (mkC fin [] k 0 st) = let* st' := run_checks h (line_checks l) st in Ok (mkC next [] k 0 st')).
Proof. intros h lab. exact (program_line lab). Qed.
Print Assumptions C36_line_partial.

(** The plain case: a condition, a THEN and an ELSE statement that fall through; no system variable needs checking. *)
Theorem C36_if_partial : forall (h : host) (lab : labels_fun h) errno ids test before e s1 s2 after start next code,
  (forall f, ids = Some f -> good_ids f) -> (forall x, is_byte (errno x)) -> Forall good_line before -> Forall good_line after ->
  let l := LIf e (LOne s1) (Some (LOne s2)) in
  proper l -> if_ok l -> test (line_code l) = None -> compiled errno ids test before l after start next code -> line_checks l = [] ->
  forall k st v st1 x st2, sem h (ref_of ids) e st = Ok (v, st1) -> value_num h st1 v = Ok x ->
  exec_stmt h (ref_of ids) lab (if x =? 0 then s2 else s1) st1 = Ok (Fall st2) ->
  exists n, steps lab code n (mkC start [] k 0 st) = Ok (mkC next [] k 0 st2).
Proof.
  intros h lab errno ids test before e s1 s2 after start next code Gi Ge Fb Fa l Pr If T C Ck k st v st1 x st2 Q1 Q2 Q3.
  destruct (program_line lab errno ids test before l after start next code Gi Ge Fb Fa Pr If T C) as (fin & R & K).
  destruct (R k st) as [n N]. unfold l in N. cbn [exec_lin] in N. rewrite Q1 in N. cbn [bind] in N. unfold truth in N. rewrite Q2 in N. cbn [bind] in N.
  assert (E : (if negb (x =? 0) then exec_stmt h (ref_of ids) lab s1 st1 else exec_stmt h (ref_of ids) lab s2 st1) = Ok (Fall st2)) by (destruct (x =? 0); exact Q3).
  rewrite E in N. exists n. specialize (K k st2). rewrite Ck in K. cbn [length steps run_checks bind] in K. injection K as K. subst fin.
  inversion N as [|? ? ? E1]; subst. reflexivity.
Qed.
Print Assumptions C36_if_partial.

(** ** C47: ON e GOTO @L0,@L1,... *)
Definition is_number {A} (e : entry A) : Prop := match e with EN _ | ER false _ => True | _ => False end.
Theorem C47_on_goto : forall (h : host) (lab : labels_fun h) errno ids test before e ws after start next code,
  (forall f, ids = Some f -> good_ids f) -> (forall x, is_byte (errno x)) -> Forall good_line before -> Forall good_line after ->
  let l := LOne (SOn e CMD_GOTO (map AL ws)) in
  proper l -> test (line_code l) = None -> compiled errno ids test before l after start next code ->
  forall k st v st1 x, sem h (ref_of ids) e st = Ok (v, st1) -> is_number v -> value_num h st1 v = Ok x ->
  exists n, steps lab code n (mkC start [] k 0 st) =
    if (0 <=? x / 4096) && (x / 4096 <? Z.of_nat (length ws)) then
      let* i := lab (ES true (nth (Z.to_nat (x / 4096)) ws [])) st1 in Ok (mkC i [] k 0 st1)
    else let* st2 := run_checks h (line_checks l) st1 in Ok (mkC next [] k 0 st2).
Proof.
  intros h lab errno ids test before e ws after start next code Gi Ge Fb Fa l Pr T C k st v st1 x Q1 Nu Q2.
  destruct (program_line lab errno ids test before l after start next code Gi Ge Fb Fa Pr I T C) as (fin & R & K).
  destruct (R k st) as [n N]. unfold l in N. cbn [exec_lin exec_stmt] in N. rewrite Q1 in N. cbn [bind] in N.
  assert (A : forall s, asems h (ref_of ids) (map AL ws) s = Ok (map (ES true) ws, s)).
  { clear. induction ws as [|w ws IH]; intros s; cbn [map asems asem bind]; [reflexivity|]. rewrite IH. reflexivity. }
  rewrite A in N. cbn [bind] in N. unfold perform in N. change (CMD_GOTO =? CMD_GOTO) with true in N. cbv iota in N.
  assert (Tg : target h st1 (v :: map (ES true) ws) = if (0 <=? x / 4096) && (x / 4096 <? Z.of_nat (length ws)) then Ok (Some (ES true (nth (Z.to_nat (x / 4096)) ws []))) else Ok None).
  { assert (E : target h st1 (v :: map (ES true) ws) = let* y := value_num h st1 v in let n := y / 4096 in if (0 <=? n) && (n <? Z.of_nat (length (map (@ES (Loc h) true) ws))) then match nth_error (map (ES true) ws) (Z.to_nat n) with Some (ES b w) => Ok (Some (ES b w)) | Some (EO _) => Err ERR_SYNTAX | _ => UB end else Ok None) by (destruct v as [|b w|[|] ?|]; try contradiction; reflexivity).
    rewrite E, Q2. cbn [bind]. rewrite map_length. cbv zeta. generalize (x / 4096). intros m. destruct ((0 <=? m) && (m <? Z.of_nat (length ws))) eqn:B; [|reflexivity].
    rewrite nth_error_map. rewrite (nth_error_nth' ws [] (n := Z.to_nat m)) by lia. reflexivity. }
  rewrite Tg in N. destruct ((0 <=? x / 4096) && (x / 4096 <? Z.of_nat (length ws))); cbn [bind] in N.
  - exists n. destruct (lab (ES true (nth (Z.to_nat (x / 4096)) ws [])) st1) as [i|er|]; cbn [bind] in *; inversion N; subst; reflexivity.
  - exists (n + length (line_checks l))%nat. rewrite steps_add. inversion N as [|? ? ? E1]; subst. cbn [lands bind]. apply K.
Qed.
Print Assumptions C47_on_goto.

(** ** C35: GOSUB and RETURN.  GOSUB @L followed by other statements on its line: it goes to @L; when
    RETURN is executed later with that call the most recent one, only FOR loops above it, control comes
    back to the rest of the line with the call stack as before the call. *)
Definition is_for_entry {A} (c : call A) : Prop := match c with CFor _ _ => True | CGosub _ => False end.
Theorem C35_gosub_return : forall (h : host) (lab : labels_fun h) errno ids test before w rest after start next code,
  (forall f, ids = Some f -> good_ids f) -> (forall x, is_byte (errno x)) -> Forall good_line before -> Forall good_line after ->
  let l := LSeq (SCmd CMD_GOSUB [AL w]) rest in
  proper l -> if_ok l -> test (line_code l) = None -> compiled errno ids test before l after start next code ->
  exists fin, forall k st, exists p,
    (exists n, steps lab code n (mkC start [] k 0 st) =
       match lab (ES true w) st with
       | UB => UB
       | r => if (length k =? 255)%nat then Err ERR_OUT_OF_MEMORY else let* i := r in Ok (mkC i [] (CGosub p :: k) 0 st)
       end) /\
    (forall fors st' c, Forall is_for_entry fors -> calls c = fors ++ CGosub p :: k -> hst c = st' ->
       command_step lab code c CMD_RETURN = Ok (mkC p [] k 0 st') /\
       exists n, landed h (ref_of ids) lab code fin k (exec_lin h (ref_of ids) lab rest st') (steps lab code n (mkC p [] k 0 st'))) /\
    (forall st', steps lab code (length (line_checks l)) (mkC fin [] k 0 st') = let* st2 := run_checks h (line_checks l) st' in Ok (mkC next [] k 0 st2)).
Proof.
  intros h lab errno ids test before w rest after start next code Gi Ge Fb Fa l Pr If T C.
  destruct (program_line lab errno ids test before l after start next code Gi Ge Fb Fa Pr If T C) as (fin & R & K).
  exists fin. intros k st. destruct (R k st) as [n N]. unfold l in N. cbn [exec_lin exec_stmt asems asem bind] in N. unfold perform in N.
  change (CMD_GOSUB =? CMD_GOTO) with false in N. change (CMD_GOSUB =? CMD_GOSUB) with true in N. cbn [target bind] in N.
  inversion N as [k0 v0 rest0 st0 p Ct E1 E2 E3|? ? Nc]; subst; [|exfalso; eapply Nc; reflexivity].
  exists p. split; [exists n; rewrite <- E3; reflexivity|]. split; [|intros st'; apply K].
  intros fors st' c Ff Ec Es. split.
  - rewrite (command_perform lab code c CMD_RETURN (rev (stk c))); [|unfold flow_cmd; cbn; intuition discriminate|intros [J|J]; discriminate J|rewrite rev_involutive; reflexivity].
    unfold perform. change (CMD_RETURN =? CMD_GOTO) with false. change (CMD_RETURN =? CMD_GOSUB) with false. change (CMD_RETURN =? CMD_RETURN) with true. cbn [lands bind]. unfold return_to. rewrite Ec, Es.
    assert (U : unwind h (fors ++ CGosub p :: k) = Some (p, k)) by (clear - Ff; induction Ff as [|x fors Fx _ IH]; [reflexivity|]; destruct x; [exact IH|contradiction]).
    rewrite U. reflexivity.
  - destruct (Ct k st') as [m M]. exists m. exact M.
Qed.
Print Assumptions C35_gosub_return.
(** RETURN without GOSUB is reported... *)
Theorem C35_return_without_gosub : forall (h : host) (lab : labels_fun h) code (c : cfg h),
  calls c = [] -> command_step lab code c CMD_RETURN = Err ERR_RETURN_WITHOUT_GOSUB.
Proof. intros h lab code c E. unfold command_step. cbn. unfold cmd_return. rewrite E. reflexivity. Qed.
(** ...except inside a FOR loop, where the entry below the bottom of the call stack is read. *)
Theorem C35_return_in_loop_refuted : forall (h : host) (lab : labels_fun h) code (c : cfg h) a v,
  calls c = [CFor a v] -> command_step lab code c CMD_RETURN = UB.
Proof. intros h lab code c a v E. unfold command_step. cbn. unfold cmd_return. rewrite E. reflexivity. Qed.
(** The call stack never holds more than 255 entries: deeper nesting stops with Out of memory. *)
Theorem C35_depth : forall (h : host) (lab : labels_fun h) code n (c c' : cfg h),
  (length (calls c) <= 255)%nat -> steps lab code n c = Ok c' -> (length (calls c') <= 255)%nat.
Proof.
  intros h lab code. induction n as [|n IH]; intros c c' L; cbn [steps]; [intros [= <-]; exact L|].
  destruct (step lab code c) as [c1| |] eqn:S1; cbn [bind]; try discriminate. apply IH. clear IH c' n.
  unfold step in S1. destruct (fetch code (ix c)) as [[i nx]| |]; cbn [bind] in S1; try discriminate.
  assert (Si : forall d i r, simple d i = Ok r -> calls r = calls (h := h) d).
  { clear. intros d i r. unfold simple. destruct i; repeat match goal with |- context [bind ?x _] => destruct x as [?| |]; cbn [bind] | |- context [let (_, _) := ?p in _] => destruct p | |- context [if ?b then _ else _] => destruct b end; try discriminate; try (intros [= <-]; reflexivity). }
  destruct i as [big v|lb s|f k|o|f|cc|cc|s|s|s|big i0|m| |s|s|e]; try (apply Si in S1; rewrite S1; exact L); try discriminate.
  - set (d := goto_ h c nx) in *. assert (Ld : (length (calls d) <= 255)%nat) by exact L. clearbody d. clear L c nx f Si.
    unfold command_step in S1.
    destruct (k =? CMD_FOR). { unfold cmd_for in S1. destruct (bottom h (stk d)) as [e| |]; cbn [bind] in S1; try discriminate. destruct (find_assign _ _ _); try discriminate. destruct (length (calls d) =? 255)%nat eqn:D; [discriminate|]. destruct (bc_scan _ _ _); try discriminate. destruct e; try discriminate. injection S1 as <-. cbn [calls length]. lia. }
    destruct (_ || _); [injection S1 as <-; exact Ld|].
    destruct (k =? CMD_NEXT). { unfold cmd_next in S1. pose proof (find_call_length (is_for_of h (match stk d with x :: _ => Some x | [] => None end)) (calls d) []) as Fl. destruct (find_call _ _ _) as [[[ab kk] be]|]; try discriminate. destruct kk; try discriminate.
      repeat match type of S1 with context [bind ?x _] => destruct x as [?| |]; cbn [bind] in S1; try discriminate end. destruct (_ || _); [discriminate|]. destruct (past _ _ _); injection S1 as <-; cbn [calls]; [rewrite app_length; cbn [length] in Fl; lia|exact Ld]. }
    destruct (k =? CMD_IF). { rewrite cmd_if_eq in S1. assert (Se : forall i b r, enter lab code d i b = Ok r -> calls r = calls d). { intros i b r. unfold enter. destruct (_ && _); [destruct (lab _ _); cbn [bind]; try discriminate|]; intros [= <-]; reflexivity. }
      destruct (arg h (stk d) 0); cbn [bind] in S1; try discriminate. destruct (truth h (hst d) _) as [b| |]; cbn [bind] in S1; try discriminate. destruct b; [apply Se in S1; rewrite S1; exact Ld|]. destruct (find_cmd _ _ _ _); try discriminate. apply Se in S1. rewrite S1. exact Ld. }
    destruct (k =? CMD_ELSE). { unfold cmd_else in S1. destruct (find_cmd _ _ _ _); try discriminate. injection S1 as <-. exact Ld. }
    destruct (k =? CMD_ENDIF); [injection S1 as <-; exact Ld|].
    assert (Sg : forall g r, cmd_goto h lab g d = Ok r -> (length (calls r) <= 255)%nat).
    { intros g r. unfold cmd_goto. destruct (arg h (stk d) 0) as [e| |]; cbn [bind]; try discriminate.
      assert (J : forall w, match lab w (hst d) with UB => UB | r => if g && (length (calls d) =? 255)%nat then Err ERR_OUT_OF_MEMORY else let* i := r in Ok (mkC i [] (if g then CGosub (ix d) :: calls d else calls d) 0 (hst d)) end = Ok r -> (length (calls r) <= 255)%nat).
      { intros w. destruct (lab w (hst d)); cbn [bind]; destruct g; cbn [andb]; try discriminate; [|intros [= <-]; exact Ld|destruct (_ =? _)%nat; discriminate]. destruct (length (calls d) =? 255)%nat eqn:D; [discriminate|]. intros [= <-]. cbn [calls length]. lia. }
      assert (N : forall x, (let* v := x in let n := FP_TO_INT v in if (n <? 0) || (n + 1 >=? Z.of_nat (length (stk d))) then Ok (mkC (ix d) [] (calls d) 0 (hst d)) else let* l := arg h (stk d) (Z.to_nat (n + 1)) in match l with EO _ => Err ERR_SYNTAX | ES _ _ => match lab l (hst d) with UB => UB | r => if g && (length (calls d) =? 255)%nat then Err ERR_OUT_OF_MEMORY else let* i := r in Ok (mkC i [] (if g then CGosub (ix d) :: calls d else calls d) 0 (hst d)) end | _ => UB end) = Ok r -> (length (calls r) <= 255)%nat).
      { intros [x| |]; cbn [bind]; try discriminate. cbv zeta. destruct (_ || _); [intros [= <-]; exact Ld|]. destruct (arg h (stk d) _) as [[| | |]| |]; cbn [bind]; try discriminate. apply J. }
      destruct e as [z|b w|[|] l|o]; [apply N|apply J|apply J|apply N|discriminate]. }
    destruct (k =? CMD_GOTO); [eapply Sg; exact S1|]. destruct (k =? CMD_GOSUB); [eapply Sg; exact S1|].
    destruct (k =? CMD_RETURN). { unfold cmd_return in S1. pose proof (find_call_length (is_gosub h) (calls d) []) as Fl. destruct (calls d) as [|x r]; [discriminate|]. destruct (find_call _ _ _) as [[[ab kk] be]|]; try discriminate. destruct kk; try discriminate. injection S1 as <-. cbn [calls length] in *. lia. }
    destruct (k =? CMD_END); [injection S1 as <-; exact Ld|]. destruct (k =? CMD_STOP); [discriminate|]. destruct (hcmd h k _ _); cbn [bind] in S1; try discriminate. injection S1 as <-. exact Ld.
  - unfold begin_loop in S1. set (d := goto_ h c nx) in *. assert (Ld : (length (calls d) <= 255)%nat) by exact L. clearbody d. destruct (calls d) as [|[? ?|?] ?] eqn:Ec; try discriminate. destruct (stk d); [discriminate|].
    match type of S1 with bind ?x _ = _ => destruct x as [[? ?]| |]; cbn [bind] in S1; try discriminate end. destruct (past _ _ _); [|injection S1 as <-; exact Ld].
    match type of S1 with bind ?x _ = _ => destruct x as [[? ?]| |]; cbn [bind] in S1; try discriminate end. injection S1 as <-. exact Ld.
Qed.
Print Assumptions C35_depth.

(** ** C48: a line in the fragment never over- or underflows the value stack: if its intended meaning is
    defined (the operations it uses do not themselves run into undefined behaviour, its labels can be looked
    up, and RETURN is not executed inside a FOR loop outside any subroutine), so is its execution, and
    the value stack is empty afterwards.  Missing from the full statement: lines of more than 100 tokens (below). *)
Definition defined {A} (r : outcome A) : Prop := r <> UB.
Definition next_defined {h : host} (lab : labels_fun h) (k : list (call (Loc h))) (r : outcome (flow h)) : Prop :=
  match r with
  | UB => False
  | Ok (Call v _ st) => defined (lab v st)
  | Ok (Ret _) => k = [] \/ exists a, In (CGosub a) k
  | _ => True
  end.
Theorem C48_line_partial : forall (h : host) (lab : labels_fun h) errno ids test before l after start next code,
  (forall f, ids = Some f -> good_ids f) -> (forall x, is_byte (errno x)) -> Forall good_line before -> Forall good_line after ->
  proper l -> if_ok l -> test (line_code l) = None -> compiled errno ids test before l after start next code ->
  forall k st, next_defined lab k (exec_lin h (ref_of ids) lab l st) ->
  exists n, (forall m, (m <= n)%nat -> defined (steps lab code m (mkC start [] k 0 st))) /\
    forall c, steps lab code n (mkC start [] k 0 st) = Ok c -> stk c = [].
Proof.
  intros h lab errno ids test before l after start next code Gi Ge Fb Fa Pr If T C k st D.
  destruct (program_line lab errno ids test before l after start next code Gi Ge Fb Fa Pr If T C) as (fin & R & _).
  destruct (R k st) as [n N]. exists n.
  assert (X : steps lab code n (mkC start [] k 0 st) <> UB /\ forall c, steps lab code n (mkC start [] k 0 st) = Ok c -> stk c = []).
  { assert (Q : forall v st' p, defined (lab v st') -> gosub_to h lab v st' p k <> UB /\ forall c, gosub_to h lab v st' p k = Ok c -> stk c = []).
    { intros v st' p Dl. unfold gosub_to, defined in *. destruct (lab v st') as [i|e|]; [| |contradiction]; destruct (length k =? 255)%nat; cbn [bind]; (split; [discriminate|]); intros c; try discriminate. intros [= <-]. reflexivity. }
    inversion N as [? v rest st' p _ E1 E2 E3|? f Nc E1 E2 E3]; subst.
    - rewrite <- E2 in D. cbn in D. apply Q. exact D.
    - destruct (exec_lin h (ref_of ids) lab l st) as [f|e|]; [|split; [discriminate|intros c Ec; discriminate Ec]|contradiction].
      destruct f as [s|i s|v rest s|s|s]; cbn [lands bind]; try (split; [discriminate|intros c [= <-]; reflexivity]).
      + exfalso. eapply Nc. reflexivity.
      + unfold return_to. cbn in D. destruct D as [->|[a I]]; [cbn; split; [discriminate|intros c Ec; discriminate Ec]|].
        destruct (unwind h k) as [[a' r]|] eqn:U; [split; [discriminate|intros c [= <-]; reflexivity]|]. exfalso. clear - I U. induction k as [|x k IH]; [destruct I|]. destruct x; cbn [unwind] in U; [|discriminate]. destruct I as [I|I]; [discriminate I|auto]. }
  split; [|exact (proj2 X)]. intros m L E. apply (proj1 X). replace n with (m + (n - m))%nat by lia. rewrite steps_add, E. reflexivity.
Qed.
Print Assumptions C48_line_partial.
(** A line of more than 100 tokens is written past the end of the compiler's arrays. *)
Definition long_line : list token := [tV 65; tO OP_ASSIGN] ++ concat (repeat [tN [49]; tO OP_ADD] 60) ++ [tN [49]; nl].
Theorem C48_long_line_refuted : exists l, (length l = 124)%nat /\ dcode [l] = UB /\ Forall good_tok l.
Proof. exists long_line. split; [reflexivity|]. split; [vm_compute; reflexivity|]. unfold long_line. cbn. prop_tac. Qed.

(** ** Concrete cases.  [demo] is a machine with variables A-Z and a log of the commands executed. *)
Definition no_errno : err -> Z := fun _ => 0.
Definition set_to (s : list Z) : lin := LOne (SLet (eV 65) (eN s)).
Ltac compile_tac := do 2 eexists; split; [vm_compute; reflexivity|]; split; [vm_compute; reflexivity|]; split; [vm_compute; reflexivity|]; split; reflexivity.
(** A=1+2*3 : 7 *)
Definition ex_let : lin := LOne (SLet (eV 65) (Bin OP_ADD (eN [49]) (Bin OP_MULTIPLY (eN [50]) (eN [51])))).
Example C33_case : proper ex_let /\ (exists next code, compiled no_errno None (fun _ => None) [Tokens (line_toks (set_to [49]))] ex_let [Tokens (line_toks (set_to [50]))] 6 next code) /\
  (let* c := drun [line_toks ex_let] in Ok (var_A c)) = Ok (7 * 4096).
Proof. split; [unfold proper, ex_let; prop_tac|]. split; [do 2 eexists; compile_tac|]. vm_compute. reflexivity. Qed.
(** IF A==1 THEN B=(A+2)*3 ELSE PRINT A;B *)
Definition ex_if : lin := LIf (Bin OP_EQUAL (eV 65) (eN [49])) (LOne (SLet (eV 66) (Bin OP_MULTIPLY (Paren (Bin OP_ADD (eV 65) (eN [50]))) (eN [51]))))
  (Some (LOne (SPrint [(Some (eV 65), OP_SEMICOLON)] (Some (eV 66))))).
Example C36_case : proper ex_if /\ if_ok ex_if /\ line_checks ex_if = [] /\
  (exists next code, compiled no_errno None (fun _ => None) [Tokens (line_toks (set_to [49]))] ex_if [Tokens (line_toks (set_to [50]))] 6 next code) /\
  (let* c := drun [line_toks ex_if] in Ok (log c)) = Ok [(CMD_PRINT, [0; - OP_SEMICOLON; 0])] /\
  (let* c := drun [line_toks (set_to [49]); line_toks ex_if] in Ok (fst (hst c) 1%nat, log c)) = Ok (9 * 4096, []).
Proof.
  split; [unfold proper, ex_if; prop_tac|]. split; [cbn; auto|]. split; [reflexivity|]. split; [do 2 eexists; compile_tac|]. split; vm_compute; reflexivity.
Qed.
(** ON A GOTO @X,@Y with A=1 *)
Definition ex_on : lin := LOne (SOn (eV 65) CMD_GOTO (map AL [[88]; [89]])).
Example C47_case : proper ex_on /\ (exists next code, compiled no_errno None (fun _ => None) [Tokens (line_toks (set_to [49]))] ex_on [] 6 next code) /\
  (let* c := drun [line_toks (set_to [49]); line_toks ex_on] in Ok (ix c)) = Ok (1000 + 89) /\
  (let* c := drun [line_toks (set_to [50]); line_toks ex_on; line_toks (set_to [51])] in Ok (var_A c)) = Ok (3 * 4096).
Proof. split; [unfold proper, ex_on; prop_tac|]. split; [do 2 eexists; compile_tac|]. split; vm_compute; reflexivity. Qed.
(** GOSUB @X:A=A+1 *)
Definition ex_gosub : lin := LSeq (SCmd CMD_GOSUB [AL [88]]) (LOne (SLet (eV 65) (Bin OP_ADD (eV 65) (eN [49])))).
Example C35_case : proper ex_gosub /\ if_ok ex_gosub /\
  (exists next code, compiled no_errno None (fun _ => None) [Tokens (line_toks (set_to [49]))] ex_gosub [Tokens (line_toks (set_to [50]))] 6 next code) /\
  (let* c := drun [line_toks ex_gosub] in Ok (ix c, calls c)) = Ok (1000 + 88, [CGosub 6]).
Proof. split; [unfold proper, ex_gosub; prop_tac|]. split; [exact I|]. split; [do 2 eexists; compile_tac|]. vm_compute. reflexivity. Qed.

(** ** What the fragment excludes, and why: the compiled program does something else. *)
(** A=&H10-3: a minus after a hexadecimal number (or a string, or a function name without parentheses) is taken for a sign; the
    assignment is then made to a number. *)
Theorem C33_minus_after_hex_refuted : exists l, l = [tV 65; tO OP_ASSIGN; mk base_number 4 0 [38; 72; 49; 48]; tO OP_SUBTRACT; tN [51]; nl] /\
  dcode [l] = Ok [BC_VARIABLE_NAME; 65; BC_SMALL_NUMBER; 16; BC_SMALL_NUMBER; 3; BC_OPERATOR; OP_NEGATE; BC_OPERATOR; OP_ASSIGN] /\ drun [l] = UB.
Proof. eexists. split; [reflexivity|]. split; vm_compute; reflexivity. Qed.
(** IF 0 THEN IF 1 THEN A=1 ELSE A=2: the ELSE belongs to the inner IF, which must not run at all; A becomes 2. *)
Theorem C36_nested_else_refuted : exists l, l = LIf (eN [48]) (LIf (eN [49]) (set_to [49]) (Some (set_to [50]))) None /\ proper l /\
  exec_lin demo (ref_of None) dlab l dst = Ok (@Fall demo dst) /\ (let* c := drun [line_toks l] in Ok (var_A c)) = Ok (2 * 4096).
Proof. eexists. split; [reflexivity|]. split; [unfold proper, set_to; prop_tac|]. split; vm_compute; reflexivity. Qed.
(** IF 1 THEN RESTORE @L jumps to @L instead of executing RESTORE (82). *)
Theorem C36_label_argument_refuted : exists l, l = LIf (eN [49]) (LOne (SCmd 82 [AL [76]])) None /\ proper l /\
  exec_lin demo (ref_of None) dlab l dst = Ok (@Fall demo (fst dst, [(82, [76])])) /\ (let* c := drun [line_toks l] in Ok (ix c, log c)) = Ok (1000 + 76, []).
Proof. eexists. split; [reflexivity|]. split; [unfold proper; prop_tac|]. split; vm_compute; reflexivity. Qed.
(** IF 0 THEN PRINT A ELSE LOCATE 1,2 : LOCATE (1) is given the separator of PRINT between its arguments. *)
Theorem C36_print_else_refuted : exists l, l = LIf (eN [48]) (LOne (SPrint [] (Some (eV 65)))) (Some (LOne (SCmd 1 [AE (eN [49]); AE (eN [50])]))) /\
  exec_lin demo (ref_of None) dlab l dst = Ok (@Fall demo (fst dst, [(1, [4096; 8192])])) /\
  (let* c := drun [line_toks l] in Ok (log c)) = Ok [(1, [4096; - OP_COMMA; 8192])].
Proof. eexists. split; [reflexivity|]. split; vm_compute; reflexivity. Qed.
(** IF 0 THEN DIM A(5) ELSE B(1)=2 : the ELSE part is still taken for a part of DIM; it makes an array B with one element, and nothing is left to assign to. *)
Theorem C36_dim_else_refuted : exists l, l = LIf (eN [48]) (LOne (SDim [ExprSpec.Call false 1 [65] false [eN [53]]])) (Some (LOne (SLet (ExprSpec.Call false 1 [66] false [eN [49]]) (eN [50])))) /\
  match exec_lin demo (ref_of None) dlab l dst with Ok (Fall st) => fst st 1%nat = 2 * 4096 | _ => False end /\
  (let* c := dcode [line_toks l] in Ok (firstn 10 (skipn 12 c))) = Ok [BC_SMALL_NUMBER; 1; BC_ARGCOUNT; 1; BC_DIM; 66; BC_SMALL_NUMBER; 2; BC_OPERATOR; OP_ASSIGN] /\
  drun [line_toks l] = UB.
Proof. eexists. split; [reflexivity|]. split; [|split]; vm_compute; reflexivity. Qed.
(** SORT 0,1,K:A=5 : after SORT the rest of the line refers to arrays; the variable A keeps its value, the array A is changed. *)
Theorem C33_after_sort_refuted : exists l, l = LSeq (SCmd CMD_SORT [AE (eN [48]); AE (eN [49]); AE (eV 75)]) (set_to [53]) /\
  (let* c := drun [line_toks l] in Ok (var_A c, fst (hst c) 26%nat)) = Ok (0, 5 * 4096).
Proof. eexists. split; [reflexivity|]. vm_compute; reflexivity. Qed.
