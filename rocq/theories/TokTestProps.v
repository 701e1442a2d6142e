(** C46, C65, C66: the check of arguments when a line is compiled. *)
From Coq Require Import String Ascii.
From Verif Require Import Base BaseLemmas Tokens ExprSpec ExprProofs StmtSpec EvalLine TokTest TokTestSpec TokTestProofs TokTestTypes.
Open Scope Z_scope.

(** * C46 *)
(** every format of the three tables: accepted means one of the alternatives, or an alternative whose list is missing *)
Theorem C46_formats_partial tab c args : In tab [cmd_format; func_format; op_format] -> ~ In clt args ->
  check_cmd args (format_of tab c) = true <-> accepts (format_of tab c) args \/ stops_short (format_of tab c) args.
Proof.
  intros H N. apply check_cmd_iff; [|exact N]. destruct tab_split as (A & B & C). apply nth_wf. destruct H as [<-|[<-|[<-|[]]]]; assumption.
Qed.
(** functions: exactly the alternatives *)
Theorem C46_functions c args : ~ In clt args -> check_cmd args (format_of func_format c) = true <-> accepts (format_of func_format c) args.
Proof. apply func_check. Qed.
(** commands other than SORT and RSORT, and other than INPUT "text"; : exactly the alternatives *)
Theorem C46_commands_partial c args : c <> CMD_SORT -> c <> CMD_RSORT -> ~ In clt args -> ~ In csemi args ->
  check_cmd args (format_of cmd_format c) = true <-> accepts (format_of cmd_format c) args.
Proof. apply cmd_check. Qed.
Lemma input_not : ~ accepts (format_of cmd_format 23) [cS; csemi] /\ ~ accepts (format_of cmd_format CMD_SORT) [cN; cN].
Proof.
  assert (D : forall g x (l : list Z), g ++ [x] = l -> g = removelast l /\ x = List.last l 0). { intros g x l <-. rewrite removelast_last, last_last. auto. }
  split; intros (f & I & M).
  - change (alternatives (format_of cmd_format 23)) with [[cv]; [cS; csemi; cv]] in I. destruct I as [<-|[<-|[]]]; destruct M as [M|[[M _]|[[_ M]|(g & x & a & b & E & Ea & Nb & F & G)]]]; try discriminate.
    + inversion M; subst. inversion H4.
    + symmetry in E. destruct (D _ _ _ E) as [-> ->]. cbn in *. inversion F; subst. cbn in Ea. subst b. inversion G; subst. discriminate.
    + inversion M; subst. inversion H4; subst. inversion H6.
    + symmetry in E. destruct (D _ _ _ E) as [-> ->]. cbn [removelast List.last] in *. pose proof (Forall2_length _ _ _ F) as L. destruct a as [|? [|? [|]]]; try discriminate. injection Ea as _ _ Ea. congruence.
  - change (alternatives (format_of cmd_format CMD_SORT)) with [[cN; cN; ca]] in I. destruct I as [<-|[]]. destruct M as [M|[[M _]|[[_ M]|(g & x & a & b & E & Ea & Nb & F & G)]]]; try discriminate.
    + inversion M; subst. inversion H4; subst. inversion H6.
    + symmetry in E. destruct (D _ _ _ E) as [-> ->]. cbn [removelast List.last] in *. pose proof (Forall2_length _ _ _ F) as L. destruct a as [|? [|? [|]]]; try discriminate. injection Ea as _ _ Ea. congruence.
Qed.
(** INPUT "text"; without a variable and SORT 0,5 without an array are accepted *)
Theorem C46_missing_list_refuted :
  check_cmd [cS; csemi] (format_of cmd_format 23) = true /\ ~ accepts (format_of cmd_format 23) [cS; csemi] /\
  check_cmd [cN; cN] (format_of cmd_format CMD_SORT) = true /\ ~ accepts (format_of cmd_format CMD_SORT) [cN; cN].
Proof. destruct input_not. repeat split; try assumption; vm_compute; reflexivity. Qed.
(** a comma left on the stack counts as a label: GOTO with "L<" *)
Theorem C46_comma_refuted : check_cmd [cL; clt] (format_of cmd_format CMD_GOTO) = true /\ ~ accepts (format_of cmd_format CMD_GOTO) [cL; clt].
Proof.
  split; [vm_compute; reflexivity|]. intros (f & I & M). change (alternatives (format_of cmd_format CMD_GOTO)) with [[cL]; [cl_]] in I.
  assert (D : forall g x (l : list Z), g ++ [x] = l -> g = removelast l /\ x = List.last l 0). { intros g x l <-. rewrite removelast_last, last_last. auto. }
  destruct I as [<-|[<-|[]]]; destruct M as [M|[[M _]|[[_ M]|(g & x & a & b & E & Ea & Nb & F & G)]]]; try discriminate;
    try (inversion M; subst; match goal with Q : Forall2 _ [] _ |- _ => inversion Q end);
    symmetry in E; destruct (D _ _ _ E) as [-> ->]; cbn [removelast List.last] in *; inversion F; subst; cbn [app] in Ea; subst b; inversion G; subst; try discriminate;
    match goal with Q : Forall _ [clt] |- _ => inversion Q; subst; discriminate end.
Qed.
(** EXP, TAN and SPHITRC have an empty format: no argument list is accepted *)
Theorem C46_functions_without_format_refuted c args : c = 12 \/ c = 33 \/ c = 38 -> check_cmd args (format_of func_format c) = false.
Proof. intros H. assert (E : format_of func_format c = []) by (destruct H as [-> |[-> | ->]]; reflexivity). rewrite E. unfold check_cmd. destruct args; reflexivity. Qed.
(** the hypotheses: GSPOIT 1,2 and BEEP *)
Example C46_used : accepts (format_of func_format 14) [cN; cn] /\ ~ In clt [cN; cn] /\ accepts (format_of cmd_format 26) [] /\ ~ accepts (format_of func_format 14) [cN; cS].
Proof.
  split; [|split; [cbn; intros [E|[E|[]]]; discriminate|split]].
  - exists [cN; cN]. split; [left; reflexivity|]. right. right. left. split; [discriminate|]. repeat constructor.
  - exists [c0]. split; [left; reflexivity|]. right. left. auto.
  - intros H. apply C46_functions in H; [vm_compute in H; discriminate|]. cbn. intros [E|[E|[]]]; discriminate.
Qed.

(** * C65: a line is accepted exactly when it is well typed *)
Definition compile_check (t : list token) : outcome (option err) := let* p := tok_prio t in let* c := tok_eval p in tok_test c.
Theorem C65_line_partial l : wfl false true l -> (length (line_toks l) <= 100)%nat -> checkable l -> (line_width l <= 40)%nat ->
  (well_typed l /\ compile_check (line_toks l) = Ok None) \/ (~ well_typed l /\ exists er, compile_check (line_toks l) = Ok (Some er)).
Proof.
  intros Hw L Hc W. pose proof (line_compiles l Hw L) as E. assert (Q : compile_check (line_toks l) = tok_test (line_code l)).
  { unfold compile_check. destruct (tok_prio (line_toks l)) as [p| |]; cbn [bind] in *; try discriminate. destruct (tok_eval p) as [c| |]; cbn [bind] in *; congruence. }
  rewrite Q. apply line_checked; assumption.
Qed.
(** each expression has at most one type *)
Theorem C65_one_type e k k' : has_type e k -> has_type e k' -> k = k'.
Proof. apply has_type_fun. Qed.
Definition nm (s : String.string) : expr := Atom name (Z.of_nat (length (chars s))) (chars s).
Definition nu (s : String.string) : expr := Atom number (Z.of_nat (length (chars s))) (chars s).
Definition st (s : String.string) : expr := Atom string (Z.of_nat (length (chars s))) (chars s).
(** IF A>1 THEN LOCATE 1,B(2):PRINT A$;"X" ELSE @L *)
Definition good_line : lin :=
  LIf (Bin OP_GREATER (nm "A") (nu "1")) (LSeq (SCmd 1 [AE (nu "1"); AE (Call false 1 (chars "B") false [nu "2"])]) (LOne (SPrint [(Some (nm "A$"), OP_SEMICOLON)] (Some (st "X"))))) (Some (LOne (SGo (chars "L")))).
(** the same with LOCATE 1,A$ *)
Definition bad_line : lin :=
  LIf (Bin OP_GREATER (nm "A") (nu "1")) (LSeq (SCmd 1 [AE (nu "1"); AE (nm "A$")]) (LOne (SPrint [] None))) (Some (LOne (SGo (chars "L")))).
Ltac in_no := cbn [In]; intros H; repeat (destruct H as [H|H]; [discriminate H|]); destruct H.
Example C65_used : wfl false true good_line /\ (length (line_toks good_line) <= 100)%nat /\ checkable good_line /\ (line_width good_line <= 40)%nat /\ compile_check (line_toks good_line) = Ok None.
Proof.
  split; [|split; [vm_compute; lia|split; [|split; [vm_compute; lia|vm_compute; reflexivity]]]].
  - unfold good_line, nm, nu, st, fine, ordinary. cbn. unfold fine, ordinary. cbn. repeat split; try lia; try discriminate; try tauto; try in_no; try (constructor; [split; [right; reflexivity|]|]); repeat constructor; cbn; try lia; try discriminate; try tauto; auto; repeat split; try lia; try discriminate; auto.
  - unfold good_line, nm, nu, st. cbn. repeat split; try lia; try discriminate; try tauto; auto; repeat constructor; cbn; try lia; try discriminate; auto.
Qed.
Example C65_used_bad : compile_check (line_toks bad_line) = Ok (Some ERR_TEST_COMMAND). Proof. vm_compute. reflexivity. Qed.
(** ** what the check lets through or misjudges *)
(** FOR A$="A" TO "B" *)
Theorem C65_for_strings_refuted : compile_check (line_toks (LOne (SFor (nm "A$") (st "A") (st "B") None))) = Ok None.
Proof. vm_compute. reflexivity. Qed.
(** ON A CLS *)
Theorem C65_on_command_refuted : compile_check (line_toks (LOne (SOn (nm "A") 18 []))) = Ok None.
Proof. vm_compute. reflexivity. Qed.
(** A()=1 *)
Theorem C65_no_subscript_refuted : compile_check (line_toks (LOne (SLet (Call false 1 (chars "A") false []) (nu "1")))) = Ok None.
Proof. vm_compute. reflexivity. Qed.
(** IF A THEN @X:LOCATE 1,2 *)
Definition go_then : lin := LIf (nm "A") (LSeq (SGo (chars "X")) (LOne (SCmd 1 [AE (nu "1"); AE (nu "2")]))) None.
Theorem C65_label_then_statement_refuted : well_typed go_then /\ compile_check (line_toks go_then) = Ok (Some ERR_TEST_COMMAND).
Proof.
  split; [|vm_compute; reflexivity]. cbn [go_then well_typed well_typed_stmt]. split; [exists NumVar; split; [apply t_name|reflexivity]|]. split; [|exact I]. split; [exact I|].
  exists [cN; cN]. split; [repeat constructor; exists Num; (split; [constructor|reflexivity])|]. exists [cN; cN]. split; [left; reflexivity|]. right. right. left. split; [discriminate|]. repeat constructor.
Qed.
(** PRINT 1;1;...;1 with 21 numbers: the checker's 40 entries overflow *)
Definition long_print : lin := LOne (SPrint (repeat (Some (nu "1"), OP_SEMICOLON) 20) (Some (nu "1"))).
Theorem C65_stack_overflow_refuted : well_typed long_print /\ (length (line_toks long_print) <= 100)%nat /\ compile_check (line_toks long_print) = UB.
Proof.
  split; [|split; [vm_compute; lia|vm_compute; reflexivity]]. cbn [long_print well_typed well_typed_stmt]. split.
  - apply Forall_forall. intros it I. apply repeat_spec in I. subst it. exists Num. apply t_number.
  - exists Num. apply t_number.
Qed.
(** A=ABS(,): the argument count says two, the stack is too short, and memory in front of it is read *)
Theorem C65_empty_arguments_refuted :
  compile_check [mk name 1 0 (chars "A"); op_tok OP_ASSIGN 0; mk function 0 0 (chars "ABS"); op_tok OP_OPEN_PAREN 0; op_tok OP_COMMA 0; op_tok OP_CLOSE_PAREN 0; nl] = UB.
Proof. vm_compute. reflexivity. Qed.

(** * C66: where a command stores a result, only a variable is accepted *)
(** the first stored position: NEXT 7, BGREAD 42, CHRREAD 45, COLREAD 49, DTREAD 54, READ 78, SWAP 101, TMREAD 102 *)
Definition stores_from (c : Z) : option nat :=
  match c with 7 => Some 0%nat | 42 => Some 3%nat | 45 => Some 2%nat | 49 => Some 2%nat | 54 => Some 1%nat | 78 => Some 0%nat | 101 => Some 0%nat | 102 => Some 1%nat | _ => None end.
Definition var_letters (f : list Z) : bool := forallb (fun c => (c =? cn) || (c =? cs) || (c =? cv)) f.
Lemma var_letter c k : (c =? cn) || (c =? cs) || (c =? cv) = true -> letter_fits c k = true \/ list_fits c k = true -> k = cn \/ k = cs.
Proof.
  intros H. rewrite !orb_true_iff, !Z.eqb_eq in H. destruct H as [[->| ->]| ->]; intros [E|E]; try discriminate.
  - left. apply Z.eqb_eq. exact E. - right. apply Z.eqb_eq. exact E. - change (list_fits cv k) with ((k =? cn) || (k =? cs)) in E. rewrite orb_true_iff, !Z.eqb_eq in E. exact E.
Qed.
Lemma fits_from (g a : list Z) : Forall2 (fun c k => letter_fits c k = true) g a -> forall i, (i < length a)%nat -> letter_fits (nth i g 0) (nth i a 0) = true.
Proof. induction 1; intros i Hi; cbn in Hi; [lia|]. destruct i; cbn [nth]; [assumption|apply IHForall2; lia]. Qed.
Lemma matches_var n f args : f <> [cstar] -> f <> [c0] -> var_letters (skipn n f) = true -> (n < length f)%nat -> matches f args -> forall i, (n <= i < length args)%nat -> nth i args 0 = cn \/ nth i args 0 = cs.
Proof.
  intros Ns N0 V Ln M i I. unfold var_letters in V. rewrite forallb_forall in V.
  assert (P : forall j, (n <= j < length f)%nat -> (nth j f 0 =? cn) || (nth j f 0 =? cs) || (nth j f 0 =? cv) = true).
  { intros j J. apply V. rewrite <- (firstn_skipn n f) at 1. rewrite app_nth2 by (rewrite firstn_length; lia). apply nth_In. rewrite firstn_length, skipn_length. lia. }
  destruct M as [M|[[M _]|[[_ M]|(g & x & a & b & E & Ea & Nb & F & G)]]]; [congruence|congruence| |].
  - pose proof (Forall2_length _ _ _ M) as L. apply (var_letter (nth i f 0)); [apply P; lia|]. left. apply fits_from; [exact M|lia].
  - pose proof (Forall2_length _ _ _ F) as L. subst args. destruct (Nat.ltb_spec i (length a)) as [A|A].
    + apply (var_letter (nth i f 0)); [apply P; rewrite E, app_length; cbn [length]; lia|]. left. rewrite E, !app_nth1 by lia. apply fits_from; [exact F|exact A].
    + apply (var_letter x); [|right].
      * assert (Ex : nth (length g) f 0 = x) by (rewrite E, app_nth2 by lia; rewrite Nat.sub_diag; reflexivity). rewrite <- Ex. apply P. rewrite E, app_length in *. cbn [length] in *. lia.
      * rewrite app_nth2 by lia. rewrite Forall_forall in G. apply G. apply nth_In. rewrite app_length in I. lia.
Qed.
Lemma stores_table : forallb (fun c => match stores_from c with
   | None => true
   | Some n => forallb (fun f => (if list_eq_dec Z.eq_dec f [c0] then true else negb (if list_eq_dec Z.eq_dec f [cstar] then true else false) && Nat.ltb n (length f) && var_letters (skipn n f))) (alternatives (format_of cmd_format c)) end)
   [7; 42; 45; 49; 54; 78; 101; 102] = true.
Proof. vm_compute. reflexivity. Qed.
Theorem C66_variables_partial c n args : stores_from c = Some n -> ~ In clt args -> ~ In csemi args -> check_cmd args (format_of cmd_format c) = true ->
  forall i, (n <= i < length args)%nat -> nth i args 0 = cn \/ nth i args 0 = cs.
Proof.
  intros Hs N Ns H i I. assert (Hc : In c [7; 42; 45; 49; 54; 78; 101; 102]).
  { unfold stores_from in Hs. cbn [In]. destruct c as [|p|p]; try discriminate. do 7 (try (destruct p as [p|p|]; try discriminate; try tauto)). }
  apply cmd_check in H; [|intros ->; destruct Hc as [Q|[Q|[Q|[Q|[Q|[Q|[Q|[Q|[]]]]]]]]]; discriminate Q|intros ->; destruct Hc as [Q|[Q|[Q|[Q|[Q|[Q|[Q|[Q|[]]]]]]]]]; discriminate Q|exact N|exact Ns].
  destruct H as (f & If & M). pose proof stores_table as T. rewrite forallb_forall in T. specialize (T c Hc). rewrite Hs in T. rewrite forallb_forall in T. specialize (T f If).
  destruct (list_eq_dec Z.eq_dec f [c0]) as [E|E].
  - subst f. destruct M as [M|[[_ M]|[[_ M]|(g & x & a & b & E & Ea & Nb & F & G)]]]; [discriminate|subst args; cbn in I; lia|inversion M; subst; discriminate|].
    destruct g as [|y g]; [|destruct g; discriminate]. injection E as <-. destruct b; [congruence|]. inversion G; subst. discriminate.
  - apply andb_true_iff in T. destruct T as [T T3]. apply andb_true_iff in T. destruct T as [T1 T2]. apply Nat.ltb_lt in T2. destruct (list_eq_dec Z.eq_dec f [cstar]) as [E2|E2]; [discriminate|].
    apply (matches_var n f args E2 E T3 T2 M i I).
Qed.
(** SPREAD 0,1 is accepted although SPREAD stores into its second argument *)
Theorem C66_spread_refuted : check_cmd [cN; cN] (format_of cmd_format 97) = true. Proof. vm_compute. reflexivity. Qed.
Example C66_used : stores_from 42 = Some 3%nat /\ check_cmd [cN; cN; cN; cn; cn; cn; cn] (format_of cmd_format 42) = true /\ check_cmd [cN; cN; cN; cN] (format_of cmd_format 42) = false.
Proof. repeat split; vm_compute; reflexivity. Qed.

Print Assumptions C46_formats_partial.
Print Assumptions C46_functions.
Print Assumptions C46_commands_partial.
Print Assumptions C46_missing_list_refuted.
Print Assumptions C46_comma_refuted.
Print Assumptions C46_functions_without_format_refuted.
Print Assumptions C65_line_partial.
Print Assumptions C65_one_type.
Print Assumptions C65_for_strings_refuted.
Print Assumptions C65_on_command_refuted.
Print Assumptions C65_no_subscript_refuted.
Print Assumptions C65_label_then_statement_refuted.
Print Assumptions C65_stack_overflow_refuted.
Print Assumptions C65_empty_arguments_refuted.
Print Assumptions C66_variables_partial.
Print Assumptions C66_spread_refuted.
