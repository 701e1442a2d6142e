(** C69: an accepted line never confuses numbers and strings when it runs. *)
From Coq Require Import String Ascii.
From Verif Require Import Base BaseLemmas Num Tokens ExprSpec ExprProofs EvalLine NumText Bytecode BytecodeSpec BytecodeProofs Runner RunnerSpec StmtSpec ExecProofs FlowSpec FlowProofs FlowLine FlowDemo TokTest TokTestSpec TokTestProofs TokTestTypes TokTestProps TypeSpec TypeSound.
Open Scope Z_scope.
Ltac Zify.zify_post_hook ::= Z.div_mod_to_equations.

(** A well-typed expression evaluates to a value of its type or ends with a BASIC error, if every operation does so
    when given operands of the types it takes ([typed_host]: nothing is assumed of operations on other operands,
    so the theorem says that no operation is ever given such operands). *)
Theorem C69_expression : forall h ref lab, typed_host h ref lab -> forall e k st, wfe e -> has_type e k -> in_range (rpn 0 e) ->
  match sem h ref e st with Ok (v, _) => entry_kind v = Some k | Err _ => True | UB => False end.
Proof. intros h ref lab T e k st W H R. pose proof (typed_value h ref lab T e W k 0 st H R) as S. destruct (sem h ref e st) as [[v st']| |]; exact S. Qed.
Print Assumptions C69_expression.

Lemma instrs_range ids l is : instrs ids l = Ok is -> in_range l.
Proof.
  revert is; induction l as [|t l IH]; intros is E; [intros t J; destruct J|]. cbn [instrs] in E. destruct (instr_of ids t) as [i| |] eqn:Q; cbn [bind] in E; try discriminate. destruct (instrs ids l) as [r| |] eqn:Qr; cbn [bind] in E; try discriminate.
  intros x [<-|J] [K|K]; try (eapply IH; eauto; fail).
  - unfold instr_of in Q. rewrite K in *. unfold lit. destruct (u8_to_num (text t)) as [n| |]; cbn [bind] in Q; try discriminate. destruct (_ && _); discriminate.
  - unfold instr_of in Q. rewrite K in *. unfold lit. destruct (u8_to_number _ _ _) as [n| |]; cbn [bind] in Q; discriminate.
Qed.
(** A line accepted by the check, compiled among any other lines and run from its start in any state, leaves the line (or ends with
    a BASIC error) without any operation being given operands of the wrong type; the one exception is RETURN inside FOR without GOSUB (C35).
    Missing: lines with FOR, NEXT (see C65_for_strings_refuted), DATA, SORT, and ON with string variables for labels (refuted below). *)
Theorem C69_line_partial : forall h (lab : labels_fun h) errno ids test before l after start next code,
  (forall f, ids = Some f -> good_ids f) -> (forall x, is_byte (errno x)) -> Forall BytecodeSpec.good_line before -> Forall BytecodeSpec.good_line after ->
  (forall c r, tok_test c = Ok r -> test c = r) -> typed_host h (ref_of ids) lab ->
  proper l -> if_ok l -> checkable l -> (line_width l <= 40)%nat -> plain_lin l ->
  compile_check (line_toks l) = Ok None -> compiled errno ids test before l after start next code ->
  forall k st, exists n, let r := steps lab code n (mkC start [] k 0 st) in
    (exists fin, landed h (ref_of ids) lab code fin k (exec_lin h (ref_of ids) lab l st) r) /\
    (r <> UB \/ (unwind h k = None /\ k <> [] /\ exists st', exec_lin h (ref_of ids) lab l st = Ok (Ret st'))).
Proof.
  intros h lab errno ids test before l after start next code Gi Ge Fb Fa Tt Th Pr If Ck Wd Pl Acc C k st.
  destruct Pr as (Wf & Sp & L).
  assert (Q : compile_check (line_toks l) = tok_test (line_code l)).
  { pose proof (line_compiles l Wf L) as E. unfold compile_check. destruct (tok_prio (line_toks l)) as [p| |]; cbn [bind] in *; try discriminate. destruct (tok_eval p) as [c| |]; cbn [bind] in *; congruence. }
  assert (T0 : test (line_code l) = None) by (apply Tt; congruence).
  assert (WT : well_typed l). { destruct (C65_line_partial l Wf L Ck Wd) as [[A _]|[_ (er & A)]]; [exact A|congruence]. }
  destruct (program_line lab errno ids test before l after start next code Gi Ge Fb Fa (conj Wf (conj Sp L)) If T0 C) as (fin & R & _).
  destruct C as (p & q & Cp & Cq & _).
  destruct (compile_instr errno ids false test before Gi Ge Fb [] p eq_refl Cp) as (ip & Ep & Gp). cbn [app] in Ep.
  assert (Ev : Nat.even (length p) = true) by (rewrite Ep; apply (even_encode [] ip); auto).
  destruct (line_convert ids test l p q Gi (conj Wf (conj Sp L)) Ev T0 Cq) as (is & Qi & _).
  pose proof (instrs_range _ _ _ Qi) as Rg. unfold line_code in Rg. apply in_range_app in Rg as (Rg & _).
  pose proof (lin_safe h (ref_of ids) lab Th l true false true st Wf Sp WT Pl Rg) as S.
  destruct (R k st) as [n N]. exists n. cbv zeta. split; [exists fin; exact N|]. revert N. generalize (steps lab code n (mkC start [] k 0 st)). intros r N.
  destruct N as [k v rest st1 p1 _|k f N].
  - left. cbn in S. destruct S as (kv & K1 & K2). pose proof (th_lab _ _ _ Th v kv st1 K1 K2) as Sl. unfold gosub_to. destruct (lab v st1); cbn in *; try contradiction; destruct (length k =? 255)%nat; discriminate.
  - unfold lands. destruct f as [f|e|]; cbn [bind]; [|left; discriminate|contradiction].
    destruct f as [st1|i st1|v o st1|st1|st1]; try (left; discriminate).
    + exfalso. eapply N. reflexivity.
    + unfold return_to. destruct (unwind h k) as [[a r]|] eqn:U; [left; discriminate|]. destruct k; [left; discriminate|]. right. split; [reflexivity|]. split; [discriminate|]. eauto.
Qed.
Print Assumptions C69_line_partial.

(** ** A host with the operators of Num.v on numbers and strings: it keeps to the types *)
Definition sstate_ : Type := (list Z -> Z) * (list Z -> list Z).
Definition text_of (st : sstate_) (e : entry (list Z)) : list Z := match e with ES _ w => w | ER _ l => snd st l | _ => [] end.
Definition num_of (st : sstate_) (e : entry (list Z)) : Z := match e with EN v => v | ER _ l => fst st l | _ => 0 end.
Definition arith (o a b : Z) : outcome Z :=
  if o =? OP_ADD then op_add a b else if o =? OP_SUBTRACT then op_sub a b else if o =? OP_MULTIPLY then op_mult a b else if o =? OP_EQUAL then op_equal a b
  else if o =? OP_LESS then op_less a b else if o =? OP_AND then op_and a b else Err ERR_UNIMPLEMENTED.
(** a host that stops (UB) as soon as it is given an operand of the wrong type *)
Definition ok_or {A} (b : bool) (x : outcome A) : outcome A := if b then x else UB.
Definition is_num_ (e : entry (list Z)) : bool := match e with EN _ | ER false _ => true | _ => false end.
Definition is_str_ (e : entry (list Z)) : bool := match e with ES _ _ | ER true _ => true | _ => false end.
Definition no_ub (x : outcome Z) : outcome Z := match x with UB => Err ERR_UNIMPLEMENTED | _ => x end.
Definition eqb_l (a b : list Z) : bool := if list_eq_dec Z.eq_dec a b then true else false.
Definition refname (r : vref) : list Z := match r with ByName _ w => w | ById i => [] end.
Definition strict : host := mkHost sstate_ (list Z) eqb_l (fun st l => fst st l) (fun st l v => ((fun j => if eqb_l j l then v else fst st j), snd st))
  (fun r st => Ok (dollar (refname r), refname r, st))
  (fun r args st => ok_or (forallb is_num_ args) (Ok (dollar (refname r), refname r ++ map (num_of st) args, st)))
  (fun w args st => ok_or (forallb is_num_ args) (Err ERR_DUPLICATE_DIM))
  (fun o e st => ok_or (is_num_ e) (let* v := no_ub (if o =? OP_NEGATE then op_negate (num_of st e) else op_logical_not (num_of st e)) in Ok (EN v, st)))
  (fun o a b st =>
     if is_num_ a && is_num_ b then let* v := no_ub (arith o (num_of st a) (num_of st b)) in Ok (EN v, st)
     else if is_str_ a && is_num_ b && (o =? OP_MULTIPLY) then Ok (ES false (concat (repeat (text_of st a) (Z.to_nat (num_of st b / 4096)))), st)
     else if is_str_ a && is_str_ b && (o =? OP_ADD) then Ok (ES false (text_of st a ++ text_of st b), st)
     else if is_str_ a && is_str_ b && compares o then Ok (EN (if eqb_l (text_of st a) (text_of st b) then 4096 else 0), st)
     else UB)
  (fun l v st => ok_or (is_str_ v) (Ok (fst st, (fun j => if eqb_l j l then text_of st v else snd st j))))
  (fun c args st => match fun_type c with Str => Ok (ES false [], st) | _ => match args with [a] => if c =? 20 (* LEN *) then ok_or (is_str_ a) (Ok (EN (4096 * Z.of_nat (length (text_of st a))), st)) else Ok (EN 0, st) | _ => Ok (EN 0, st) end end)
  (fun c st => Ok (ER (match sys_of c with StrVar => true | _ => false end) [c], st))
  (fun _ st => Ok st)
  (fun c vs st => if c =? 1 (* LOCATE *) then ok_or (forallb is_num_ vs) (Ok st) else Ok st).
Definition strict_lab : labels_fun strict := fun e st => ok_or (is_str_ e) (Ok 0).

Lemma kind_is_num (e : entry (list Z)) k : entry_kind e = Some k -> is_num_ e = numeric k /\ is_str_ e = negb (numeric k).
Proof. destruct e as [| |[]|]; cbn; intros [= <-]; auto. Qed.
Lemma kinds_num vs ks : Forall2 (fun (v : entry (list Z)) k => entry_kind v = Some k) vs ks -> Forall (fun k => numeric k = true) ks -> forallb is_num_ vs = true.
Proof. induction 1 as [|v k vs ks E F IH]; intros N; [reflexivity|]. inversion N; subst. cbn. destruct (kind_is_num _ _ E) as (-> & _). rewrite H1. auto. Qed.
Lemma no_ub_safe x st : safe (fun '(r, _) => entry_kind r = Some Num) (let* v := no_ub x in Ok (@EN (list Z) v, st : sstate_)).
Proof. destruct x; cbn; auto. Qed.
Lemma len_arg k : accepts (format_of func_format 20) (map letter [k]) -> numeric k = false.
Proof.
  intros A. apply C46_functions in A; [destruct k; auto; vm_compute in A; discriminate|]. destruct k; vm_compute; intros [E|[]]; discriminate.
Qed.
Lemma locate_args zs : accepts (format_of cmd_format 1) zs -> Forall (fun z => z = cN \/ z = cn) zs.
Proof.
  intros (f & I & M). change (alternatives (format_of cmd_format 1)) with [[cN; cN]] in I. destruct I as [<-|[]]. destruct M as [M|[[M _]|[[_ M]|(g & x & a & b & E & -> & Nb & F & G)]]]; try discriminate.
  - assert (K : forall z, letter_fits cN z = true -> z = cN \/ z = cn) by (intros z Hz; unfold letter_fits in Hz; rewrite Z.eqb_refl in Hz; apply orb_true_iff in Hz; rewrite !Z.eqb_eq in Hz; tauto).
    inversion M; subst. inversion H3; subst. inversion H5; subst. apply Forall_cons; [auto|]. apply Forall_cons; [auto|]. apply Forall_nil.
  - exfalso. assert (x = cN) by (change [cN; cN] with ([cN] ++ [cN]) in E; apply app_inj_tail in E as (_ & E); congruence). subst x. destruct b as [|z b]; [congruence|]. inversion G; subst. discriminate.
Qed.
Lemma strict_typed : typed_host strict (ref_of None) strict_lab.
Proof.
  constructor; cbn [strict St Loc hvar harr hdim hun hbin hfun hsys hsassign hcheck hcmd]; intros.
  - reflexivity.
  - rewrite (kinds_num _ _ H H0). reflexivity.
  - rewrite (kinds_num _ _ H H0). exact I.
  - destruct (kind_is_num _ _ H0) as (-> & _). rewrite H1. apply no_ub_safe.
  - destruct (kind_is_num _ _ H0) as (-> & ->). destruct (kind_is_num _ _ H1) as (-> & ->). unfold bin_type in H2.
    destruct (numeric ka), (numeric kb); cbn [negb andb]; try discriminate.
    + injection H2 as <-. apply no_ub_safe.
    + destruct (o =? OP_MULTIPLY); [|discriminate]. injection H2 as <-. reflexivity.
    + destruct (compares o) eqn:Co; [|destruct (o =? OP_ADD); [|discriminate]]; injection H2 as <-.
      * destruct (Z.eqb_spec o OP_ADD) as [->|]; [discriminate|]. reflexivity.
      * reflexivity.
  - unfold fun_type in *. destruct (existsb _ _) eqn:Fc; [reflexivity|]. destruct vs as [|a [|? ?]]; try reflexivity. destruct (Z.eqb_spec c 20) as [->|]; [|reflexivity].
    inversion H; subst. inversion H5; subst. destruct (kind_is_num _ _ H3) as (_ & ->). rewrite (len_arg _ H0). reflexivity.
  - unfold sys_of. destruct (existsb _ _); reflexivity.
  - destruct (kind_is_num _ _ H) as (_ & ->). rewrite H0. exact I.
  - destruct (Z.eqb_spec c 1) as [->|]; [|exact I]. apply locate_args in H1. assert (E : forallb is_num_ vs = true); [|rewrite E; exact I].
    clear H. induction H0 as [|v z vs zs S F IH]; [reflexivity|]. inversion H1; subst. cbn. rewrite IH by assumption. destruct S as [(k & K & ->)|((w & ->) & ->)].
    + destruct (kind_is_num _ _ K) as (-> & _). destruct k; cbn in *; auto; exfalso; destruct H2 as [E|E]; vm_compute in E; discriminate.
    + exfalso. destruct H2 as [E|E]; vm_compute in E; discriminate.
  - reflexivity.
  - reflexivity.
  - unfold strict_lab. destruct (kind_is_num _ _ H) as (_ & ->). rewrite H0. exact I.
Qed.
(** The hypotheses hold of: IF A>1 THEN LOCATE 1,B(2):PRINT A$;"X" ELSE @L *)
Definition test_ (c : list token) : option err := match tok_test c with Ok r => r | _ => None end.
Example C69_used : typed_host strict (ref_of None) strict_lab /\ (forall c r, tok_test c = Ok r -> test_ c = r) /\
  proper TokTestProps.good_line /\ if_ok TokTestProps.good_line /\ checkable TokTestProps.good_line /\ (line_width TokTestProps.good_line <= 40)%nat /\ plain_lin TokTestProps.good_line /\
  compile_check (line_toks TokTestProps.good_line) = Ok None /\ exists start next code, compiled (fun _ => 0) None test_ [] TokTestProps.good_line [] start next code.
Proof.
  split; [exact strict_typed|]. split; [intros c r E; unfold test_; now rewrite E|]. split; [unfold proper, TokTestProps.good_line; prop_tac|]. split; [unfold TokTestProps.good_line; prop_tac|].
  destruct C65_used as (_ & _ & A & B & C). split; [exact A|]. split; [exact B|]. split; [cbn; auto|]. split; [exact C|].
  do 3 eexists. do 2 eexists. split; [reflexivity|]. split; [vm_compute; reflexivity|]. split; [vm_compute; reflexivity|]. split; reflexivity.
Qed.

(** ON 0 GOTO A$ is accepted, but where the string variable's text is needed its record is taken for a string. *)
Theorem C69_on_variable_refuted : exists l, compile_check (line_toks l) = Ok None /\ well_typed l /\ proper l /\
  forall st : St strict, exec_lin strict (ref_of None) strict_lab l st = UB.
Proof.
  exists (LOne (SOn (nu "0") CMD_GOTO [AE (nm "A$")])). split; [vm_compute; reflexivity|]. split; [|split].
  - split; [exists Num; split; [constructor|reflexivity]|]. exists [cs]. split; [repeat constructor; exists StrVar; split; [constructor|reflexivity]|].
    exists [cl_]. split; [right; left; reflexivity|]. right. right. right. exists [], cl_, [], [cs]. repeat split; try constructor; try discriminate; try reflexivity. constructor.
  - unfold proper. prop_tac.
  - intros st. reflexivity.
Qed.
Print Assumptions C69_on_variable_refuted.
