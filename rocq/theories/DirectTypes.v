(** C81: lines that are badly typed, in direct mode with the checker of arguments. *)
From Coq Require Import String Ascii.
From Verif Require Import Base BaseLemmas Tokens ExprSpec StmtSpec EvalLine TokTest TokTestSpec TokTestTypes TokTestProps.
From Verif Require Import NumText Hash HashProofs Labels LabelsProofs Bytecode BytecodeSpec BytecodeProofs Runner RunnerSpec ExecProofs FlowSpec ForSpec ProgSpec Lexer LexSpec LexProofs LexProps Link ProgProofs ProgEnd ProgProps.
From Verif Require Import Vars Strs ConsoleSpec Machine Ideal MachineHost MachineProps Ask IdealAsk AskHost Acls Direct IdealDirect DirectProofs.
From Verif Require DirectProps.
Local Open Scope string_scope.
Local Open Scope list_scope.
Open Scope Z_scope.

(** The checker looks at what the line was turned into; [checked] is it (Acls.v).  A line of the language that is not well typed is refused. *)
Lemma badly_typed_refused errno labels t l : line_spelled (t ++ [13]) (line_toks l) -> wfl false true l -> (length (line_toks l) <= 100)%nat -> checkable l -> (line_width l <= 40)%nat -> ~ well_typed l ->
  exists e, refused errno checked labels t e.
Proof.
  intros Sp W L C Wd Nt. destruct (C65_line_partial l W L C Wd) as [[T _]|[_ [er Q]]]; [contradiction|].
  pose proof (C67_source_partial [t ++ [13]] [line_toks l] ltac:(constructor; [exact Sp|constructor]) ltac:(constructor; [exact L|constructor])) as Lx. cbn [concat map] in Lx. rewrite app_nil_r in Lx.
  unfold refused, link_text. rewrite Lx. cbn [bind link]. unfold compile_check in Q.
  assert (Cv : forall d, convert None false checked d (line_toks l) = Ok (d, Some er)).
  { intros d. unfold convert. rewrite andb_false_r. destruct (tok_prio (line_toks l)) as [p| |]; cbn [bind] in *; try discriminate. destruct (tok_eval p) as [c| |]; cbn [bind] in *; try discriminate.
    unfold checked. rewrite Q. reflexivity. }
  unfold link_line. destruct (line_toks l) as [|t0 r] eqn:E.
  - rewrite Cv. cbn [bind app]. do 4 eexists. reflexivity.
  - destruct (is_ty t0 label); [destruct (add_label _ _ _)|]; rewrite ?Cv; cbn [bind app]; do 4 eexists; reflexivity.
Qed.

(** ** C81: in direct mode a line of the language that is not well typed (C65) is carried out by no part: the computer keeps it in CODE$, says what is wrong (one of its messages)
    and asks again.
    Missing from the full statement: as in C81_direct_partial; lines of more than 100 words or with more than 40 values waiting (C65_stack_overflow_refuted). *)
Theorem C81_badly_typed_partial : forall errno n elements labels k todo ks s1 t todo1 s2 l,
  0 <= n <= 18 -> 0 <= elements -> elements + 2 * 2 ^ n < 2 ^ 30 -> 0 <= labels ->
  let cells := elements + 2 * 2 ^ n in
  line_spelled (t ++ [13]) (line_toks l) -> wfl false true l -> (length (line_toks l) <= 100)%nat -> checkable l -> (line_width l <= 40)%nat -> ~ well_typed l ->
  session errno checked labels (2 ^ n) cells k (switched_on, todo) (s1, Some t :: todo1) -> player todo ks -> typed_line (2 ^ n) s1 t s2 -> ~ debug_line t ->
  exists e m f m1 ks1 m2 ks2, direct_start (2 ^ n) elements = Ok m /\ player todo1 ks2 /\ MachineProps.shows (2 ^ n) cells s1 m1 /\ MachineProps.shows (2 ^ n) cells (say s2 (complaint e)) m2 /\
    forall fuel, (f <= fuel)%nat -> direct errno checked (2 ^ labels) fuel k m ks = Ok (Some (m1, ks1)) /\ direct_turn errno checked (2 ^ labels) fuel m1 ks1 = Ok (Some (m2, ks2)).
Proof.
  intros errno n elements labels k todo ks s1 t todo1 s2 l Hn He Hc Hl cells Sp W L C Wd Nt X P Ty Nd.
  destruct (badly_typed_refused errno labels t l Sp W L C Wd Nt) as [e R]. destruct (start_direct n cells Hn elements He eq_refl Hc) as (m & E & S).
  destruct (session_ok n cells labels Hn Hl errno checked k _ _ _ _ m ks X S P) as (f1 & m1 & ks1 & G1 & S1 & P1).
  destruct (turn_ok n cells labels Hn Hl errno checked _ _ _ _ m1 ks1 (turn_wrong errno checked labels (2 ^ n) cells s1 t todo1 s2 e Ty Nd R) S1 P1) as (f2 & m2 & ks2 & G2 & S2 & P2).
  exists e, m, (Nat.max f1 f2), m1, ks1, m2, ks2. split; [exact E|]. split; [exact P2|]. split; [apply SR_shows; assumption|]. split; [apply SR_shows; assumption|].
  intros fuel F. split; [apply G1; lia|apply G2; lia].
Qed.
Print Assumptions C81_badly_typed_partial.
(** A=1:LOCATE 1: the first statement is not carried out either *)
Definition short_locate : lin := LSeq (SLet (nm "A") (nu "1")) (LOne (SCmd 1 [AE (nu "1")])).
Example C81_badly_typed_used : wfl false true short_locate /\ (length (line_toks short_locate) <= 100)%nat /\ checkable short_locate /\ (line_width short_locate <= 40)%nat /\ ~ well_typed short_locate /\
  line_spelled (letters "A=1:LOCATE 1" ++ [13]) (line_toks short_locate) /\ ~ debug_line (letters "A=1:LOCATE 1") /\ exists s2, typed_line (2 ^ 4) switched_on (letters "A=1:LOCATE 1") s2.
Proof.
  assert (W : wfl false true short_locate).
  { unfold short_locate, nm, nu, fine, ordinary. cbn. unfold fine, ordinary. cbn. repeat split; try lia; try discriminate; try tauto; try in_no; try (constructor; [split; [right; reflexivity|]|]); repeat constructor; cbn; try lia; try discriminate; try tauto; auto; repeat split; try lia; try discriminate; auto. }
  assert (L : (length (line_toks short_locate) <= 100)%nat) by (vm_compute; lia).
  assert (C : checkable short_locate).
  { unfold short_locate, nm, nu. cbn. repeat split; try lia; try discriminate; try tauto; auto; repeat constructor; cbn; try lia; try discriminate; auto. }
  assert (Wd : (line_width short_locate <= 40)%nat) by (vm_compute; lia).
  split; [exact W|]. split; [exact L|]. split; [exact C|]. split; [exact Wd|]. split; [|split; [|split; [intros [Q|Q]; vm_compute in Q; discriminate Q|]]].
  - intros T. destruct (C65_line_partial _ W L C Wd) as [[_ Q]|[N _]]; [vm_compute in Q; discriminate Q|contradiction].
  - cbn [app]. lx (letters "A") kName. lx (letters "=") ltac:(kOp 6%nat). lx (letters "1") kNum. lx (letters ":") ltac:(apply LxColon). lx (letters "LOCATE") ltac:(cmd 1%nat). lx (letters "1") kNum. apply SpEnd.
  - pose proof (DirectProps.typed_line_f (2 ^ 4) switched_on (letters "A=1:LOCATE 1")) as T.
    assert (K : match Ideal.ivar (2 ^ 4) (ByName false variable_name) switched_on with Ok (true, l, s0) => match ask (page s0) with Ok p => True | _ => False end | _ => False end) by (vm_compute; exact I).
    destruct (Ideal.ivar _ _ _) as [[[[|] l] s0]| |]; try contradiction. destruct (ask (page s0)) as [p| |]; try contradiction. eexists. exact T.
Qed.
