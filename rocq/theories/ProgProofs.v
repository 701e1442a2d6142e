From Verif Require Import Base BaseLemmas Tokens ExprSpec ExprProofs EvalProofs NumText Hash HashProofs Labels LabelsProofs Bytecode BytecodeSpec BytecodeProofs Runner RunnerSpec RunnerProofs ExecProofs StmtSpec StmtProofs EvalLine FlowSpec FlowProofs FlowLine ForSpec ForProofs ProgSpec Link.
Ltac Zify.zify_post_hook ::= Z.div_mod_to_equations.
Notation here pre := (Z.of_nat (length pre)).

(** ** the code of statements *)
Section Code.
Variable ids : option ids_fun.
Hypothesis Gi : forall f, ids = Some f -> good_ids f.
Definition data_of (src : list Z) : list Z := data_loop DNone src.
Definition ucode (u : statement) : outcome (list instr) :=
  match u with
  | ULab w => Ok [ILabel w]
  | UDo l => instrs ids (line_code l)
  | UFor lv a b s => instrs ids (scode true (SFor lv a b s))
  | UNext args => instrs ids (scode true (SCmd CMD_NEXT args))
  | UCheck c => Ok [ICheck c]
  | UData src => Ok [IData (data_of src)]
  end.
Fixpoint ucodes (us : list statement) : outcome (list (list instr)) :=
  match us with [] => Ok [] | u :: r => let* i := ucode u in let* is := ucodes r in Ok (i :: is) end.
Lemma ucodes_app a b : ucodes (a ++ b) = let* x := ucodes a in let* y := ucodes b in Ok (x ++ y).
Proof.
  induction a as [|u a IH]; cbn [app ucodes bind]; [destruct (ucodes b); reflexivity|]. destruct (ucode u); cbn [bind]; try reflexivity.
  rewrite IH. destruct (ucodes a); cbn [bind]; try reflexivity. destruct (ucodes b); reflexivity.
Qed.
Lemma ucodes_checks cs : ucodes (map UCheck cs) = Ok (map (fun c => [ICheck c]) cs).
Proof. induction cs as [|c cs IH]; [reflexivity|]. cbn [map ucodes ucode bind]. rewrite IH. reflexivity. Qed.
Lemma has_if_seq s l : has_if (LSeq s l) = has_if l. Proof. reflexivity. Qed.
Lemma line_code_seq s l : line_code (LSeq s l) = scode true s ++ line_code l.
Proof. unfold line_code. cbn [lcode has_if]. rewrite <- app_assoc. reflexivity. Qed.
Lemma line_code_one s : line_code (LOne s) = scode true s.
Proof. unfold line_code. cbn [lcode has_if]. apply app_nil_r. Qed.
Lemma ucode_statement s : ucode (statement_of s) = instrs ids (scode true s).
Proof.
  destruct s; cbn [statement_of ucode]; try (rewrite line_code_one; reflexivity); try reflexivity.
  destruct (c =? CMD_NEXT) eqn:E; cbn [ucode]; [apply Z.eqb_eq in E; subst; reflexivity|rewrite line_code_one; reflexivity].
Qed.
Lemma ucodes_line l : forall is, instrs ids (line_code l) = Ok is -> exists iss, ucodes (statements_of l) = Ok iss /\ concat iss = is.
Proof.
  induction l as [s|s l IH|e t _ el]; intros is; cbn [statements_of ucodes].
  - rewrite line_code_one, ucode_statement. intros ->. cbn [bind]. exists [is]. split; [reflexivity|apply app_nil_r].
  - rewrite line_code_seq, instrs_app, ucode_statement. destruct (instrs ids (scode true s)) as [i1| |]; cbn [bind]; try discriminate.
    destruct (instrs ids (line_code l)) as [i2| |]; cbn [bind]; try discriminate. intros [= <-]. destruct (IH i2 eq_refl) as (iss & E & F). rewrite E. cbn [bind].
    exists (i1 :: iss). split; [reflexivity|]. cbn. rewrite F. reflexivity.
  - cbn [ucode]. intros ->. cbn [bind]. exists [is]. split; [reflexivity|apply app_nil_r].
Qed.
Definition uok (u : statement) : Prop :=
  match u with
  | ULab w => valid_name w
  | UDo l => wfl false true l /\ okl l /\ if_ok l /\ ~ starts_go l
  | UFor lv a b s => wfs (SFor lv a b s) /\ sspelled (SFor lv a b s) /\ (length (stoks (SFor lv a b s)) <= 100)%nat
  | UNext args => Forall afine args /\ Forall aspelled args /\ (length (concat (map atoks args)) < 100)%nat /\ (length args <= 1)%nat
  | UCheck c => is_byte c
  | UData src => Forall is_byte src /\ (length src < 128)%nat
  end.
Lemma data_len : forall src st, (length (data_loop st src) <= length src)%nat.
Proof. induction src as [|c r IH]; intros st; cbn [data_loop length]; [lia|]. destruct st; repeat match goal with |- context [if ?b then _ else _] => destruct b end; cbn [length]; match goal with |- context [data_loop ?s r] => specialize (IH s) end; lia. Qed.
Lemma data_bytes : forall src st, Forall is_byte src -> Forall is_byte (data_loop st src).
Proof.
  induction src as [|c r IH]; intros st F; cbn [data_loop]; [constructor|]. inversion F; subst.
  assert (is_byte BC_DATA_DELIM /\ is_byte BC_DATA_ERROR) as [? ?] by (unfold is_byte, BC_DATA_DELIM, BC_DATA_ERROR; lia).
  destruct st; repeat match goal with |- context [if ?b then _ else _] => destruct b end; auto.
Qed.
Lemma ucode_good u is : uok u -> ucode u = Ok is -> Forall good is.
Proof.
  destruct u as [w|l|lv a b s|args|c|src]; cbn [uok ucode].
  - intros [L F] [= <-]. constructor; [|constructor]. cbn. split; [eapply Forall_impl; [|exact F]; cbn; unfold is_byte; intros; lia|lia].
  - intros (Wf & O & _) Q. unfold line_code in Q. rewrite instrs_app in Q. destruct (instrs ids (lcode true l)) as [i1| |] eqn:Q1; cbn [bind] in Q; try discriminate.
    destruct (lcode_good ids Gi l true _ _ i1 Wf O Q1) as [G _]. destruct (has_if l); cbn in Q; injection Q as <-; [|rewrite app_nil_r; exact G].
    apply Forall_app. split; [exact G|constructor; [cbn; unfold is_byte, CMD_ENDIF; lia|constructor]].
  - intros (Wf & Sp & _) Q. destruct (lp_stmt (SFor lv a b s) true Wf Sp). eapply instrs_good; eauto.
  - intros (Fa & Sa & _) Q. destruct (lp_stmt (SCmd CMD_NEXT args) true) as [L P]; [split; [|exact Fa]|split; [unfold is_byte, CMD_NEXT; lia|exact Sa]|eapply instrs_good; eauto].
    unfold ordinary. intros X. cbn in X. repeat (destruct X as [X|X]; [discriminate X|]). exact X.
  - intros B [= <-]. constructor; [exact B|constructor].
  - intros [B L] [= <-]. constructor; [|constructor]. cbn. split; [apply data_bytes; exact B|]. pose proof (data_len src DNone). unfold data_of. lia.
Qed.
End Code.

(** ** compiling a program *)
Lemma line_convert2 ids test l d d' : (forall f, ids = Some f -> good_ids f) -> wfl false true l -> all_stmts sspelled spelled l -> (length (line_toks l) <= 100)%nat -> Nat.even (length d) = true ->
  convert ids false test d (line_toks l) = Ok (d', None) ->
  exists is, instrs ids (line_code l) = Ok is /\ d' = d ++ encode (is ++ map ICheck (line_checks l)).
Proof.
  intros Gi Wf Sp L E C. unfold convert in C. rewrite andb_false_r in C.
  pose proof (line_compiles l Wf L) as Lc. destruct (tok_prio (line_toks l)) as [p| |]; cbn [bind] in *; try discriminate. rewrite Lc in C. cbn [bind] in C. destruct (test (line_code l)); [discriminate|].
  assert (Lp : lp (line_code l)).
  { unfold line_code. apply lp_app; [eapply lp_lin; eassumption|]. destruct (has_if l); [|apply lp_nil]. apply (lp_cmd false CMD_ENDIF); [unfold is_byte, CMD_ENDIF; lia|intro Q; discriminate Q]. }
  destruct Lp as [Lx Pl]. unfold tok_code in C. pose proof (code_loop_app ids (line_code l) Gi Lx Pl d [] [] E) as A. rewrite app_nil_r in A. destruct (instrs ids (line_code l)) as [is|e|] eqn:Q.
  - destruct A as [vs A]. cbn [code_loop] in A. rewrite A in C. cbn [bind] in C. apply code_loop_vs in A; [|exact Pl]. injection C as <-. exists is. split; [reflexivity|].
    rewrite A, (proj1 (validations_enc (line_code l) 0)), encode_app, app_assoc. reflexivity.
  - destruct A as (d1 & vs & A). rewrite A in C. cbn [bind] in C. discriminate C.
  - rewrite A in C. discriminate C.
Qed.
Lemma padded_even d x : Nat.even (length d) = true -> padded (d ++ [BC_LABEL; len x] ++ x) = d ++ enc (ILabel x) /\ padded (d ++ [BC_DATA; len x] ++ x) = d ++ enc (IData x).
Proof.
  intros E. assert (O : forall a, Nat.odd (length (d ++ [a; len x] ++ x)) = Nat.odd (length x)).
  { intros a. rewrite app_length. cbn [length app]. rewrite Nat.odd_add, <- (Nat.negb_even (length d)), E. cbn [negb xorb]. change (S (S (length x))) with (2 + length x)%nat. rewrite Nat.odd_add. change (Nat.odd 2) with false. destruct (Nat.odd (length x)); reflexivity. }
  unfold padded. rewrite !O. unfold enc, pad. split; destruct (Nat.odd (length x)); rewrite <- ?app_assoc, ?app_nil_r; cbn [app]; rewrite ?app_nil_r; reflexivity.
Qed.
Lemma convert_step ids test d l r d' : (let* p := tok_prio l in tok_eval p) = Ok r -> convert ids false test d l = Ok (d', None) -> tok_code ids d r = Ok (d', None).
Proof. intros E C. unfold convert in C. rewrite andb_false_r in C. destruct (tok_prio l); cbn [bind] in *; try discriminate. rewrite E in C. cbn [bind] in C. destruct (test r); [discriminate|exact C]. Qed.
Lemma label_convert ids test w d d' : valid_name w -> Nat.even (length d) = true -> convert ids false test d [label_tok w; nl] = Ok (d', None) -> d' = d ++ enc (ILabel w).
Proof.
  intros [L F] E C. apply (convert_step _ _ _ _ [label_tok w]) in C; [|reflexivity]. unfold tok_code, label_tok in C. cbn [code_loop] in C. unfold code_token in C. cbn [ty bind is_ty] in C.
  unfold with_text, body in C. cbn [cl text] in C. rewrite Nat2Z.id, firstn_all in C. destruct (padded_even d w E) as [P _]. unfold len in P. rewrite P in C. cbn [code_loop bind] in C. change (validations []) with (@nil Z) in C. rewrite app_nil_r in C. injection C as <-. reflexivity.
Qed.
Lemma data_convert ids test src d d' : (length src < 128)%nat -> Nat.even (length d) = true -> convert ids false test d [mk command CMD_DATA 0 src; nl] = Ok (d', None) -> d' = d ++ enc (IData (data_of src)).
Proof.
  intros L E C. apply (convert_step _ _ _ _ [mk command CMD_DATA 0 src]) in C; [|reflexivity]. unfold tok_code in C. cbn [code_loop] in C. unfold code_token in C. cbn [ty bind is_ty cl text] in C.
  change (CMD_DATA =? CMD_DATA) with true in C. cbn [bind] in C. idtac. unfold tok_data in C. pose proof (data_len src DNone) as Ld.
  rewrite u8_small in C by lia. destruct (padded_even d (data_loop DNone src) E) as [_ P]. unfold len in P. rewrite P in C. cbn [code_loop bind] in C. change (validations []) with (@nil Z) in C. rewrite app_nil_r in C. injection C as <-. reflexivity.
Qed.
Lemma note_convert ids test r d d' : convert ids false test d (ptoks (PNote r)) = Ok (d', None) -> d' = d.
Proof.
  intros C. destruct r as [r|]; unfold convert in C; rewrite andb_false_r in C; cbn in C; destruct (test _); try discriminate; unfold tok_code in C; cbn in C; rewrite ?app_nil_r in C; injection C as <-; reflexivity.
Qed.
(** positions of the labels *)
Fixpoint defs_of (at_ : Z) (us : list statement) (iss : list (list instr)) : list (list Z * Z) :=
  match us, iss with
  | u :: us, is :: iss => match u with ULab w => [(w, at_)] | _ => [] end ++ defs_of (at_ + here (encode is)) us iss
  | _, _ => []
  end.
Lemma defs_app us1 us2 : forall iss1 iss2 at_, length us1 = length iss1 -> defs_of at_ (us1 ++ us2) (iss1 ++ iss2) = defs_of at_ us1 iss1 ++ defs_of (at_ + here (encode (concat iss1))) us2 iss2.
Proof.
  induction us1 as [|u us1 IH]; intros [|i iss1] iss2 at_; cbn [length]; try discriminate; intros L.
  - cbn. rewrite Z.add_0_r. reflexivity.
  - cbn [app defs_of concat]. rewrite IH by lia. rewrite <- app_assoc. f_equal. f_equal. f_equal. rewrite encode_app, app_length. lia.
Qed.
Definition no_lab (u : statement) : Prop := match u with ULab _ => False | _ => True end.
Lemma defs_none us : Forall no_lab us -> forall iss at_, defs_of at_ us iss = [].
Proof. induction 1 as [|u us N _ IH]; intros [|i iss] at_; try reflexivity. cbn [defs_of]. rewrite IH. destruct u; try contradiction; reflexivity. Qed.
Lemma statements_no_lab l : Forall no_lab (statements_of l ++ map UCheck (line_checks l)).
Proof.
  apply Forall_app. split.
  - assert (S : forall s, no_lab (statement_of s)) by (intros s; destruct s; cbn; try exact I; destruct (_ =? _); exact I).
    induction l as [s|s l IH|e t _ el]; cbn [statements_of]; [constructor; [apply S|constructor]|constructor; [apply S|exact IH]|constructor; [exact I|constructor]].
  - apply Forall_map, Forall_forall. intros; exact I.
Qed.
Lemma ucodes_length ids us : forall iss, ucodes ids us = Ok iss -> length us = length iss.
Proof. induction us as [|u us IH]; intros iss; cbn [ucodes]; [intros [= <-]; reflexivity|]. destruct (ucode ids u); cbn [bind]; try discriminate. destruct (ucodes ids us) as [x| |]; cbn [bind]; try discriminate. intros [= <-]. cbn. f_equal. apply IH. reflexivity. Qed.
Lemma load_app a b l : load l (a ++ b) = match load l a with Some l => load l b | None => None end.
Proof. revert l. induction a as [|[w i] a IH]; intros l; [reflexivity|]. cbn [app load]. destruct (add_label l w i); [apply IH|reflexivity]. Qed.

(** the statements of a proper line are proper *)
Lemma okl_basic : forall l, all_stmts basic (fun _ => True) l -> all_stmts sspelled spelled l -> all_stmts (fun s => sspelled s /\ basic s) spelled l.
Proof. fix IH 1. destruct l as [s|s l|e t el]; cbn [all_stmts]; [tauto|intros [A B] [C D]; split; [tauto|apply IH; assumption]|intros (A & B & C) (D & E & F); split; [assumption|split; [apply IH; assumption|destruct el; [apply IH; assumption|exact I]]]]. Qed.
Lemma line_uok : forall l, wfl false true l -> all_stmts sspelled spelled l -> (length (line_toks l) <= 100)%nat -> if_ok l -> plain_line l -> Forall uok (statements_of l).
Proof.
  assert (One : forall s, wfs s -> sspelled s -> not_go s -> plain_stmt s -> (length (stoks s) < 100)%nat -> uok (statement_of s)).
  { intros s W S N P L.
    assert (B : basic s -> uok (UDo (LOne s))).
    { intros B. cbn [uok]. split; [|split; [|split; [exact I|destruct s; try (intro Q; exact Q); destruct N]]].
      - cbn [wfl]. auto.
      - unfold okl. cbn [all_stmts]. split; [exact S|]. split; [exact B|lia]. }
    destruct s as [lv e|c args|e c args|items last|lv a b s|w|items]; cbn [statement_of plain_stmt] in *; try (apply B; exact P).
    - destruct (c =? CMD_NEXT) eqn:E; [|destruct P as [[P _]|P]; [lia|apply B; exact P]]. apply Z.eqb_eq in E. subst c. cbn [uok].
      destruct P as [[_ P]|[P _]]; [|exfalso; apply P; cbn; tauto]. destruct W as [_ W]. destruct S as [_ S]. split; [exact W|]. split; [exact S|]. split; [|exact P].
      cbn [stoks length] in L. destruct args as [|x [|y r]]; cbn [map sep concat length] in *; [lia| |lia]. rewrite app_nil_r. lia.
    - cbn [uok]. split; [exact W|]. split; [exact S|lia]. }
  fix IH 1. destruct l as [s|s l|e t el]; intros W S L If P; cbn [statements_of].
  - constructor; [|constructor]. cbn [wfl] in W. unfold line_toks in L. cbn [ltoks] in L. rewrite app_length in L. cbn [length] in L. apply One; [apply W|exact S|apply W; reflexivity|exact P|lia].
  - cbn [wfl] in W. destruct W as (W1 & W2 & W3 & W4). destruct S as [S1 S2]. destruct P as [P1 P2]. unfold line_toks in L. cbn [ltoks] in L. rewrite !app_length in L. cbn [length] in L.
    constructor; [apply One; auto; lia|]. apply IH; auto. unfold line_toks. rewrite app_length. cbn [length]. lia.
  - constructor; [|constructor]. cbn [uok]. split; [exact W|]. split; [|split; [exact If|intro Q; exact Q]]. apply okl_of; [|exact L]. apply okl_basic; assumption.
Qed.
Lemma program_uok prog : Forall proper_pline prog -> Forall uok (statements prog).
Proof.
  unfold statements. induction 1 as [|p prog P _ IH]; [constructor|]. cbn [map concat]. apply Forall_app. split; [|exact IH]. destruct p as [w|l|r|src]; cbn [line_statements proper_pline] in *.
  - constructor; [exact P|constructor].
  - destruct P as (A & B & C & D & E). apply Forall_app. split; [apply line_uok; assumption|]. apply Forall_map. eapply Forall_impl; [|apply checked_bytes]. intros a X. exact X.
  - constructor.
  - constructor; [exact P|constructor].
Qed.
Lemma link_program errno ids test prog : (forall f, ids = Some f -> good_ids f) -> Forall proper_pline prog -> forall d tbl code tbl', Nat.even (length d) = true ->
  link errno ids false test d tbl (map (fun p => Tokens (ptoks p)) prog) = Ok (code, tbl', []) ->
  exists iss, ucodes ids (statements prog) = Ok iss /\ code = d ++ encode (concat iss) /\ load tbl (defs_of (here d) (statements prog) iss) = Some tbl'.
Proof.
  intros Gi F. induction F as [|p prog P F IH]; intros d tbl code tbl' E.
  - cbn [map link]. intros [= <- <-]. exists []. split; [reflexivity|]. split; [cbn; rewrite app_nil_r; reflexivity|reflexivity].
  - cbn [map link]. destruct (link_line errno ids false test d tbl (ptoks p)) as [[[d1 tbl1] es]| |] eqn:Q; cbn [bind]; try discriminate.
    destruct (link errno ids false test d1 tbl1 (map (fun p => Tokens (ptoks p)) prog)) as [[[d2 tbl2] es2]| |] eqn:Q2; cbn [bind]; try discriminate.
    intros [= <- <- X]. apply app_eq_nil in X as [-> ->].
    assert (K : exists iss1, ucodes ids (line_statements p) = Ok iss1 /\ d1 = d ++ encode (concat iss1) /\ load tbl (defs_of (here d) (line_statements p) iss1) = Some tbl1).
    { destruct p as [w|l|r|src]; cbn [line_statements proper_pline ptoks] in *.
      - unfold link_line, label_tok in Q. cbn [is_ty ty text cl] in Q. rewrite Nat2Z.id, firstn_all in Q. destruct (add_label tbl w (here d)) as [tb|] eqn:A; [|discriminate].
        fold (label_tok w) in Q. destruct (convert ids false test d [label_tok w; nl]) as [[d' [e|]]| |] eqn:C; cbn [bind] in Q; try discriminate. injection Q as <- <-.
        apply label_convert in C; [|exact P|exact E]. exists [[ILabel w]]. split; [reflexivity|]. split; [cbn [concat app]; rewrite enc_one; exact C|]. cbn [defs_of app load]. rewrite A. reflexivity.
      - destruct P as (A & B & L & _). assert (Q' : convert ids false test d (line_toks l) = Ok (d1, None) /\ tbl = tbl1).
        { unfold link_line in Q. destruct (line_toks l) as [|t ts] eqn:T.
          - destruct (convert ids false test d []) as [[d' [e|]]| |]; cbn [bind] in Q; try discriminate. injection Q as <- <-. auto.
          - assert (is_ty t label = false) as X.
            { destruct (is_ty t label) eqn:X; [|reflexivity]. exfalso. assert (Lt : line_toks l = t :: ts) by exact T. unfold line_toks in Lt. clear - A Lt X.
              assert (St : forall s r, not_go s -> wfs s -> stoks s ++ r = t :: ts -> False).
              { intros s r N W S. destruct s as [lv e|c args|e c args|items last|lv a b s|w|items]; cbn [stoks app] in S; try (injection S as <- _; discriminate X); [|exact N].
                destruct W as (W & _). destruct lv as [k c w|x|o x|o x y|fn c w br args]; cbn in W; try contradiction; cbn [toks app] in S; injection S as <- _; destruct k + destruct fn; try contradiction; discriminate X. }
              destruct l as [s|s l|e tt el]; cbn [ltoks wfl] in *; [eapply St; [| |exact Lt]; [apply A; reflexivity|apply A]|rewrite <- app_assoc in Lt; eapply St; [| |exact Lt]; [apply A; reflexivity|apply A]|cbn [app] in Lt; injection Lt as <- _; discriminate X]. }
            rewrite X in Q. destruct (convert ids false test d (t :: ts)) as [[d' [e|]]| |]; cbn [bind] in Q; try discriminate. injection Q as <- <-. auto. }
        destruct Q' as [Q' <-]. destruct (line_convert2 ids test l d d1 Gi A B L E Q') as (is & I1 & I2). destruct (ucodes_line ids l is I1) as (iss & U1 & U2).
        exists (iss ++ map (fun c => [ICheck c]) (line_checks l)). split; [rewrite ucodes_app, U1, ucodes_checks; reflexivity|]. split.
        + rewrite I2, concat_app, U2. assert (Cc : forall cs, concat (map (fun c => [ICheck c]) cs) = map ICheck cs) by (induction cs as [|c cs IHc]; [reflexivity|cbn; rewrite IHc; reflexivity]). rewrite Cc. reflexivity.
        + rewrite defs_none by apply statements_no_lab. reflexivity.
      - assert (Q' : convert ids false test d (ptoks (PNote r)) = Ok (d1, None) /\ tbl = tbl1).
        { unfold link_line in Q. destruct r as [r|]; cbn [ptoks is_ty ty nl] in Q |- *; (match type of Q with context [convert ids false test d ?x] => destruct (convert ids false test d x) as [[d' [e|]]| |] end; cbn [bind] in Q; try discriminate; injection Q as <- <-; split; reflexivity). }
        destruct Q' as [Q' <-]. apply note_convert in Q'. subst d1. exists []. split; [reflexivity|]. split; [cbn; rewrite app_nil_r; reflexivity|reflexivity].
      - destruct P as [_ P]. unfold link_line in Q. cbn [is_ty ty] in Q. destruct (convert ids false test d _) as [[d' [e|]]| |] eqn:C; cbn [bind] in Q; try discriminate. injection Q as <- <-.
        apply data_convert in C; [|exact P|exact E]. exists [[IData (data_of src)]]. split; [reflexivity|]. split; [cbn [concat app]; rewrite enc_one; exact C|reflexivity]. }
    destruct K as (iss1 & U1 & -> & T1).
    assert (G1 : Forall good (concat iss1)).
    { pose proof (program_uok [p] ltac:(constructor; [exact P|constructor])) as Uo. unfold statements in Uo. cbn [map concat] in Uo. rewrite app_nil_r in Uo. clear - Gi U1 Uo. revert iss1 U1. induction Uo as [|u us U _ IHu]; intros iss1; cbn [ucodes]; [intros [= <-]; constructor|].
      destruct (ucode ids u) as [i| |] eqn:Qu; cbn [bind]; try discriminate. destruct (ucodes ids us) as [x| |]; cbn [bind]; try discriminate. intros [= <-]. cbn [concat]. apply Forall_app. split; [eapply ucode_good; eauto|apply IHu; reflexivity]. }
    destruct (IH (d ++ encode (concat iss1)) tbl1 d2 tbl2) as (iss2 & U2 & -> & T2); [apply even_encode; assumption|exact Q2|].
    exists (iss1 ++ iss2). unfold statements in *. cbn [map concat]. split; [rewrite ucodes_app, U1; cbn [bind]; rewrite U2; reflexivity|]. split; [rewrite concat_app, encode_app, app_assoc; reflexivity|].
    rewrite defs_app by (eapply ucodes_length; exact U1). rewrite load_app, T1. rewrite app_length, Nat2Z.inj_add in T2. exact T2.
Qed.
