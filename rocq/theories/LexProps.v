(** C67, C68: from the text of a program to its tokens, and on to its meaning. *)
From Coq Require Import String Ascii.
From Verif Require Import Base BaseLemmas Tokens ExprSpec NumText Bytecode BytecodeSpec BytecodeProofs Runner RunnerSpec StmtSpec ExecProofs FlowSpec FlowProofs FlowLine FlowDemo Lexer LexSpec LexProofs.
Local Open Scope string_scope.
Local Open Scope list_scope.
Open Scope Z_scope.
Ltac Zify.zify_post_hook ::= Z.div_mod_to_equations.
Notation line_spelled := LexSpec.spelled.
Notation is_hex := LexSpec.hex.

(** ** C67: lines of text become lines of tokens.  [line_spelled] (LexSpec.v) says how a line is written: words and
    symbols (in capitals or not), with any spaces between them, each one as long as possible, then a remark
    or DATA to the end of the line, perhaps.  At most 100 tokens a line and 255 characters a word.
    Missing from the full statement: the misread texts refuted below. *)
Theorem C67_source_partial : forall texts tss, Forall2 line_spelled texts tss -> Forall (fun ts => (length ts <= 100)%nat) tss ->
  lex (concat texts) = Ok (map Tokens tss).
Proof.
  intros texts tss F B. change (lex (concat texts)) with (lexes [] false (concat texts)). induction F as [|l ts texts tss S1 F IH]; [reflexivity|].
  inversion B; subst. cbn [concat map]. rewrite (spelled_lexes _ _ S1) by (cbn; lia). rewrite IH by assumption. reflexivity.
Qed.
Print Assumptions C67_source_partial.

(** No text can be read in two ways. *)
Theorem C67_unambiguous_partial : forall text ts1 ts2, line_spelled text ts1 -> line_spelled text ts2 -> (length ts1 <= 100)%nat -> (length ts2 <= 100)%nat -> ts1 = ts2.
Proof.
  intros text ts1 ts2 A B La Lb.
  assert (E1 : lex (concat [text]) = Ok (map Tokens [ts1])) by (apply C67_source_partial; [constructor; [assumption|constructor]|constructor; [assumption|constructor]]).
  assert (E2 : lex (concat [text]) = Ok (map Tokens [ts2])) by (apply C67_source_partial; [constructor; [assumption|constructor]|constructor; [assumption|constructor]]).
  rewrite E1 in E2. now injection E2.
Qed.
Print Assumptions C67_unambiguous_partial.

Lemma continues_space s t : lexeme s t -> continues s 32 = false /\ continues s 13 = false.
Proof.
  intros _. destruct s as [|a r]; [split; reflexivity|]. unfold continues.
  split; destruct (letter a), (digit a || (a =? 46)), (a =? 38), (a =? 64), (existsb (Z.eqb a) (letters "<=>!") && match r with [] => true | _ => false end); reflexivity.
Qed.
(** Words and symbols separated by spaces are read as they stand: every sequence of tokens that have a spelling can be written. *)
Theorem C67_spaces_partial : forall ss ts, Forall2 lexeme ss ts -> (length ts < 100)%nat ->
  lex (concat (map (fun s => s ++ [32]) ss) ++ [13]) = Ok [Tokens (ts ++ [end_of_statement])].
Proof.
  intros ss ts F L. assert (S1 : line_spelled (concat (map (fun s => s ++ [32]) ss) ++ [13]) (ts ++ [end_of_statement])).
  { clear L. induction F as [|s t ss ts X F IH]; [constructor|]. cbn [map concat app]. rewrite <- !app_assoc. cbn [app]. constructor; [exact X|constructor; exact IH|].
    cbn [first hd]. apply (continues_space _ _ X). }
  assert (B : Forall (fun ts => (length ts <= 100)%nat) [ts ++ [end_of_statement]]) by (constructor; [rewrite app_length; cbn; lia|constructor]).
  pose proof (C67_source_partial [_] [_] ltac:(constructor; [exact S1|constructor]) B) as E. cbn [concat map] in E. rewrite app_nil_r in E. exact E.
Qed.
Print Assumptions C67_spaces_partial.

(** A word of at most eight letters is a reserved word, whatever its capitals, or a name: nothing else. *)
Theorem C67_words : forall s, wordlike s -> (length s <= 8)%nat ->
  In (capitals s) [letters "LABEL"; letters "REM"; letters "DATA"] \/
  exists t, lexeme s t /\ (forall s', wordlike s' -> (length s' <= 255)%nat -> capitals s' = capitals s -> lexeme s' (match ty t with name => mk name (LexSpec.len s') 0 s' | _ => t end)) /\
    (ty t = name <-> ~ In (capitals s) reserved).
Proof.
  intros s W L.
  assert (Lc : forall s', capitals s' = capitals s -> firstn 8 (capitals s') = capitals s).
  { intros s' ->. apply firstn_all2. unfold capitals. rewrite map_length. lia. }
  destruct (in_dec (list_eq_dec Z.eq_dec) (capitals s) reserved) as [J|N].
  - assert (J' : In (capitals s) (command_names ++ function_names ++ operator_names ++ [letters "LABEL"; letters "REM"] ++ sysvar_names)) by exact J.
    rewrite !in_app_iff in J'. destruct J' as [K|[K|[K|[K|K]]]].
    + apply In_nth_error in K as (i & K). destruct (Nat.eq_dec i 52) as [->|D].
      * left. change (nth_error command_names 52) with (Some (letters "DATA")) in K. injection K as K. rewrite <- K. cbn. auto.
      * right. exists (mk command (Z.of_nat i) 0 []). split; [now constructor|]. split; [intros s' W' L' E; cbn [ty]; constructor; congruence|]. cbn [ty]. split; [discriminate|intros Q; contradiction].
    + apply In_nth_error in K as (i & K). right. exists (mk function (Z.of_nat i) 0 []). split; [now constructor|]. split; [intros s' W' L' E; cbn [ty]; constructor; congruence|]. cbn [ty]. split; [discriminate|intros Q; contradiction].
    + apply In_nth_error in K as (i & K). right. destruct (Nat.eq_dec i 7) as [->|D].
      { exfalso. cbv [operator_names nth_error] in K. injection K as K. destruct s as [|c r]; [contradiction|]. destruct W as (W & _). cbn [capitals map] in K. injection K as K _. pose proof (upcase_letter c) as U. rewrite <- K in U. rewrite W in U. discriminate U. }
      exists (mk operation (Z.of_nat i) 0 []). split; [constructor; auto|]. split; [intros s' W' L' E; cbn [ty]; constructor; congruence|]. cbn [ty]. split; [discriminate|intros Q; contradiction].
    + left. destruct K as [K|[K|[]]]; rewrite <- K; cbn; auto.
    + apply In_nth_error in K as (i & K). right. exists (mk sysvar (Z.of_nat i) 0 []). split; [now constructor|]. split; [intros s' W' L' E; cbn [ty]; constructor; congruence|]. cbn [ty]. split; [discriminate|intros Q; contradiction].
  - right. exists (mk name (LexSpec.len s) 0 s). split; [constructor; auto; [lia|rewrite (Lc s eq_refl); exact N]|].
    split; [intros s' W' L' E; cbn [ty]; constructor; auto; rewrite (Lc s' E); exact N|]. cbn [ty]. tauto.
Qed.
Print Assumptions C67_words.

Definition illegal (c : Z) : Prop :=
  c <> 13 /\ c <> 32 /\ letter c = false /\ digit c = false /\ ~ In c (letters "?:&.,;+-*/%()[]<=>!@'") /\ c <> 34.
Lemma illegal_step ts c r : illegal c -> tok_none ts false (c :: r) = Ok (Bad ERR_UNKNOWN_TRANSITION (c :: r)).
Proof.
  intros (A & B & C & D & E & F). unfold tok_none. rewrite name_start_letter, C.
  assert (X : forall x, In x (letters "?:&.,;+-*/%()[]<=>!@'") -> (c =? x) = false) by (intros x J; apply Z.eqb_neq; intros ->; contradiction).
  change (is_digit c) with (digit c). rewrite D.
  destruct (Z.eqb_spec c 13); [contradiction|]. destruct (Z.eqb_spec c 32); [contradiction|]. destruct (Z.eqb_spec c 34); [contradiction|].
  rewrite (X 63), (X 58), (X 38), (X 46), (X 64), (X 39) by (cbn; tauto). cbn [orb].
  assert (Y : forall l, (forall x, In x l -> In x (letters "?:&.,;+-*/%()[]<=>!@'")) -> existsb (Z.eqb c) l = false).
  { induction l as [|x l IH]; intros Q; [reflexivity|]. cbn [existsb]. rewrite X by (apply Q; now left). apply IH. intros y J. apply Q. now right. }
  rewrite !Y; [reflexivity| |]; intros x J; cbn in J; repeat (destruct J as [<-|J]; [cbn; tauto|]); contradiction.
Qed.
Lemma lexes_space pre l : lexes pre false (32 :: l) = lexes pre false l.
Proof. rewrite lexes_eq by discriminate. reflexivity. Qed.
Lemma lexes_lexeme pre s t l : lexeme s t -> (length pre < 100)%nat -> l <> [] -> continues s (first l) = false -> lexes pre false (s ++ l) = lexes (pre ++ [t]) false l.
Proof.
  intros X L N C. rewrite lexes_eq by (destruct l; [congruence|]; destruct s; discriminate). rewrite (lexeme_step _ _ _ _ X N C L). reflexivity.
Qed.
Lemma lexes_bad ss ts : Forall2 lexeme ss ts -> forall pre c r rest, illegal c -> ~ In 13 r -> (length pre + length ts < 100)%nat ->
  lexes pre false (concat (map (fun s => s ++ [32]) ss) ++ c :: r ++ 13 :: rest) = let* ls := lexes [] false rest in Ok (BadLine ERR_UNKNOWN_TRANSITION :: ls).
Proof.
  induction 1 as [|s t ss ts X F IH]; intros pre c r rest I N L.
  - cbn [map concat app]. rewrite lexes_eq by discriminate. rewrite illegal_step by exact I. cbn [bind].
    assert (E : forall a, ~ In 13 a -> skip_line (a ++ 13 :: rest) = Ok rest).
    { induction a as [|x a IHa]; intros Na; cbn [app skip_line]; [reflexivity|]. destruct (Z.eqb_spec x 13) as [->|]; [exfalso; apply Na; now left|]. apply IHa. intros J; apply Na; now right. }
    change (c :: r ++ 13 :: rest) with ((c :: r) ++ 13 :: rest). rewrite E; [reflexivity|]. destruct I as (I & _). intros [J|J]; [now apply I|contradiction].
  - cbn [map concat length] in *. rewrite <- !app_assoc. cbn [app]. rewrite (lexes_lexeme pre s t) by (try exact X; try lia; try discriminate; apply (continues_space _ _ X)).
    rewrite lexes_space. apply IH; auto. rewrite app_length. cbn. lia.
Qed.
(** A line with an illegal character is an error of that line alone: the lines around it are read as usual.
    Missing: words before the character that are not followed by a space (as in A#), a line that is an error for another reason. *)
Theorem C67_illegal_partial : forall tb tsb ss ts c r ta tsa,
  Forall2 line_spelled tb tsb -> Forall2 line_spelled ta tsa -> Forall (fun ts => (length ts <= 100)%nat) (tsb ++ tsa) ->
  Forall2 lexeme ss ts -> (length ts < 100)%nat -> illegal c -> ~ In 13 r ->
  lex (concat tb ++ (concat (map (fun s => s ++ [32]) ss) ++ c :: r ++ [13]) ++ concat ta) = Ok (map Tokens tsb ++ BadLine ERR_UNKNOWN_TRANSITION :: map Tokens tsa).
Proof.
  intros tb tsb ss ts c r ta tsa Fb Fa B X L I N. apply Forall_app in B as (Bb & Ba).
  change (lex ?a) with (lexes [] false a).
  induction Fb as [|l ts' tb tsb S1 Fb IH].
  - cbn [concat map app]. rewrite <- app_assoc. cbn [app]. rewrite <- app_assoc. cbn [app]. rewrite (lexes_bad _ _ X) by (auto; cbn; lia).
    change (lexes [] false (concat ta)) with (lex (concat ta)). now rewrite (C67_source_partial ta tsa).
  - inversion Bb; subst. cbn [concat map app]. rewrite <- app_assoc. rewrite (spelled_lexes _ _ S1) by (cbn; lia). rewrite IH by assumption. reflexivity.
Qed.
Print Assumptions C67_illegal_partial.

(** ** C68: the text of a program runs as the line it spells is meant to *)
(** names of at most 64 characters, DATA lines of at most 255 *)
Definition short (t : token) : Prop := (ty t = name -> (length (text t) <= 64)%nat) /\ (ty t = command -> (length (text t) <= 255)%nat).
Lemma table_bytes : (length command_names <= 256)%nat /\ (length function_names <= 256)%nat /\ (length operator_names <= 256)%nat /\ (length sysvar_names <= 256)%nat.
Proof. cbn. lia. Qed.
Lemma byte_nth (l : list (list Z)) i w : (length l <= 256)%nat -> nth_error l i = Some w -> is_byte (Z.of_nat i).
Proof. intros L E. assert (i < length l)%nat by (apply nth_error_Some; congruence). unfold is_byte. lia. Qed.
Lemma len_byte s : (length s <= 255)%nat -> is_byte (LexSpec.len s).
Proof. unfold LexSpec.len, is_byte. lia. Qed.
Lemma lexeme_good s t : lexeme s t -> Forall is_byte s -> short t -> good_tok t.
Proof.
  destruct table_bytes as (B1 & B2 & B3 & B4).
  intros X F (Sh & _). destruct X as [s i W E D|s i E|s i E|s i E D| | |s W L R|s NE L G|s b NE L B G|s L Q1 Q2|s (NE & L & G)]; unfold good_tok; cbn [ty cl text] in *.
  - split; [eapply byte_nth; [|exact E]; assumption|]. intros Q. exfalso. apply D. unfold CMD_DATA in Q. lia.
  - split; [eapply byte_nth; [|exact E]; assumption|exact I].
  - split; [eapply byte_nth; [|exact E]; assumption|exact I].
  - split; [eapply byte_nth; [|exact E]; assumption|exact I].
  - split; [unfold is_byte; lia|discriminate].
  - split; [unfold is_byte; cbn; lia|exact I].
  - split; [now apply len_byte|]. split; [|reflexivity]. split; [exact F|]. specialize (Sh eq_refl). split; [lia|]. destruct s as [|c r]; [exact W|]. destruct W as (W & _). unfold letter in W. lia.
  - split; [now apply len_byte|exact I].
  - split; [unfold LexSpec.len, is_byte; lia|exact I].
  - inversion F as [|? ? _ F']; subst. apply Forall_app in F' as (F' & _). split; [now apply len_byte|]. split; [exact F'|reflexivity].
  - inversion F as [|? ? _ F']; subst. split; [apply len_byte; lia|]. split; [exact F'|reflexivity].
Qed.
Lemma eos_good : good_tok end_of_statement.
Proof. split; [unfold is_byte; cbn; lia|exact I]. Qed.
Lemma spelled_good l ts : line_spelled l ts -> Forall is_byte l -> Forall short ts -> Forall good_tok ts.
Proof.
  induction 1 as [|l ts S1 IH|s t l ts X S1 IH C|s n w l ts E (W1 & W2 & W3) S1 IH C|s L Q1 Q2|s Q|s r E Q C|s r E Q C]; intros F Sh.
  - repeat constructor; apply eos_good.
  - inversion F; subst; auto.
  - apply Forall_app in F as (F1 & F2). inversion Sh; subst. constructor; [eapply lexeme_good; eassumption|auto].
  - rewrite !Forall_app in F. destruct F as (_ & _ & Fw & F2). inversion Sh; subst. constructor; [|auto].
    split; [cbn; apply len_byte; lia|]. cbn. split; [exact Fw|reflexivity].
  - inversion F as [|? ? _ F']; subst. apply Forall_app in F' as (F' & _). constructor; [|constructor; [apply eos_good|constructor]].
    split; [cbn; now apply len_byte|]. cbn. split; [exact F'|reflexivity].
  - constructor; [apply eos_good|constructor].
  - constructor; [|constructor; [apply eos_good|constructor]]. split; [unfold is_byte; cbn; lia|exact I].
  - apply Forall_app in F as (_ & F). inversion Sh as [|? ? (_ & Sh') _]; subst. cbn in Sh'. specialize (Sh' eq_refl). constructor; [|constructor; [apply eos_good|constructor]].
    split; [unfold is_byte; cbn; lia|]. cbn. intros _. split; [exact F|lia].
Qed.
Definition readable (texts : list (list Z)) (tss : list (list token)) : Prop :=
  Forall2 line_spelled texts tss /\ Forall (fun ts => (length ts <= 100)%nat /\ Forall short ts) tss /\ Forall (Forall is_byte) texts.
Lemma readable_good texts tss : readable texts tss -> Forall good_line (map Tokens tss).
Proof.
  intros (F & B & I). induction F as [|l ts texts tss S1 F IH]; [constructor|]. inversion B; subst. inversion I; subst.
  cbn [map]. constructor; [cbn; eapply spelled_good; [eassumption|assumption|tauto]|auto].
Qed.
(** [p] is the code of the text before the line, [code] of the whole program; the line itself compiles without an error,
    and its code ends at [next]. *)
Definition text_compiled errno ids test (before : list (list Z)) (text : list Z) (after : list (list Z)) (start next : Z) (code : list Z) : Prop :=
  exists p q ts, compile_text errno ids false test (concat before) = Ok p /\ lex text = Ok [Tokens ts] /\ convert ids false test p ts = Ok (q, None) /\
    compile_text errno ids false test (concat before ++ text ++ concat after) = Ok code /\ start = Z.of_nat (length p) /\ next = Z.of_nat (length q).
Lemma text_compiled_compiled errno ids test before tsb text l after tsa start next code :
  readable before tsb -> readable after tsa -> line_spelled text (line_toks l) -> (length (line_toks l) <= 100)%nat ->
  text_compiled errno ids test before text after start next code ->
  compiled errno ids test (map Tokens tsb) l (map Tokens tsa) start next code.
Proof.
  intros (Fb & Bb & _) (Fa & Ba & _) S1 L (p & q & ts & C1 & C2 & C3 & C4 & C5 & C6).
  assert (W : forall tss : list (list token), Forall (fun ts => (length ts <= 100)%nat /\ Forall short ts) tss -> Forall (fun ts => (length ts <= 100)%nat) tss).
  { intros tss. apply Forall_impl. tauto. }
  pose proof (C67_source_partial _ _ Fb (W _ Bb)) as Eb.
  assert (E1 : lex (concat [text]) = Ok (map Tokens [line_toks l])) by (apply C67_source_partial; [constructor; [assumption|constructor]|constructor; [assumption|constructor]]).
  cbn [concat map] in E1. rewrite app_nil_r in E1. rewrite E1 in C2. injection C2 as <-.
  assert (E : lex (concat (before ++ text :: after)) = Ok (map Tokens (tsb ++ line_toks l :: tsa))).
  { apply C67_source_partial; [apply Forall2_app; [exact Fb|constructor; [exact S1|exact Fa]]|]. apply Forall_app. split; [auto|constructor; auto]. }
  rewrite concat_app in E. cbn [concat] in E. unfold compile_text in C1, C4. rewrite Eb in C1. rewrite E in C4. cbn [bind] in C1, C4. rewrite map_app in C4. cbn [map] in C4.
  exists p, q. auto 10.
Qed.
(** The text of a line among the text of a program, run from the start of its code, does what the line is meant to do.
    Missing: as in C36, C67. *)
Theorem C68_line_partial : forall (h : host) (lab : labels_fun h) errno ids test before tsb text l after tsa start next code,
  (forall f, ids = Some f -> good_ids f) -> (forall x, is_byte (errno x)) -> readable before tsb -> readable after tsa ->
  line_spelled text (line_toks l) -> proper l -> if_ok l -> test (line_code l) = None -> text_compiled errno ids test before text after start next code ->
  exists fin,
    (forall k st, exists n, landed h (ref_of ids) lab code fin k (exec_lin h (ref_of ids) lab l st) (steps lab code n (mkC start [] k 0 st))) /\
    (forall k st, steps lab code (length (line_checks l)) (mkC fin [] k 0 st) = let* st' := run_checks h (line_checks l) st in Ok (mkC next [] k 0 st')).
Proof.
  intros h lab errno ids test before tsb text l after tsa start next code Gi Ge Rb Ra S1 Pr If T C.
  apply (program_line lab errno ids test (map Tokens tsb) l (map Tokens tsa)); auto; [eapply readable_good; exact Rb|eapply readable_good; exact Ra|].
  apply (text_compiled_compiled errno ids test before tsb text l after tsa); auto. apply Pr.
Qed.
Print Assumptions C68_line_partial.

(** *** Examples *)
Ltac lx s k := match goal with |- line_spelled ?x _ => let y := eval vm_compute in (skipn (length s) x) in change x with (s ++ y) end; apply SpLexeme; [k|try (cbn [app]; apply SpSpace)|reflexivity].
Lemma not_listed w (l : list (list Z)) : existsb (fun v => if list_eq_dec Z.eq_dec v w then true else false) l = false -> ~ In w l.
Proof. intros E H. apply Bool.not_true_iff_false in E. apply E. apply existsb_exists. exists w. split; [exact H|]. destruct (list_eq_dec Z.eq_dec w w); [reflexivity|contradiction]. Qed.
Ltac kName := apply LxName; [now split|cbn; lia|apply not_listed; vm_compute; reflexivity].
Ltac kOp i := apply (LxOperator _ i); [reflexivity|discriminate].
Ltac kNum := apply LxNumber; [discriminate|cbn; lia|reflexivity].
Definition ex_text : list Z := Eval vm_compute in letters "If  a==1 then b=(a+1)*2:print B;:Goto @L1" ++ [13].
Definition eNm (s : String.string) : expr := Atom name (LexSpec.len (letters s)) (letters s).
Definition eNu (s : String.string) : expr := Atom number (LexSpec.len (letters s)) (letters s).
Definition ex_line : lin :=
  LIf (Bin OP_EQUAL (eNm "a") (eNu "1"))
    (LSeq (SLet (eNm "b") (Bin OP_MULTIPLY (Paren (Bin OP_ADD (eNm "a") (eNu "1"))) (eNu "2")))
      (LSeq (SPrint [(Some (eNm "B"), OP_SEMICOLON)] None) (LOne (SCmd CMD_GOTO [AL (letters "L1")])))) None.
Example C67_used : line_spelled ex_text (line_toks ex_line).
Proof.
  unfold ex_text. change (line_toks ex_line) with (ltac:(let x := eval vm_compute in (line_toks ex_line) in exact x)).
  lx (letters "If") ltac:(apply (LxCommand _ 8); [now split|reflexivity|discriminate]). apply SpSpace.
  lx (letters "a") kName. lx (letters "==") ltac:(kOp 8%nat). lx (letters "1") kNum.
  lx (letters "then") ltac:(apply (LxCommand _ 9); [now split|reflexivity|discriminate]).
  lx (letters "b") kName. lx (letters "=") ltac:(kOp 6%nat). lx (letters "(") ltac:(kOp 20%nat). lx (letters "a") kName. lx (letters "+") ltac:(kOp 0%nat). lx (letters "1") kNum.
  lx (letters ")") ltac:(kOp 21%nat). lx (letters "*") ltac:(kOp 3%nat). lx (letters "2") kNum. lx (letters ":") ltac:(apply LxColon).
  lx (letters "print") ltac:(apply (LxCommand _ 0); [now split|reflexivity|discriminate]).
  lx (letters "B") kName. lx (letters ";") ltac:(kOp 5%nat). lx (letters ":") ltac:(apply LxColon).
  lx (letters "Goto") ltac:(apply (LxCommand _ 12); [now split|reflexivity|discriminate]).
  lx (letters "@L1") ltac:(apply LxLabel; split; [discriminate|split; [cbn; lia|reflexivity]]).
  apply SpEnd.
Qed.
Example C68_used : proper ex_line /\ if_ok ex_line /\ exists start next code,
  text_compiled (fun _ => 0) None (fun _ => None) [letters "rem hello" ++ [13]] ex_text [letters "?a'x" ++ [13]] start next code.
Proof.
  split; [unfold proper, ex_line; prop_tac|]. split; [unfold ex_line; prop_tac|].
  do 3 eexists. do 3 eexists. split; [vm_compute; reflexivity|]. split; [vm_compute; reflexivity|]. split; [vm_compute; reflexivity|]. split; [vm_compute; reflexivity|]. split; reflexivity.
Qed.
Example C67_illegal_used : illegal 35 /\ lex (letters "A=1" ++ [13] ++ letters "A # B" ++ [13] ++ letters "B=1" ++ [13]) =
  Ok [Tokens [mk name 1 0 [65]; mk operation 6 0 []; mk number 1 0 [49]; end_of_statement]; BadLine ERR_UNKNOWN_TRANSITION; Tokens [mk name 1 0 [66]; mk operation 6 0 []; mk number 1 0 [49]; end_of_statement]].
Proof. split; [|reflexivity]. unfold illegal. cbn. intuition discriminate. Qed.

Ltac readable_tac := split; [constructor; [|constructor]|split; [constructor; [split; [cbn; lia|repeat constructor; cbn; try discriminate; lia]|constructor]|constructor; [|constructor]; vm_compute; repeat constructor; discriminate]].
Example C68_used_around : readable [letters "rem hello" ++ [13]] [[mk comment 3 0 (letters "rem"); end_of_statement]] /\ readable [letters "?a'x" ++ [13]] [[mk command 0 0 []; mk name 1 0 [97]; end_of_statement]].
Proof.
  split; readable_tac.
  - apply (SpRem (letters "rem") (letters " hello")); [reflexivity|cbn; intuition discriminate|reflexivity].
  - lx (letters "?") ltac:(apply LxQuestion). lx (letters "a") kName. apply (SpComment (letters "x")). cbn. intuition discriminate.
Qed.

(** *** Misread texts *)
Definition src (l : list String.string) : list Z := concat (map (fun s => letters s ++ [13]) l).
Definition line_of (s : String.string) : outcome (list line) := lex (src [s]).
(** LABEL without a name is an error that swallows the following line: its code is missing from the program. *)
Theorem C67_label_swallows_line_refuted : exists a b, lex (src [a; b]) <> (let* x := line_of a in let* y := line_of b in Ok (x ++ y)) /\ line_of b <> UB /\ exists e, lex (src [a; b]) = Ok [BadLine e].
Proof. exists "LABEL", "A=1". split; [vm_compute; discriminate|]. split; [vm_compute; discriminate|]. eexists. vm_compute. reflexivity. Qed.
Print Assumptions C67_label_swallows_line_refuted.
(** &H at the end of a line takes the end of the line for a digit: the two lines become one. *)
Theorem C67_base_joins_lines_refuted : exists a b ts, lex (src [a; b]) = Ok [Tokens ts] /\ exists tb, line_of b = Ok [Tokens tb].
Proof. exists "A=&H", "B=1". eexists. split; [vm_compute; reflexivity|]. eexists. vm_compute. reflexivity. Qed.
Print Assumptions C67_base_joins_lines_refuted.
(** A name that starts with an eight-letter reserved word and continues as the table does is read as the reserved word. *)
Theorem C67_long_name_refuted : exists s, wordlike s /\ ~ In (capitals s) reserved /\ lex (s ++ [13]) = Ok [Tokens [mk sysvar 24 0 []; end_of_statement]] /\ nth_error sysvar_names 24 = Some (letters "KEYBOARD").
Proof. exists (letters "KEYBOARDF"). split; [now split|]. split; [vm_compute; intuition discriminate|]. split; vm_compute; reflexivity. Qed.
Print Assumptions C67_long_name_refuted.
(** The number of tokens on a line is not checked: after 100 the array of tokens is overrun, whatever the line. *)
Theorem C67_long_line_refuted : forall n, (100 <= n)%nat -> lex (repeat 58 n ++ [13]) = UB.
Proof.
  intros n L. change (lex ?a) with (lexes [] false a).
  assert (G : forall n pre, (length pre <= 100)%nat -> (100 <= length pre + n)%nat -> lexes pre false (repeat 58 n ++ [13]) = UB).
  { clear. induction n as [|n IH]; intros pre B L.
    - cbn [repeat app]. rewrite lexes_eq by discriminate. unfold tok_none. change (13 =? 13) with true. cbn iota. unfold put, TOKENS_LINE_MAX. destruct (Z.ltb_spec (Z.of_nat (length pre)) 100); [lia|reflexivity].
    - cbn [repeat app]. rewrite lexes_eq by discriminate. unfold tok_none, go. cbn [Z.eqb]. change (58 =? 13) with false. change (is_name_start 58) with false. change (58 =? 63) with false. change (58 =? 58) with true. cbn iota.
      unfold put, TOKENS_LINE_MAX. destruct (Z.ltb_spec (Z.of_nat (length pre)) 100); [|reflexivity]. cbn [bind]. apply IH; rewrite app_length; cbn [length]; lia. }
  apply G; cbn; lia.
Qed.
Print Assumptions C67_long_line_refuted.
