(** Running the code of an expression computes its value. *)
From Verif Require Import Base BaseLemmas Tokens ExprSpec ExprProofs EvalProofs StmtSpec NumText Bytecode BytecodeSpec BytecodeProofs Runner RunnerSpec RunnerProofs.
Ltac Zify.zify_post_hook ::= Z.div_mod_to_equations.

(** * the instruction of a token *)
Definition num_instr (n : Z) : instr :=
  if (0 <=? n) && (n <? 409600) && (n =? Z.land n (-4096)) then INum false n else INum true (s32 n).
Definition name_id (f : ids_fun) (arr : bool) (w : list Z) : outcome Z :=
  let dollar := nth (length w - 1) w 0 =? 36 in
  f (if dollar then firstn (length w - 1) w else w) ((if dollar then VAR_STRING_ else VAR_NUMBER_) + (if arr then VAR_ARRAY_ else 0)).
Definition ref_of (ids : option ids_fun) (arr : bool) (w : list Z) : vref :=
  match ids with None => ByName false w | Some f => match name_id f arr w with Ok i => ById i | _ => ById 0 end end.
Definition name_instr (ids : option ids_fun) (arr : bool) (w : list Z) : outcome instr :=
  match ids with
  | None => Ok (IVar w)
  | Some f =>
      let* i := name_id f arr w in
      if i <? 256 then Ok (IId false i)
      else if (if nth (length w - 1) w 0 =? 36 then len w - 1 else len w) =? 1 then Err ERR_LENGTH_INVARIANT_BROKEN
      else Ok (IId true i)
  end.
Definition instr_of (ids : option ids_fun) (t : token) : outcome instr :=
  match ty t with
  | number => let* n := u8_to_num (text t) in if (2147483648 <=? n) && (n <=? 4294967295) then Err ERR_OVERFLOW else Ok (num_instr n)
  | base_number => let* n := u8_to_number (skipn 2 (text t)) (if nth 1 (text t) 0 =? 72 then 16 else 2) false in Ok (num_instr n)
  | string => Ok (IStr false (text t))
  | sysvar => Ok (ISys (cl t))
  | operation => Ok (IOp (if (level t =? 6) && (cl t =? OP_SUBTRACT) then OP_NEGATE else cl t))
  | function => Ok (IFun (cl t))
  | arg_count => Ok (IArgc (cl t))
  | name => name_instr ids false (text t)
  | array_name => name_instr ids true (text t)
  | dim_arr => Ok (IDim (text t))
  | command => Ok (ICmd false (cl t))
  | first_of_line_command => Ok (ICmd true (cl t))
  | loop_begin => Ok ILoop
  | label => Ok (ILabel (text t))
  | label_string => Ok (IStr true (text t))
  | _ => UB
  end.
(** tokens whose code is one instruction *)
Definition plain (t : token) : Prop :=
  match ty t with
  | number | base_number | string | sysvar | operation | function | arg_count | name | array_name | dim_arr | loop_begin | label | label_string => True
  | command | first_of_line_command => cl t <> CMD_DATA
  | _ => False
  end.
(** a token as the lexer makes it, with a text that fits *)
Definition lexed (t : token) : Prop :=
  good_tok t /\
  match ty t with
  | number | base_number => len (text t) = cl t
  | string | label | label_string => (length (text t) < 128)%nat
  | arg_count => cl t < 128
  | _ => True
  end.

Lemma land_4096 n : Z.land n (-4096) = n - n mod 4096.
Proof. replace (-4096) with (Z.lnot (Z.ones 12)) by reflexivity. rewrite <- Z.ldiff_land, Z.ldiff_ones_r by lia. rewrite Z.shiftl_mul_pow2, Z.shiftr_div_pow2 by lia. change (2 ^ 12) with 4096. lia. Qed.
Lemma num_instr_enc n dec : (dec = true -> (2147483648 <=? n) && (n <=? 4294967295) = false) -> emit_number n dec = Ok (enc (num_instr n)) /\ good (num_instr n).
Proof.
  intros D. unfold emit_number, num_instr. replace ((2147483648 <=? n) && (n <=? 4294967295) && dec) with false by (destruct dec; [rewrite D by reflexivity; reflexivity|rewrite andb_false_r; reflexivity]).
  cbv iota. destruct ((0 <=? n) && (n <? 409600) && (n =? Z.land n (-4096))) eqn:C.
  - rewrite land_4096 in C. cbn [enc good]. unfold FP_TO_INT, u8. change (2 ^ 8) with 256. split; [|lia]. rewrite (Z.mod_small (n / 4096)) by lia. reflexivity.
  - cbn [enc good]. split; [|apply s32_range]. unfold u32, s32. cbv zeta.
    assert (M : ((n + 2 ^ 31) mod 2 ^ 32 - 2 ^ 31) mod 2 ^ 32 = n mod 2 ^ 32) by (change (2 ^ 31) with 2147483648; change (2 ^ 32) with 4294967296; lia).
    rewrite M. assert (R : 0 <= n mod 2 ^ 32 < 2 ^ 32) by (apply Z.mod_pos_bound; lia).
    rewrite (Z.mod_small (n mod 2 ^ 32 / 2 ^ 24)); [reflexivity|]. change (2 ^ 32) with 4294967296 in *. change (2 ^ 24) with 16777216. lia.
Qed.
Lemma num_instr_val n : exists b, num_instr n = INum b (s32 n).
Proof.
  unfold num_instr. destruct ((0 <=? n) && (n <? 409600) && (n =? Z.land n (-4096))) eqn:C; [|eauto]. exists false. rewrite s32_id; [reflexivity|]. unfold is_s32, INT_MIN, INT_MAX. change (2 ^ 31) with 2147483648. lia.
Qed.
Lemma named_enc d op w (k : list Z -> instr) t : text t = w -> len w = cl t -> good_name w -> Nat.even (length d) = true -> enc (k w) = named op w ->
  (if cl t =? 1 then Ok (d ++ [op; nth 0 (text t) 0]) else Ok (with_text d op t)) = Ok (d ++ enc (k w)).
Proof.
  intros T L G E Ek. rewrite Ek. destruct (cl t =? 1) eqn:C.
  - rewrite T. unfold len in L. destruct w as [|c [|? ?]]; cbn [length] in L; try lia. reflexivity.
  - rewrite with_text_instr by (auto; rewrite T; exact L). rewrite T. unfold named. unfold len in L. destruct w as [|c [|? ?]]; cbn [length] in L; try lia; reflexivity.
Qed.
Lemma code_name_of ids d t : (forall f, ids = Some f -> good_ids f) -> Nat.even (length d) = true -> (ty t = name \/ ty t = array_name) ->
  good_name (text t) -> len (text t) = cl t ->
  code_name ids d t = let* i := name_instr ids (is_ty t array_name) (text t) in Ok (d ++ enc i).
Proof.
  intros Gi E K G L. unfold code_name, name_instr.
  assert (Da : is_ty t dim_arr = false) by (unfold is_ty; destruct K as [-> | ->]; reflexivity).
  assert (Aa : is_ty t array_actual = false) by (unfold is_ty; destruct K as [-> | ->]; reflexivity).
  rewrite Da, Aa. destruct ids as [f|].
  - cbv zeta. unfold name_id. cbv zeta. rewrite orb_false_r. replace (Z.to_nat (cl t - 1)) with (length (text t) - 1)%nat by (unfold len in L; lia).
    rewrite <- L. set (dol := nth _ (text t) 0 =? 36).
    replace (firstn (Z.to_nat (if dol then len (text t) - 1 else len (text t))) (text t)) with (if dol then firstn (length (text t) - 1) (text t) else text t).
    2: { unfold len. destruct dol; [f_equal; lia|]. rewrite Nat2Z.id, firstn_all. reflexivity. }
    destruct (f _ _) as [id| |] eqn:X; [|reflexivity|reflexivity]. cbn [bind]. pose proof (Gi f eq_refl _ _ _ X) as R.
    destruct (id <? 256) eqn:S; [cbn [bind enc]; rewrite Z.mod_small by lia; reflexivity|].
    destruct (_ =? 1); reflexivity.
  - cbn [bind]. apply named_enc; auto.
Qed.
Lemma code_dim ids d t : Nat.even (length d) = true -> ty t = dim_arr -> good_name (text t) -> len (text t) = cl t -> code_name ids d t = Ok (d ++ enc (IDim (text t))).
Proof.
  intros E K G L. unfold code_name. assert (Da : is_ty t dim_arr = true) by (unfold is_ty; rewrite K; reflexivity). rewrite Da. destruct ids; (apply named_enc; auto).
Qed.
Lemma good_name_instr ids b w i : (forall f, ids = Some f -> good_ids f) -> good_name w -> name_instr ids b w = Ok i -> good i.
Proof.
  intros Gi G. unfold name_instr. destruct ids as [f|]; [|intros [= <-]; exact G].
  unfold name_id. destruct (f _ _) as [id| |] eqn:X; cbn [bind]; try discriminate. pose proof (Gi f eq_refl _ _ _ X) as R.
  destruct (id <? 256) eqn:S; [intros [= <-]; cbn [good]; lia|]. destruct (_ =? 1); [discriminate|]. intros [= <-]. exact R.
Qed.
Lemma short_name_instr ids b w i : name_instr ids b w = Ok i -> short i.
Proof.
  unfold name_instr. destruct ids as [f|]; [|intros [= <-]; exact I]. unfold name_id. destruct (f _ _) as [id| |]; cbn [bind]; try discriminate.
  destruct (id <? 256); [intros [= <-]; exact I|]. destruct (_ =? 1); [discriminate|]. intros [= <-]. exact I.
Qed.
Lemma token_code ids d t : (forall f, ids = Some f -> good_ids f) -> Nat.even (length d) = true -> lexed t -> plain t ->
  code_token ids d t = let* i := instr_of ids t in Ok (d ++ enc i, false).
Proof.
  intros Gi E [[B G] X] Pt. unfold code_token, instr_of. unfold plain in Pt. destruct (ty t) eqn:T; try contradiction; try reflexivity.
  - rewrite body_all by exact X. destruct (u8_to_num (text t)) as [n| |]; cbn [bind]; try reflexivity.
    destruct ((2147483648 <=? n) && (n <=? 4294967295)) eqn:C.
    + unfold emit_number. rewrite C. reflexivity.
    + destruct (num_instr_enc n true (fun _ => C)) as [-> _]. reflexivity.
  - destruct G as [Gb L]. cbn [bind]. rewrite with_text_instr by assumption. reflexivity.
  - destruct G as [Gn L]. rewrite code_name_of by auto. unfold is_ty. rewrite T. cbn [tty_beq]. destruct (name_instr _ _ _); reflexivity.
  - replace (cl t =? CMD_DATA) with false by lia. unfold is_ty. rewrite T. reflexivity.
  - destruct G as [Gb L]. cbn [bind]. rewrite with_text_instr by assumption. reflexivity.
  - destruct G as [Gn L]. rewrite code_dim by auto. reflexivity.
  - destruct G as [Gb L]. cbn [bind]. rewrite with_text_instr by assumption. reflexivity.
  - replace (cl t =? CMD_DATA) with false by lia. unfold is_ty. rewrite T. reflexivity.
  - rewrite body_all by exact X. destruct (u8_to_number _ _ _) as [n| |]; cbn [bind]; try reflexivity.
    destruct (num_instr_enc n false) as [-> _]; [discriminate|]. reflexivity.
  - destruct G as [Gn L]. rewrite code_name_of by auto. unfold is_ty. rewrite T. cbn [tty_beq]. destruct (name_instr _ _ _); reflexivity.
Qed.
Lemma instr_good ids t i : (forall f, ids = Some f -> good_ids f) -> lexed t -> plain t -> instr_of ids t = Ok i -> good i /\ short i.
Proof.
  intros Gi [[B G] X] Pt. unfold instr_of. unfold plain in Pt. destruct (ty t) eqn:T; try contradiction; try (intros [= <-]; split; [exact B || exact I|exact I]).
  - destruct (u8_to_num (text t)) as [n| |]; cbn [bind]; try discriminate. destruct (_ && _) eqn:C; [discriminate|]. intros [= <-].
    destruct (num_instr_enc n true (fun _ => C)) as [_ Gd]. split; [exact Gd|]. destruct (num_instr_val n) as [b ->]. exact I.
  - intros [= <-]. destruct G as [Gb L]. cbn [good short]. split; [|exact X]. split; [exact Gb|lia].
  - destruct G as [Gn L]. intros Q. split; [eapply good_name_instr; eauto|eapply short_name_instr; eauto].
  - intros [= <-]. cbn [good short]. split; [|exact I]. destruct (_ && _); [unfold is_byte, OP_NEGATE; lia|exact B].
  - intros [= <-]. destruct G as [Gb L]. cbn [good short]. split; [|exact X]. split; [exact Gb|lia].
  - intros [= <-]. cbn [good short]. split; [apply G|exact I].
  - intros [= <-]. cbn [good short]. split; [exact B|exact X].
  - intros [= <-]. destruct G as [Gb L]. cbn [good short]. split; [|exact X]. split; [exact Gb|lia].
  - destruct (u8_to_number _ _ _) as [n| |]; cbn [bind]; try discriminate. intros [= <-].
    destruct (num_instr_enc n false) as [_ Gd]; [discriminate|]. split; [exact Gd|]. destruct (num_instr_val n) as [b ->]. exact I.
  - destruct G as [Gn L]. intros Q. split; [eapply good_name_instr; eauto|eapply short_name_instr; eauto].
Qed.

(** the instructions of a list of tokens *)
Fixpoint instrs (ids : option ids_fun) (l : list token) : outcome (list instr) :=
  match l with [] => Ok [] | t :: r => let* i := instr_of ids t in let* is := instrs ids r in Ok (i :: is) end.
Lemma instrs_app ids a b : instrs ids (a ++ b) = let* x := instrs ids a in let* y := instrs ids b in Ok (x ++ y).
Proof.
  induction a as [|t a IH]; cbn [app instrs bind]; [destruct (instrs ids b); reflexivity|].
  destruct (instr_of ids t); cbn [bind]; try reflexivity. rewrite IH. destruct (instrs ids a); cbn [bind]; try reflexivity. destruct (instrs ids b); reflexivity.
Qed.
Lemma instrs_good ids l is : (forall f, ids = Some f -> good_ids f) -> Forall lexed l -> Forall plain l -> instrs ids l = Ok is -> Forall good is /\ Forall short is.
Proof.
  intros Gi Fl. revert is. induction Fl as [|t l G Fl IH]; intros is Fp; cbn [instrs]; [intros [= <-]; auto|]. inversion Fp as [|? ? Pt Fp']; subst.
  destruct (instr_of ids t) as [i| |] eqn:Q; cbn [bind]; try discriminate. destruct (instrs ids l) as [r| |]; cbn [bind]; try discriminate. intros [= <-].
  destruct (instr_good _ _ _ Gi G Pt Q). destruct (IH r Fp' eq_refl). auto.
Qed.
Lemma encode_cons i l : encode (i :: l) = enc i ++ encode l. Proof. reflexivity. Qed.
Lemma code_loop_app ids l : (forall f, ids = Some f -> good_ids f) -> Forall lexed l -> Forall plain l -> forall d vs r, Nat.even (length d) = true ->
  match instrs ids l with
  | Ok is => exists vs', code_loop ids d vs (l ++ r) = code_loop ids (d ++ encode is) vs' r
  | Err e => exists d' vs', code_loop ids d vs (l ++ r) = Ok (d', vs', Some e)
  | UB => code_loop ids d vs (l ++ r) = UB
  end.
Proof.
  intros Gi Fl. induction Fl as [|t l G Fl IH]; intros Fp d vs r E; cbn [instrs].
  - exists vs. unfold encode. cbn [map concat]. rewrite app_nil_r. reflexivity.
  - inversion Fp as [|? ? Pt Fp']; subst. cbn [app code_loop]. rewrite token_code by auto. destruct (instr_of ids t) as [i|e|] eqn:Q; cbn [bind]; eauto.
    destruct (instr_good _ _ _ Gi G Pt Q) as [Gd _].
    assert (E' : Nat.even (length (d ++ enc i)) = true) by (rewrite <- (app_nil_r (enc i)); apply (even_encode d [i]); auto).
    specialize (IH Fp' (d ++ enc i) (if is_ty t sysvar then cl t :: vs else vs) r E'). destruct (instrs ids l) as [is|e|]; cbn [bind].
    + destruct IH as [vs' ->]. exists vs'. rewrite encode_cons, app_assoc. reflexivity.
    + exact IH.
    + exact IH.
Qed.

(** * running *)
Lemma steps_add {h} lab code n m (c : cfg h) : steps lab code (n + m) c = let* c' := steps lab code n c in steps lab code m c'.
Proof. revert c. induction n as [|n IH]; intros c; cbn [Nat.add steps bind]; [reflexivity|]. destruct (step lab code c); cbn [bind]; auto. Qed.
(** one instruction that is not control flow *)
Definition is_simple (i : instr) : Prop := match i with ICmd _ _ | ILoop | IErr _ => False | _ => True end.
Lemma step_simple {h} lab pre i post (c : cfg h) : good i -> short i -> is_simple i -> ix c = Z.of_nat (length pre) ->
  step lab (pre ++ enc i ++ post) c = simple (mkC (Z.of_nat (length (pre ++ enc i))) (stk c) (calls c) (argc c) (hst c)) i.
Proof. intros G S I X. unfold step. rewrite X, fetch_enc by assumption. cbn [bind]. destruct i; try contradiction; reflexivity. Qed.
Lemma step_command {h} lab pre b k post (c : cfg h) : is_byte k -> ix c = Z.of_nat (length pre) ->
  step lab (pre ++ enc (ICmd b k) ++ post) c = command_step lab (pre ++ enc (ICmd b k) ++ post) (mkC (Z.of_nat (length (pre ++ enc (ICmd b k)))) (stk c) (calls c) (argc c) (hst c)) k.
Proof. intros G X. unfold step. rewrite X, fetch_enc by (exact G || exact I). reflexivity. Qed.
Lemma step_loop {h} lab pre post (c : cfg h) : ix c = Z.of_nat (length pre) ->
  step lab (pre ++ enc ILoop ++ post) c = begin_loop h (pre ++ enc ILoop ++ post) (mkC (Z.of_nat (length (pre ++ enc ILoop))) (stk c) (calls c) (argc c) (hst c)).
Proof. intros X. unfold step. rewrite X, fetch_enc by exact I. reflexivity. Qed.

(** the tokens of an expression as the lexer makes them: their recorded lengths are those of their
    texts, strings shorter than 128 characters, names of at most 64 *)
Fixpoint spelled (e : expr) : Prop :=
  match e with
  | Atom k c w => lexed (mk k c 0 w)
  | Paren e => spelled e
  | Un o e => spelled e
  | Bin o l r => spelled l /\ spelled r
  | Call fn c w b args =>
      is_byte c /\ (fn = false -> good_name w /\ len w = c) /\
      (fix all (l : list expr) : Prop := match l with [] => True | x :: r => spelled x /\ all r end) args
  end.
Lemma spelled_args l : ((fix all (l : list expr) : Prop := match l with [] => True | x :: r => spelled x /\ all r end) l) <-> Forall spelled l.
Proof. induction l as [|x r IH]; split; intros G; auto. - destruct G. constructor; [assumption|]. apply IH. assumption. - inversion G; subst. split; [assumption|]. apply IH. assumption. Qed.
Lemma sem_sems h ref l st : (fix go (l : list expr) (st : St h) : outcome (list (entry (Loc h)) * St h) :=
        match l with
        | [] => Ok ([], st)
        | x :: r => let* (v, st) := sem h ref x st in let* (vs, st) := go r st in Ok (v :: vs, st)
        end) l st = sems h ref l st.
Proof. revert st. induction l as [|x l IH]; intros st; [reflexivity|]. cbn [sems]. destruct (sem h ref x st) as [[v st1]| |]; cbn [bind]; [|reflexivity|reflexivity]. rewrite IH. reflexivity. Qed.

Definition op_bound (o : Z) : Prop := 0 <= o < 24.
Lemma lexed_op o p : 0 <= o < 24 -> lexed (op_tok o p).
Proof. intros R. split; [split; [cbn; unfold is_byte; lia|exact I]|exact I]. Qed.
Lemma bin_bound o : bin_level o <> None -> 0 <= o < 24 /\ unary o = false /\ o <> OP_COMMA /\ o <> OP_SEMICOLON /\ o <> OP_ASSIGN.
Proof.
  unfold bin_level, unary, OP_AND, OP_OR, OP_XOR, OP_EQUAL, OP_GREATER_EQUAL, OP_ADD, OP_SUBTRACT, OP_MULTIPLY, OP_DIVIDE, OP_MODULO, OP_NEGATE, OP_NOT, OP_LOGICAL_NOT, OP_COMMA, OP_SEMICOLON, OP_ASSIGN.
  intros N. repeat match goal with N : context [if ?b then _ else _] |- _ => destruct b eqn:? end; try (exfalso; apply N; reflexivity); lia.
Qed.
Lemma un_bound o : is_unary o = true -> 0 <= o < 24 /\ unary o = true /\ o <> OP_COMMA /\ o <> OP_SEMICOLON.
Proof. unfold is_unary, unary, OP_NEGATE, OP_NOT, OP_LOGICAL_NOT, OP_COMMA, OP_SEMICOLON. lia. Qed.
Lemma rpn_lexed e : wfe e -> spelled e -> forall n, Forall lexed (rpn n e) /\ Forall plain (rpn n e).
Proof.
  induction e as [k c w|e IH|o e IH|o l r IHl IHr|fn c w b args IH] using expr_ind2; cbn [wfe spelled]; intros Wf Sp n; cbn [rpn].
  - split; (constructor; [|constructor]); [exact Sp|]. unfold plain. cbn [ty]. destruct k; try discriminate; exact I.
  - apply IH; assumption.
  - destruct Wf as (U & We & _). destruct (IH We Sp n). split; apply Forall_app; (split; [assumption|]); (constructor; [|constructor]); [apply lexed_op; apply un_bound; exact U|exact I].
  - destruct Wf as (Nb & Wl & Wr & _). destruct Sp as [Sl Sr]. destruct (IHl Wl Sl n). destruct (IHr Wr Sr n). destruct (bin_bound o Nb) as [B _].
    split; (apply Forall_app; split; [assumption|]); (apply Forall_app; split; [assumption|]); (constructor; [|constructor]); [apply lexed_op; exact B|exact I].
  - destruct Wf as (Wa & La & _). destruct Sp as (Bc & Nm & Sa). apply wfe_args in Wa. apply spelled_args in Sa.
    assert (Q : Forall lexed (concat (map (rpn (n + 8)) args)) /\ Forall plain (concat (map (rpn (n + 8)) args))).
    { clear La. induction args as [|x args IHa]; [split; constructor|]. inversion IH as [|? ? I1 I2]; subst. inversion Wa; subst. inversion Sa; subst.
      cbn [map concat]. destruct (I1 ltac:(assumption) ltac:(assumption) (n + 8)). destruct IHa; auto. split; apply Forall_app; auto. }
    destruct Q as [Q1 Q2]. split; apply Forall_app; (split; [assumption|]).
    + constructor; [split; [split; [cbn; unfold is_byte; lia|exact I]|cbn; lia]|]. constructor; [|constructor]. destruct fn; (split; [split; [exact Bc|]|exact I]); [exact I|]. apply Nm. reflexivity.
    + constructor; [exact I|]. constructor; [|constructor]. destruct fn; exact I.
Qed.

Section Exec.
Context {h : host}.
Variable ids : option ids_fun.
Hypothesis Gi : forall f, ids = Some f -> good_ids f.
Notation ref := (ref_of ids).
Notation here pre := (Z.of_nat (length pre)).

Definition exec_ok (e : expr) : Prop := forall n is, n mod 8 = 0 -> instrs ids (rpn n e) = Ok is -> forall lab pre post (c : cfg h),
  ix c = here pre -> argc c = 0 -> (length (stk c) + size e <= 100)%nat ->
  steps lab (pre ++ encode is ++ post) (length is) c =
  let* (v, st) := sem h ref e (hst c) in Ok (mkC (here (pre ++ encode is)) (v :: stk c) (calls c) 0 st).
Definition execs_ok (l : list expr) : Prop := forall n is, n mod 8 = 0 -> instrs ids (concat (map (rpn n) l)) = Ok is -> forall lab pre post (c : cfg h),
  ix c = here pre -> argc c = 0 -> (length (stk c) + sizes l <= 100)%nat ->
  steps lab (pre ++ encode is ++ post) (length is) c =
  let* (vs, st) := sems h ref l (hst c) in Ok (mkC (here (pre ++ encode is)) (rev vs ++ stk c) (calls c) 0 st).

Lemma run_two lab pre is1 is2 post (c : cfg h) : 
  steps lab (pre ++ encode (is1 ++ is2) ++ post) (length (is1 ++ is2)) c =
  let* c' := steps lab (pre ++ encode is1 ++ (encode is2 ++ post)) (length is1) c in
  steps lab ((pre ++ encode is1) ++ encode is2 ++ post) (length is2) c'.
Proof. rewrite app_length, steps_add, encode_app, <- !app_assoc. reflexivity. Qed.
Lemma run_one lab pre i post (c : cfg h) : steps lab (pre ++ encode [i] ++ post) (length [i]) c = step lab (pre ++ enc i ++ post) c.
Proof. rewrite encode_cons. cbn [length steps app]. unfold encode. cbn [map concat]. rewrite app_nil_r. destruct (step _ _ c); reflexivity. Qed.
Lemma pushed_ok (e : entry (Loc h)) s : (length s < 100)%nat -> push h e s = Ok (e :: s).
Proof. intros L. unfold push. replace (length s <? 100)%nat with true by lia. reflexivity. Qed.
Lemma pops_rev (vs s acc : list (entry (Loc h))) : pops h (length vs) (rev vs ++ s) acc = Ok (vs ++ acc, s).
Proof.
  revert s acc. induction vs as [|v vs IH] using rev_ind; intros s acc; [reflexivity|].
  rewrite app_length, Nat.add_comm, rev_app_distr. cbn [length Nat.add rev app pops]. rewrite IH, <- app_assoc. reflexivity.
Qed.
Lemma enc_one i : encode [i] = enc i. Proof. unfold encode. cbn [map concat]. apply app_nil_r. Qed.

Lemma size_pos e : wfe e -> (1 <= size e)%nat.
Proof. destruct e; intros _; unfold size; cbn [toks length]; rewrite ?app_length; cbn [length]; lia. Qed.
Lemma sems_length l : forall st vs st', sems h ref l st = Ok (vs, st') -> length vs = length l.
Proof.
  induction l as [|x l IH]; intros st vs st'; cbn [sems]; [intros [= <- <-]; reflexivity|].
  destruct (sem h ref x st) as [[v s1]| |]; cbn [bind]; try discriminate. destruct (sems h ref l s1) as [[ws s2]| |] eqn:Q; cbn [bind]; try discriminate. intros [= <- <-]. cbn [length]. f_equal. eapply IH; eauto.
Qed.
Lemma sizes_cons a l : sizes (a :: l) = (size a + (match l with [] => 0 | _ => S (sizes l) end))%nat.
Proof. unfold sizes, size. destruct l as [|b l]; cbn [map sep length]; [lia|]. rewrite app_length. reflexivity. Qed.
Lemma execs l : Forall exec_ok l -> Forall wfe l -> execs_ok l.
Proof.
  induction l as [|x l IH]; intros Fe Fw n is N8 Q lab pre post c Hx Ha Hl.
  - cbn in Q. injection Q as <-. unfold encode. cbn. rewrite app_nil_r. destruct c as [i s k a st]. cbn [ix argc] in *. subst. reflexivity.
  - inversion Fe as [|? ? Ex Fe']; subst. inversion Fw as [|? ? Wx Fw']; subst. cbn [map concat] in Q. rewrite instrs_app in Q.
    destruct (instrs ids (rpn n x)) as [i1| |] eqn:Q1; cbn [bind] in Q; try discriminate. destruct (instrs ids (concat _)) as [i2| |] eqn:Q2; cbn [bind] in Q; try discriminate. injection Q as <-.
    rewrite sizes_cons in Hl. assert (Hl1 : (length (stk c) + size x <= 100)%nat) by (destruct l; lia). rewrite run_two, (Ex n i1 N8 Q1) by auto. cbn [sems]. destruct (sem h ref x (hst c)) as [[v st]| |]; cbn [bind]; try reflexivity.
    rewrite (IH Fe' Fw' n i2 N8 Q2); cbn [ix argc stk hst calls]; auto.
    + destruct (sems h ref l st) as [[vs st2]| |]; cbn [bind]; try reflexivity. cbn [rev]. rewrite encode_app, <- !app_assoc. reflexivity.
    + pose proof (size_pos x Wx). cbn [length]. destruct l; [cbn; lia|lia].
Qed.
Lemma name_instr_ref arr w i : name_instr ids arr w = Ok i -> 
  (exists u, i = IVar u /\ ref arr w = ByName false u) \/ (exists b k, i = IId b k /\ ref arr w = ById k).
Proof.
  unfold name_instr, ref_of. destruct ids as [f|]; [|intros [= <-]; left; eauto]. destruct (name_id f arr w) as [k| |]; cbn [bind]; try discriminate.
  destruct (k <? 256); [intros [= <-]; right; eauto|]. destruct (_ =? 1); [discriminate|]. intros [= <-]. right. eauto.
Qed.
(** a variable or array reference, whichever its encoding *)
Lemma simple_ref arr w i (c : cfg h) : name_instr ids arr w = Ok i ->
  is_simple i /\ simple c i =
  if argc c =? 0 then let* (b, l, st) := hvar h (ref arr w) (hst c) in let* s := push h (ER b l) (stk c) in Ok (set_stk h c s st)
  else let* (args, s) := pops h (Z.to_nat (argc c)) (stk c) [] in let* (b, l, st) := harr h (ref arr w) args (hst c) in let* s := push h (ER b l) s in Ok (set_stk h c s st).
Proof. intros Q. destruct (name_instr_ref _ _ _ Q) as [(u & -> & ->)|(b & k & -> & ->)]; split; (exact I || reflexivity). Qed.
Lemma exec_expr e : wfe e -> spelled e -> exec_ok e.
Proof.
  induction e as [k c0 w|e IH|o e IH|o l r IHl IHr|fn c0 w b args IH] using expr_ind2; cbn [wfe]; intros Wf Sp n is N8 Q lab pre post c Hx Ha Hl.
  - cbn [rpn instrs] in Q. destruct (instr_of ids (mk k c0 0 w)) as [i| |] eqn:Qi; cbn [bind] in Q; try discriminate. injection Q as <-.
    cbn [spelled] in Sp. assert (Pl : plain (mk k c0 0 w)) by (unfold plain; cbn [ty]; destruct k; try discriminate; exact I).
    destruct (instr_good _ _ _ Gi Sp Pl Qi) as [Gd Sh]. rewrite run_one, enc_one.
    assert (L : (length (stk c) < 100)%nat) by (unfold size in Hl; cbn [toks length] in Hl; lia).
    unfold instr_of in Qi. cbn [ty text cl] in Qi. destruct k; try discriminate; cbn [sem lit].
    + destruct (u8_to_num w) as [v| |]; cbn [bind] in Qi; try discriminate. destruct ((2147483648 <=? v) && (v <=? 4294967295)); [discriminate|]. injection Qi as <-. 
      destruct (num_instr_val v) as [bb Eb]. rewrite Eb in *. rewrite step_simple by (auto; exact I). cbn [simple stk hst calls]. rewrite pushed_ok by exact L. reflexivity.
    + injection Qi as <-. rewrite step_simple by (auto; exact I). cbn [simple stk hst calls]. rewrite pushed_ok by exact L. reflexivity.
    + destruct (simple_ref false w i (mkC (here (pre ++ enc i)) (stk c) (calls c) (argc c) (hst c)) Qi) as [Is Es].
      rewrite step_simple by auto. rewrite Es. cbn [argc hst stk]. rewrite Ha, Z.eqb_refl. destruct (hvar _ _ _) as [[[bb l] st]| |]; cbn [bind]; try reflexivity. rewrite pushed_ok by exact L. reflexivity.
    + injection Qi as <-. rewrite step_simple by (auto; exact I). cbn [simple stk hst calls]. destruct (hsys h c0 (hst c)) as [[v st]| |]; cbn [bind]; try reflexivity. rewrite pushed_ok by exact L. reflexivity.
    + destruct (u8_to_number _ _ _) as [v| |]; cbn [bind] in Qi; try discriminate. injection Qi as <-. 
      destruct (num_instr_val v) as [bb Eb]. rewrite Eb in *. rewrite step_simple by (auto; exact I). cbn [simple stk hst calls]. rewrite pushed_ok by exact L. reflexivity.
  - cbn [rpn spelled sem] in *. apply (IH Wf Sp (n + 8) is ltac:(lia) Q); auto. unfold size in *. cbn [toks length] in Hl. rewrite app_length in Hl. lia.
  - destruct Wf as (U & We & _). cbn [rpn spelled sem] in *. rewrite instrs_app in Q. destruct (instrs ids (rpn n e)) as [i1| |] eqn:Q1; cbn [bind] in Q; try discriminate.
    cbn [instrs bind] in Q. destruct (un_bound o U) as (B & Uo & N1 & N2). unfold instr_of in Q. cbn [op_tok ty cl bind] in Q.
    assert (Oo : (if (level (op_tok o (n + 6)) =? 6) && (o =? OP_SUBTRACT) then OP_NEGATE else o) = o).
    { unfold is_unary in U. unfold OP_SUBTRACT, OP_NEGATE, OP_NOT, OP_LOGICAL_NOT in *. destruct (_ && _) eqn:C; [|reflexivity]. lia. }
    rewrite Oo in Q. injection Q as <-. rewrite run_two. 
    assert (Sz : size (Un o e) = S (size e)) by reflexivity.
    rewrite (IH We Sp n i1 N8 Q1) by (auto; lia). destruct (sem h ref e (hst c)) as [[v st]| |]; cbn [bind]; try reflexivity.
    rewrite run_one, step_simple; [|cbn; unfold is_byte; lia|exact I|exact I|reflexivity]. cbn [simple stk hst calls].
    replace ((o =? OP_COMMA) || (o =? OP_SEMICOLON)) with false by lia. cbn [pop bind]. rewrite Uo.
    destruct (hun h o v st) as [[v2 st2]| |]; cbn [bind]; try reflexivity. rewrite pushed_ok by lia. cbn [bind]. unfold set_stk. cbn [ix calls]. rewrite encode_app, enc_one, app_assoc. reflexivity.
  - destruct Wf as (Nb & Wl & Wr & _). cbn [rpn spelled sem] in *. destruct Sp as [Sl Sr]. rewrite !instrs_app in Q.
    destruct (instrs ids (rpn n l)) as [i1| |] eqn:Q1; cbn [bind] in Q; try discriminate. destruct (instrs ids (rpn n r)) as [i2| |] eqn:Q2; cbn [bind] in Q; try discriminate.
    destruct (bin_bound o Nb) as (B & Uo & N1 & N2 & N3). pose proof (bin_prec o l r Nb) as Pr. cbn [instrs bind] in Q. unfold instr_of in Q. cbn [op_tok ty cl bind] in Q.
    assert (Oo : (if (level (op_tok o (n + prec (Bin o l r))) =? 6) && (o =? OP_SUBTRACT) then OP_NEGATE else o) = o \/ o = OP_SUBTRACT) by (destruct (o =? OP_SUBTRACT) eqn:Eo; [right; lia|left; rewrite andb_false_r; reflexivity]).
    assert (Sz : size (Bin o l r) = (size l + S (size r))%nat) by (unfold size; cbn [toks]; rewrite app_length; reflexivity).
    assert (Run : forall o', o' = o -> steps lab (pre ++ encode (i1 ++ i2 ++ [IOp o']) ++ post) (length (i1 ++ i2 ++ [IOp o'])) c =
       let* (v, st) := (let* (a, st) := sem h ref l (hst c) in let* (b, st) := sem h ref r st in hbin h o a b st) in Ok (mkC (here (pre ++ encode (i1 ++ i2 ++ [IOp o']))) (v :: stk c) (calls c) 0 st)).
    { intros o' ->. rewrite run_two, (IHl Wl Sl n i1 N8 Q1) by (auto; lia). destruct (sem h ref l (hst c)) as [[a st]| |]; cbn [bind]; try reflexivity.
      rewrite run_two, (IHr Wr Sr n i2 N8 Q2); [|reflexivity|reflexivity|cbn [stk length]; lia]. cbn [hst stk calls].
      destruct (sem h ref r st) as [[b st2]| |]; cbn [bind]; try reflexivity.
      rewrite run_one, step_simple; [|cbn; unfold is_byte; lia|exact I|exact I|reflexivity]. cbn [simple stk hst calls].
      replace ((o =? OP_COMMA) || (o =? OP_SEMICOLON)) with false by lia. cbn [pop bind]. rewrite Uo. replace (o =? OP_ASSIGN) with false by lia.
      destruct (hbin h o a b st2) as [[v st3]| |]; cbn [bind]; try reflexivity. rewrite pushed_ok by lia. cbn [bind]. unfold set_stk. cbn [ix calls].
      rewrite !encode_app, enc_one, !app_assoc. reflexivity. }
    injection Q as <-. apply Run. destruct Oo as [Oo|Os]; [exact Oo|]. 
    subst o. unfold level. cbn [op_tok prio prec]. change (bin_level OP_SUBTRACT) with (Some 4). cbv iota. replace ((n + 4) mod 8) with 4 by lia. reflexivity.
  - destruct Wf as (Wa & La & _). apply wfe_args in Wa. destruct Sp as (Bc & Nm & Sa). apply spelled_args in Sa. cbn [rpn sem] in *. rewrite sem_sems.
    rewrite instrs_app in Q. destruct (instrs ids (concat _)) as [i1| |] eqn:Q1; cbn [bind] in Q; try discriminate.
    assert (Fx : Forall exec_ok args).
    { rewrite Forall_forall in *. intros x Hx0. apply IH; auto. }
    assert (Sz : size (Call fn c0 w b args) = S (S (sizes args + 1))%nat) by (unfold size, sizes; cbn [toks length]; rewrite app_length; reflexivity).
    cbn [instrs] in Q. unfold instr_of at 1 in Q. cbn [ty cl bind] in Q.
    destruct (instr_of ids (mk (if fn then function else array_name) c0 (n + 7) w)) as [i2| |] eqn:Q2; cbn [bind] in Q; try discriminate. injection Q as <-.
    rewrite run_two, (execs args Fx Wa (n + 8) i1 ltac:(lia) Q1) by (auto; lia). destruct (sems h ref args (hst c)) as [[vs st]| |] eqn:Qs; cbn [bind]; try reflexivity.
    change [IArgc (Z.of_nat (length args)); i2] with ([IArgc (Z.of_nat (length args))] ++ [i2]). rewrite run_two, run_one.
    rewrite step_simple; [|cbn; unfold is_byte; lia|cbn; lia|exact I|reflexivity]. cbn [simple stk hst calls ix bind]. rewrite run_one, enc_one.
    pose proof (sems_length _ _ _ _ Qs) as Lv.
    assert (L : (length (stk c) < 100)%nat) by lia.
    assert (Enc : encode (i1 ++ [IArgc (Z.of_nat (length args))] ++ [i2]) = encode i1 ++ enc (IArgc (Z.of_nat (length args))) ++ enc i2) by (rewrite !encode_app, !enc_one; reflexivity).
    rewrite Enc. destruct fn.
    + cbn [instr_of ty cl] in Q2. injection Q2 as <-. rewrite step_simple; [|exact Bc|exact I|exact I|reflexivity]. cbn [simple stk hst calls ix argc].
      rewrite <- Lv, Nat2Z.id, pops_rev, app_nil_r. cbn [bind]. destruct (hfun h c0 vs st) as [[v st2]| |]; cbn [bind]; try reflexivity. rewrite pushed_ok by exact L. cbn [bind].
      unfold set_stk. cbn [ix calls]. rewrite <- !app_assoc. reflexivity.
    + unfold instr_of in Q2. cbn [ty text] in Q2. destruct (Nm eq_refl) as [Gw Lw].
      match goal with |- context [step lab _ ?c1] => set (cc := c1) end.
      pose proof (good_name_instr _ _ _ _ Gi Gw Q2) as Gd. pose proof (short_name_instr _ _ _ _ Q2) as Sh.
      assert (Is : is_simple i2) by (destruct (name_instr_ref _ _ _ Q2) as [(u & -> & _)|(bb & k & -> & _)]; exact I).
      rewrite step_simple by (auto; reflexivity). destruct (simple_ref true w i2 (mkC (here (((pre ++ encode i1) ++ enc (IArgc (Z.of_nat (length args)))) ++ enc i2)) (stk cc) (calls cc) (argc cc) (hst cc)) Q2) as [_ Es].
      rewrite Es. subst cc. cbn [argc stk hst calls]. rewrite <- Lv. destruct vs as [|v0 vs].
      * cbn [length Z.of_nat Z.eqb rev app]. destruct (hvar _ _ _) as [[[bb l] st2]| |]; cbn [bind]; try reflexivity. rewrite pushed_ok by exact L. cbn [bind]. unfold set_stk. cbn [ix calls]. rewrite <- !app_assoc. reflexivity.
      * replace (Z.of_nat (length (v0 :: vs)) =? 0) with false by (cbn [length]; lia). rewrite Nat2Z.id, pops_rev, app_nil_r. cbn [bind].
        destruct (harr _ _ _ _) as [[[bb l] st2]| |]; cbn [bind]; try reflexivity. rewrite pushed_ok by exact L. cbn [bind]. unfold set_stk. cbn [ix calls]. rewrite <- !app_assoc. reflexivity.
Qed.
(** an array of a DIM statement *)
Lemma exec_dim e is : is_elem e -> wfe e -> spelled e -> instrs ids (dcode e) = Ok is -> forall lab pre post (c : cfg h),
  ix c = here pre -> argc c = 0 -> (length (stk c) + size e <= 100)%nat ->
  steps lab (pre ++ encode is ++ post) (length is) c =
  let* (vs, st) := sems h ref (dim_sizes e) (hst c) in let* st := hdim h (dim_name e) vs st in Ok (mkC (here (pre ++ encode is)) (stk c) (calls c) 0 st).
Proof.
  destruct e as [| | | |[] c0 w b args]; try contradiction. intros _ Wf Sp Q lab pre post c Hx Ha Hl. cbn [dcode dim_sizes dim_name] in *.
  destruct Wf as (Wa & La & _). apply wfe_args in Wa. destruct Sp as (Bc & Nm & Sa). apply spelled_args in Sa.
  rewrite instrs_app in Q. destruct (instrs ids (concat _)) as [i1| |] eqn:Q1; cbn [bind] in Q; try discriminate.
  assert (Fx : Forall exec_ok args) by (rewrite Forall_forall in *; intros x Hx0; apply exec_expr; auto).
  assert (Sz : size (Call false c0 w b args) = S (S (sizes args + 1))%nat) by (unfold size, sizes; cbn [toks length]; rewrite app_length; reflexivity).
  cbn [instrs] in Q. unfold instr_of in Q. cbn [ty cl text bind] in Q. injection Q as <-.
  rewrite run_two, (execs args Fx Wa 8 i1 ltac:(lia) Q1) by (auto; lia). destruct (sems h ref args (hst c)) as [[vs st]| |] eqn:Qs; cbn [bind]; try reflexivity.
  change [IArgc (Z.of_nat (length args)); IDim w] with ([IArgc (Z.of_nat (length args))] ++ [IDim w]). rewrite run_two, run_one.
  rewrite step_simple; [|cbn; unfold is_byte; lia|cbn; lia|exact I|reflexivity]. cbn [simple stk hst calls ix bind]. rewrite run_one, enc_one.
  pose proof (sems_length _ _ _ _ Qs) as Lv. destruct (Nm eq_refl) as [Gw Lw].
  rewrite step_simple; [|exact Gw|exact I|exact I|reflexivity]. cbn [simple stk hst calls ix argc]. rewrite <- Lv, Nat2Z.id, pops_rev, app_nil_r. cbn [bind].
  destruct (hdim h w vs st) as [st2| |]; cbn [bind]; try reflexivity. unfold set_stk. cbn [ix calls]. rewrite !encode_app, !enc_one, <- !app_assoc. reflexivity.
Qed.
End Exec.
