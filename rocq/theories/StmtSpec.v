(** Statements and lines as trees: their spelling, and their intended translation (operands before the
    command that uses them). *)
From Verif Require Import Base Tokens ExprSpec.

Inductive arg_ := AE (e : expr) | AL (w : list Z).             (* an expression, a label @w *)
Inductive stmt :=
| SLet (lv e : expr)                                           (* lv = e *)
| SCmd (c : Z) (args : list arg_)                              (* CMD a,b,... *)
| SOn (e : expr) (c : Z) (args : list arg_)                    (* ON e GOTO a,b,...  / GOSUB *)
| SPrint (items : list (option expr * Z)) (last : option expr) (* PRINT a;b,... *)
| SFor (lv a b : expr) (s : option expr)                       (* FOR lv = a TO b [STEP s] *)
| SGo (w : list Z)                                             (* a label, after THEN or ELSE *)
| SDim (items : list expr).                                    (* DIM A(n),B$(n,m),... *)
Inductive lin :=
| LOne (s : stmt)
| LSeq (s : stmt) (l : lin)                                    (* s : l *)
| LIf (e : expr) (t : lin) (el : option lin).                  (* IF e THEN t [ELSE el] *)

(** ** spelling *)
Definition cmd_tok (c : Z) : token := mk command c 0 [].
Definition nl : token := mk newline 1 0 [].
Definition label_tok (w : list Z) : token := mk label (Z.of_nat (length w)) 0 w.
Definition comma : token := op_tok OP_COMMA 0.
Definition atoks (a : arg_) : list token := match a with AE e => toks e | AL w => [label_tok w] end.
Definition otoks (o : option expr) : list token := match o with Some e => toks e | None => [] end.
Definition stoks (s : stmt) : list token :=
  match s with
  | SLet lv e => toks lv ++ op_tok OP_ASSIGN 0 :: toks e
  | SCmd c args => cmd_tok c :: sep comma (map atoks args)
  | SOn e c args => cmd_tok CMD_ON :: toks e ++ cmd_tok c :: sep comma (map atoks args)
  | SPrint items last => cmd_tok CMD_PRINT :: concat (map (fun it => otoks (fst it) ++ [op_tok (snd it) 0]) items) ++ otoks last
  | SFor lv a b s => cmd_tok CMD_FOR :: toks lv ++ op_tok OP_ASSIGN 0 :: toks a ++ cmd_tok CMD_TO :: toks b ++
      match s with Some s => cmd_tok CMD_STEP :: toks s | None => [] end
  | SGo w => [label_tok w]
  | SDim items => cmd_tok CMD_DIM :: sep comma (map toks items)
  end.
Fixpoint ltoks (l : lin) : list token :=
  match l with
  | LOne s => stoks s
  | LSeq s l => stoks s ++ nl :: ltoks l
  | LIf e t el => cmd_tok CMD_IF :: toks e ++ cmd_tok CMD_THEN :: ltoks t ++
      match el with Some el => cmd_tok CMD_ELSE :: ltoks el | None => [] end
  end.

(** ** well-formed *)
Definition is_lv (e : expr) : Prop := match e with Atom name _ _ => True | Call false _ _ _ _ => True | _ => False end.
Definition fine (e : expr) : Prop := wfe e /\ (depth e < 62)%nat.
Definition afine (a : arg_) : Prop := match a with AE e => fine e | AL _ => True end.
(** an array with its sizes *)
Definition is_elem (e : expr) : Prop := match e with Call false _ _ _ (_ :: _) => True | _ => False end.
Definition dim_name (e : expr) : list Z := match e with Call _ _ w _ _ => w | _ => [] end.
Definition dim_sizes (e : expr) : list expr := match e with Call _ _ _ _ args => args | _ => [] end.
(** commands with an ordinary argument list *)
Definition ordinary (c : Z) : Prop :=
  ~ In c [CMD_DIM; CMD_PRINT; CMD_FOR; CMD_TO; CMD_STEP; CMD_IF; CMD_THEN; CMD_ELSE; CMD_SORT; CMD_RSORT; CMD_DATA].
Definition wfs (s : stmt) : Prop :=
  match s with
  | SLet lv e => is_lv lv /\ fine lv /\ fine e
  | SCmd c args => ordinary c /\ Forall afine args
  | SOn e c args => fine e /\ ordinary c /\ Forall afine args
  | SPrint items last =>
      Forall (fun it => (snd it = OP_COMMA \/ snd it = OP_SEMICOLON) /\ match fst it with Some e => fine e | None => True end) items /\
      match last with Some e => fine e | None => True end
  | SFor lv a b s => is_lv lv /\ fine lv /\ fine a /\ fine b /\ match s with Some s => fine s | None => True end
  | SGo w => True
  | SDim items => items <> [] /\ Forall (fun e => is_elem e /\ fine e) items
  end.
Fixpoint last_stmt (l : lin) : stmt :=
  match l with LOne s => s | LSeq _ l => last_stmt l | LIf _ t None => last_stmt t | LIf _ _ (Some el) => last_stmt el end.
Definition not_go (s : stmt) : Prop := match s with SGo _ => False | _ => True end.
(** More kinds of lines the compiler mistranslates are excluded: FOR or DIM directly before ELSE, and
    a command with several arguments after PRINT ... ELSE on the same statement
    (IF A THEN PRINT B ELSE LOCATE 1,2).  [tidy] is false from PRINT to the next ':' or end of line. *)
Fixpoint tidy_after (tidy : bool) (l : lin) : bool :=
  match l with
  | LOne (SPrint _ _) => false
  | LOne _ => tidy
  | LSeq _ l => tidy_after true l
  | LIf _ t None => tidy_after tidy t
  | LIf _ t (Some el) => tidy_after (tidy_after tidy t) el
  end.
Definition several (s : stmt) : Prop := match s with SCmd _ (_ :: _ :: _) | SOn _ _ (_ :: _ :: _) | SDim (_ :: _ :: _) => True | _ => False end.
Definition ends_open (s : stmt) : Prop := match s with SFor _ _ _ _ | SDim _ => True | _ => False end.
(** [after]: directly after THEN or ELSE *)
Fixpoint wfl (after tidy : bool) (l : lin) : Prop :=
  match l with
  | LOne s => wfs s /\ (after = false -> not_go s) /\ (several s -> tidy = true)
  | LSeq s l => wfs s /\ (after = false -> not_go s) /\ (several s -> tidy = true) /\ wfl false true l
  | LIf e t el => fine e /\ wfl true tidy t /\
      match el with Some el => wfl true (tidy_after tidy t) el /\ ~ ends_open (last_stmt t) | None => True end
  end.

(** ** translation; [first]: at the start of a statement not following THEN or ELSE *)
Definition cmd_code (first : bool) (c : Z) : token := mk (if first then first_of_line_command else command) c 0 [].
Definition acode (a : arg_) : list token := match a with AE e => rpn 0 e | AL w => [mk label_string (Z.of_nat (length w)) 0 w] end.
Definition ocode (o : option expr) : list token := match o with Some e => rpn 0 e | None => [] end.
(** sizes first, then the array to make *)
Definition dcode (e : expr) : list token :=
  match e with
  | Call _ c w b args => concat (map (rpn 8) args) ++ [mk arg_count (Z.of_nat (length args)) 8 []; mk dim_arr c 7 w]
  | _ => []
  end.
Definition scode (first : bool) (s : stmt) : list token :=
  match s with
  | SLet lv e => rpn 0 lv ++ rpn 0 e ++ [op_tok OP_ASSIGN 0]
  | SCmd c args => concat (map acode args) ++ [cmd_code first c]
  | SOn e c args => rpn 0 e ++ [cmd_code first CMD_ON] ++ concat (map acode args) ++ [cmd_code false c]
  | SPrint items last => concat (map (fun it => ocode (fst it) ++ [op_tok (snd it) 1]) items) ++ ocode last ++ [cmd_code first CMD_PRINT]
  | SFor lv a b s => rpn 0 lv ++ [cmd_code first CMD_FOR] ++ rpn 0 a ++ [op_tok OP_ASSIGN 0] ++ rpn 0 b ++ [cmd_code false CMD_TO] ++
      match s with Some s => rpn 0 s ++ [cmd_code false CMD_STEP] | None => [] end ++ [loop_token]
  | SGo w => [mk label_string (Z.of_nat (length w)) 0 w]
  | SDim items => concat (map dcode items)
  end.
Fixpoint lcode (first : bool) (l : lin) : list token :=
  match l with
  | LOne s => scode first s
  | LSeq s l => scode first s ++ lcode true l
  | LIf e t el => rpn 0 e ++ [cmd_code first CMD_IF] ++ lcode false t ++ match el with Some el => cmd_tok CMD_ELSE :: lcode false el | None => [] end
  end.
Fixpoint has_if (l : lin) : bool := match l with LOne _ => false | LSeq _ l => has_if l | LIf _ _ _ => true end.
(** the whole line, with its end of line *)
Definition line_toks (l : lin) : list token := ltoks l ++ [nl].
Definition line_code (l : lin) : list token := lcode true l ++ (if has_if l then [cmd_tok CMD_ENDIF] else []).
