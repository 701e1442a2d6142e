(** Whole programs: lines, the sequence of their statements, and what running it is meant to do. *)
From Verif Require Import Base Tokens ExprSpec StmtSpec Hash Labels Bytecode BytecodeSpec Runner RunnerSpec ExecProofs FlowSpec ForSpec HashProofs.

Inductive pline :=
| PLab (w : list Z)               (* @w, alone on its line *)
| PLine (l : lin)
| PNote (rem : option (list Z))   (* a line that is empty or a remark: None, or REM (as written) *)
| PData (src : list Z).           (* DATA and the text after it, to the end of the line *)
Definition ptoks (p : pline) : list token :=
  match p with
  | PLab w => [label_tok w; nl]
  | PLine l => line_toks l
  | PNote None => [nl]
  | PNote (Some r) => [mk comment 3 0 r; nl]
  | PData src => [mk command CMD_DATA 0 src; nl]
  end.

(** ** The statements of a program, numbered from 0 *)
Inductive statement :=
| ULab (w : list Z)                                  (* a label *)
| UDo (l : lin)                                      (* a statement, or IF with everything that depends on it *)
| UFor (lv a b : expr) (s : option expr)
| UNext (args : list arg_)
| UCheck (c : Z)                                     (* at the end of a line that mentions system variable [c] *)
| UData (src : list Z).
Definition statement_of (s : stmt) : statement :=
  match s with
  | SFor lv a b s => UFor lv a b s
  | SCmd c args => if c =? CMD_NEXT then UNext args else UDo (LOne s)
  | _ => UDo (LOne s)
  end.
Fixpoint statements_of (l : lin) : list statement :=
  match l with
  | LOne s => [statement_of s]
  | LSeq s l => statement_of s :: statements_of l
  | LIf _ _ _ => [UDo l]
  end.
Definition line_statements (p : pline) : list statement :=
  match p with
  | PLab w => [ULab w]
  | PLine l => statements_of l ++ map UCheck (line_checks l)
  | PNote _ => []
  | PData src => [UData src]
  end.
Definition statements (prog : list pline) : list statement := concat (map line_statements prog).

Definition is_lab (w : list Z) (u : statement) : bool := match u with ULab v => if list_eq_dec Z.eq_dec v w then true else false | _ => false end.
(** the number of the statement that is label [w] *)
Fixpoint find_lab (w : list Z) (us : list statement) : option nat :=
  match us with [] => None | u :: r => if is_lab w u then Some 0%nat else option_map S (find_lab w r) end.
Definition valid_nameb (n : list Z) : bool := (1 <=? length n)%nat && (length n <=? 16)%nat && forallb (fun c => (0 <? c) && (c <? 256)) n.

(** where a loop without a single pass ends: the NEXT that closes it, [d] loops being open inside it.
    Other: a loop inside it is closed by NEXT with a variable, which the interpreter does not count (C34_mixed_next) *)
Inductive closed := After (k : nat) (args : list arg_) | Nowhere | Other.
Definition later (c : closed) : closed := match c with After k args => After (S k) args | c => c end.
Fixpoint closing (d : nat) (l : list statement) : closed :=
  match l with
  | [] => Nowhere
  | UFor _ _ _ _ :: r => later (closing (S d) r)
  | UNext args :: r => match d, args with O, _ => After 0 args | S d, [] => later (closing d r) | S _, _ => Other end
  | _ :: r => later (closing d r)
  end.

Section Sem.
Variable h : host.
Variable ref : bool -> list Z -> vref.
Variable strv : St h -> Loc h -> list Z.     (* the text of a string variable *)
Notation ent := (entry (Loc h)).
(** the name of the label a value stands for: a string is written with '@' *)
Definition label_name (v : ent) (st : St h) : option (list Z) :=
  match v with ES true w => Some w | ES false s => Some (tl s) | ER true l => Some (tl (strv st l)) | _ => None end.
Variable us : list statement.
(** where a label is: the number of the statement.  Texts that cannot be a label are left unspecified. *)
Definition slab (v : ent) (st : St h) : outcome Z :=
  match label_name v st with
  | Some w => if valid_nameb w then match find_lab w us with Some n => Ok (Z.of_nat n) | None => Err ERR_LABEL_NOT_FOUND end else UB
  | None => UB
  end.

(** where the program is: before statement [n], before the rest [o] of statement [n] (which is an IF),
    before the test of the bounds of the FOR statement [n] *)
Inductive pos := At (n : nat) | Rest (n : nat) (o : option lin) | Head (n : nat).
(** what GOSUB and FOR leave behind: where to return to; which loop, with which variable; a loop without a pass, which the
    interpreter does not forget (C34_zero_trips_leak): NEXT for a loop around it is not specified here (C34_zero_trips_nested) *)
Inductive frame := FGosub (n : nat) (o : option lin) | FFor (n : nat) (r : Loc h) | FLeft.
(** one step: on to another place; the program ends; an error; not specified here *)
Inductive move := Go (p : pos) (fs : list frame) (st : St h) | End (st : St h) | Stops (e : err) | Unspecified.

Fixpoint unwind_ (fs : list frame) : option (nat * option lin * list frame) :=
  match fs with [] => None | FGosub n o :: r => Some (n, o, r) | FFor _ _ :: r | FLeft :: r => unwind_ r end.
Definition no_loop (f : frame) : bool := match f with FGosub _ _ => true | _ => false end.
Definition settle (n : nat) (fs : list frame) (r : outcome (flow h)) : move :=
  match r with
  | Ok (Fall st) => Go (At (S n)) fs st
  | Ok (Jump i st) => Go (At (Z.to_nat i)) fs st
  | Ok (Call v o st) =>
      match slab v st with
      | UB => Unspecified
      | r => if (length fs =? 255)%nat then Stops ERR_OUT_OF_MEMORY
             else match r with Ok i => Go (At (Z.to_nat i)) (FGosub n o :: fs) st | Err e => Stops e | UB => Unspecified end
      end
  | Ok (Ret st) =>
      match unwind_ fs with
      | Some (n, o, fs) => Go (Rest n o) fs st
      | None => match fs with [] => Stops ERR_RETURN_WITHOUT_GOSUB | _ => Unspecified end
      end
  | Ok (Stop st) => End st
  | Err e => Stops e
  | UB => Unspecified
  end.
Definition of_outcome {A} (x : outcome A) (k : A -> move) : move := match x with Ok a => k a | Err e => Stops e | UB => Unspecified end.
(** the loop (frames below excluded) that NEXT continues: the innermost one; NEXT v must name its variable *)
Definition bounds_of (n : nat) : option (expr * option expr) := match nth_error us n with Some (UFor _ _ b s) => Some (b, s) | _ => None end.
Definition overb (x e v : Z) : bool := if x <? 0 then v <? e else e <? v.
(** on to behind the NEXT that closes loop [n], whose variable is [r] *)
Definition no_pass (n : nat) (r : Loc h) (fs : list frame) (st : St h) : move :=
  match closing 0 (skipn (S n) us) with
  | After k [] => Go (At (S n + S k)) (FLeft :: fs) st
  | After k [AE (Atom name c w)] =>
      of_outcome (sem h ref (Atom name c w) st) (fun '(v, st) =>
      match v with
      | ER false l => if same h r l then Go (At (S n + S k)) (FLeft :: fs) st else Unspecified
      | _ => Unspecified
      end)
  | After _ _ | Other => Unspecified
  | Nowhere => Stops ERR_FOR_WITHOUT_NEXT
  end.
Definition pstep (p : pos) (fs : list frame) (st : St h) : move :=
  match p with
  | Rest n o => settle n fs (exec_rest h ref slab o st)
  | Head n =>
      match fs, bounds_of n with
      | FFor m r :: fs', Some (b, s) =>
          of_outcome (limits h ref b s st) (fun '(e, x, st) => if overb x e (getn h st r) then no_pass n r fs' st else Go (At (S n)) fs st)
      | _, _ => Unspecified
      end
  | At n =>
      match nth_error us n with
      | None => End st
      | Some (ULab _) | Some (UData _) => Go (At (S n)) fs st
      | Some (UCheck c) => of_outcome (hcheck h c st) (fun st => Go (At (S n)) fs st)
      | Some (UDo l) => settle n fs (exec_lin h ref slab l st)
      | Some (UFor lv a b s) =>
          of_outcome (sem h ref lv st) (fun '(v, st) =>
          match v with
          | ER false r =>
              if (length fs =? 255)%nat then Stops ERR_OUT_OF_MEMORY else
              of_outcome (sem h ref a st) (fun '(w, st) =>
              of_outcome (value_num h st w) (fun x => Go (Head n) (FFor n r :: fs) (setn h st r x)))
          | _ => Unspecified
          end)
      | Some (UNext args) =>
          of_outcome (asems h ref args st) (fun '(vs, st) =>
          if forallb no_loop fs then Stops ERR_NEXT_WITHOUT_FOR else
          match fs, vs with
          | FFor m r :: fs', ([] | [ER false _]) =>
              if (match vs with [ER _ l] => same h r l | _ => true end) then
                match bounds_of m with
                | Some (b, s) =>
                    match limits h ref b s st with
                    | Ok (e, x, st) =>
                        let v := getn h st r + x in
                        if (v >? INT_MAX) || (v <? INT_MIN) then Stops ERR_OVERFLOW
                        else if overb x e v then Go (At (S n)) fs' (setn h st r v)
                        else Go (Head m) fs (setn h st r v)
                    | _ => Unspecified
                    end
                | None => Unspecified
                end
              else Unspecified    (* the NEXT of an outer loop *)
          | _, _ => Unspecified   (* NEXT in a subroutine, for a loop outside it; NEXT around a loop without a pass *)
          end)
      end
  end.
(** a run: the place and state after [n] steps *)
Fixpoint prun (n : nat) (p : pos) (fs : list frame) (st : St h) : move :=
  match n with
  | O => Go p fs st
  | S n => match pstep p fs st with Go p fs st => prun n p fs st | m => m end
  end.
(** the program from its first statement *)
Definition run_program (n : nat) (st : St h) : move := prun n (At 0) [] st.
End Sem.
Arguments Go {h} _ _ _. Arguments End {h} _. Arguments Stops {h} _. Arguments Unspecified {h}.
Arguments FGosub {h} _ _. Arguments FFor {h} _ _. Arguments FLeft {h}.

(** ** Programs covered *)
(** lines within the limits of the compiler whose FOR and NEXT statements are not inside an IF; the bounds of a loop
    compile to less than 256 bytes; label names and DATA of the lexer *)
Definition plain_stmt (s : stmt) : Prop :=
  match s with SFor _ _ b s => True | SCmd c args => (c = CMD_NEXT /\ (length args <= 1)%nat) \/ basic (SCmd c args) | s => basic s end.
Fixpoint plain_line (l : lin) : Prop :=
  match l with
  | LOne s => plain_stmt s
  | LSeq s l => plain_stmt s /\ plain_line l
  | LIf e t el => all_stmts basic (fun _ => True) l
  end.
Definition proper_line (l : lin) : Prop :=
  wfl false true l /\ all_stmts sspelled spelled l /\ (length (line_toks l) <= 100)%nat /\ if_ok l /\ plain_line l.
Definition proper_pline (p : pline) : Prop :=
  match p with
  | PLab w => valid_name w
  | PLine l => proper_line l
  | PNote _ => True
  | PData src => Forall is_byte src /\ (length src < 128)%nat
  end.
Definition short_bounds (ids : option ids_fun) (u : statement) : Prop :=
  match u with UFor _ _ b s => forall ic, instrs ids (bounds_code b s) = Ok ic -> (length (encode ic) < 256)%nat | _ => True end.
