(** What a line is meant to do: statements in order, IF chooses one branch. *)
From Verif Require Import Base Tokens ExprSpec StmtSpec Bytecode BytecodeSpec Runner RunnerSpec ExecProofs.

Section Sem.
Variable h : host.
Variable ref : bool -> list Z -> vref.
Variable lab : labels_fun h.
Notation ent := (entry (Loc h)).
(** What executing a statement does next: fall through to the following one, jump, call a subroutine
    ([rest] is what remains of the line after the call), return from one, end the program. *)
Inductive flow :=
| Fall (st : St h) | Jump (i : Z) (st : St h) | Call (label : ent) (rest : option lin) (st : St h) | Ret (st : St h) | Stop (st : St h).

Definition asem (a : arg_) (st : St h) : outcome (ent * St h) :=
  match a with AE e => sem h ref e st | AL w => Ok (ES true w, st) end.
Fixpoint asems (l : list arg_) (st : St h) : outcome (list ent * St h) :=
  match l with
  | [] => Ok ([], st)
  | a :: r => let* (v, st) := asem a st in let* (vs, st) := asems r st in Ok (v :: vs, st)
  end.
Definition osem (o : option expr) (st : St h) : outcome (list ent * St h) :=
  match o with Some e => let* (v, st) := sem h ref e st in Ok ([v], st) | None => Ok ([], st) end.
(** what PRINT is given: values and separators, in order *)
Fixpoint isems (l : list (option expr * Z)) (st : St h) : outcome (list ent * St h) :=
  match l with
  | [] => Ok ([], st)
  | (o, s) :: r => let* (vs, st) := osem o st in let* (ws, st) := isems r st in Ok (vs ++ EO s :: ws, st)
  end.
Definition truth (st : St h) (v : ent) : outcome bool := let* x := value_num h st v in Ok (negb (x =? 0)).

(** GOTO / GOSUB: a string is the label itself; a number n selects the n-th (from 0) of the labels after it, if there is one *)
Definition target (st : St h) (vs : list ent) : outcome (option ent) :=
  match vs with
  | [] => UB
  | v :: ls =>
      match v with
      | ES _ _ | ER true _ => Ok (Some v)
      | _ =>
          let* x := value_num h st v in
          let n := x / 4096 in
          if (0 <=? n) && (n <? Z.of_nat (length ls)) then
            match nth_error ls (Z.to_nat n) with Some (ES b w) => Ok (Some (ES b w)) | Some (EO _) => Err ERR_SYNTAX | _ => UB end
          else Ok None
      end
  end.
Definition perform (c : Z) (vs : list ent) (st : St h) : outcome flow :=
  if c =? CMD_GOTO then
    let* t := target st vs in
    match t with Some v => let* i := lab v st in Ok (Jump i st) | None => Ok (Fall st) end
  else if c =? CMD_GOSUB then
    let* t := target st vs in
    match t with Some v => Ok (Call v None st) | None => Ok (Fall st) end
  else if c =? CMD_RETURN then Ok (Ret st)
  else if c =? CMD_END then Ok (Stop st)
  else if c =? CMD_STOP then Err ERR_BREAK
  else let* st := hcmd h c vs st in Ok (Fall st).
(** DIM: one array after the other *)
Fixpoint dims (l : list expr) (st : St h) : outcome (St h) :=
  match l with
  | [] => Ok st
  | e :: r => let* (vs, st) := sems h ref (dim_sizes e) st in let* st := hdim h (dim_name e) vs st in dims r st
  end.
Definition exec_stmt (s : stmt) (st : St h) : outcome flow :=
  match s with
  | SLet lv e =>
      let* (r, st) := sem h ref lv st in let* (v, st) := sem h ref e st in
      let* st := assign h r v st in Ok (Fall st)
  | SCmd c args => let* (vs, st) := asems args st in perform c vs st
  | SOn e c args => let* (v, st) := sem h ref e st in let* (vs, st) := asems args st in perform c (v :: vs) st
  | SPrint items last =>
      let* (vs, st) := isems items st in let* (ws, st) := osem last st in
      let* st := hcmd h CMD_PRINT (vs ++ ws) st in Ok (Fall st)
  | SGo w => let* i := lab (ES true w) st in Ok (Jump i st)
  | SDim items => let* st := dims items st in Ok (Fall st)
  | SFor _ _ _ _ => UB
  end.
Fixpoint exec_lin (l : lin) (st : St h) : outcome flow :=
  match l with
  | LOne s => exec_stmt s st
  | LSeq s l =>
      let* f := exec_stmt s st in
      match f with
      | Fall st => exec_lin l st
      | Call v _ st => Ok (Call v (Some l) st)
      | _ => Ok f
      end
  | LIf e t el =>
      let* (v, st) := sem h ref e st in
      let* b := truth st v in
      if b then exec_lin t st else match el with Some el => exec_lin el st | None => Ok (Fall st) end
  end.

Definition exec_rest (o : option lin) (st : St h) : outcome flow := match o with Some l => exec_lin l st | None => Ok (Fall st) end.

(** ** the machine after a statement or line whose code ends at [p]; [k] is the call stack *)
Variable code : list Z.
Definition gosub_to (v : ent) (st : St h) (p : Z) (k : list (call (Loc h))) : outcome (cfg h) :=
  match lab v st with
  | UB => UB
  | r => if (length k =? 255)%nat then Err ERR_OUT_OF_MEMORY else let* i := r in Ok (mkC i [] (CGosub p :: k) 0 st)
  end.
(** the most recent GOSUB, dropping FOR entries above it *)
Fixpoint unwind (k : list (call (Loc h))) : option (Z * list (call (Loc h))) :=
  match k with [] => None | CGosub a :: r => Some (a, r) | CFor _ _ :: r => unwind r end.
Definition return_to (k : list (call (Loc h))) (st : St h) : outcome (cfg h) :=
  match unwind k with
  | Some (a, r) => Ok (mkC a [] r 0 st)
  | None => match k with [] => Err ERR_RETURN_WITHOUT_GOSUB | _ => UB end
  end.
Definition lands (p : Z) (k : list (call (Loc h))) (r : outcome flow) : outcome (cfg h) :=
  let* f := r in
  match f with
  | Fall st => Ok (mkC p [] k 0 st)
  | Jump i st => Ok (mkC i [] k 0 st)
  | Call v _ st => gosub_to v st p k
  | Ret st => return_to k st
  | Stop st => Ok (mkC (Z.of_nat (length code)) [] k 0 st)
  end.
(** After a subroutine call the return address [p] is where the rest of the line is, in the sense that
    continuing there, in any state, does what the rest of the line is meant to do. *)
Inductive landed (fin : Z) : list (call (Loc h)) -> outcome flow -> outcome (cfg h) -> Prop :=
| landed_call k v rest st p :
    (forall k' st', exists n,
       landed fin k' (exec_rest rest st') (steps lab code n (mkC p [] k' 0 st'))) ->
    landed fin k (Ok (Call v rest st)) (gosub_to v st p k)
| landed_other k f : (forall v rest st, f <> Ok (Call v rest st)) -> landed fin k f (lands fin k f).
End Sem.
Arguments Fall {h} _. Arguments Jump {h} _ _. Arguments Call {h} _ _ _. Arguments Ret {h} _. Arguments Stop {h} _.

(** ** the fragment: everything but FOR and NEXT *)
Definition jumps (c : Z) : Prop := c = CMD_GOTO \/ c = CMD_GOSUB.
Definition flow_cmd (c : Z) : Prop := In c [CMD_FOR; CMD_TO; CMD_STEP; CMD_ON; CMD_NEXT; CMD_IF; CMD_ELSE; CMD_ENDIF].
Definition basic (s : stmt) : Prop :=
  match s with
  | SLet _ _ | SPrint _ _ | SGo _ | SDim _ => True
  | SCmd c args => ~ flow_cmd c /\ (jumps c -> args <> [])
  | SOn _ c args => jumps c
  | SFor _ _ _ _ => False
  end.
Definition aspelled (a : arg_) : Prop := match a with AE e => spelled e | AL w => Forall is_byte w /\ (length w < 128)%nat end.
Definition ospelled (o : option expr) : Prop := match o with Some e => spelled e | None => True end.
Definition sspelled (s : stmt) : Prop :=
  match s with
  | SLet lv e => spelled lv /\ spelled e
  | SCmd c args => is_byte c /\ Forall aspelled args
  | SOn e c args => spelled e /\ is_byte c /\ Forall aspelled args
  | SPrint items last => Forall (fun it => ospelled (fst it)) items /\ ospelled last
  | SFor lv a b s => spelled lv /\ spelled a /\ spelled b /\ ospelled s
  | SGo w => Forall is_byte w /\ (length w < 128)%nat
  | SDim items => Forall spelled items
  end.
Fixpoint all_stmts (P : stmt -> Prop) (Q : expr -> Prop) (l : lin) : Prop :=
  match l with
  | LOne s => P s
  | LSeq s l => P s /\ all_stmts P Q l
  | LIf e t el => Q e /\ all_stmts P Q t /\ match el with Some el => all_stmts P Q el | None => True end
  end.
Fixpoint has_else (l : lin) : bool :=
  match l with LOne _ => false | LSeq _ l => has_else l | LIf _ t el => match el with Some _ => true | None => has_else t end end.
(** a statement directly after THEN / ELSE that starts with a label is GOTO, GOSUB or the label alone
    (anything else, e.g. IF A THEN RESTORE @L, is taken for a jump to the label) *)
Definition label_ok (l : lin) : Prop :=
  match l with
  | LOne (SCmd c (AL _ :: r)) | LSeq (SCmd c (AL _ :: r)) _ => r = [] /\ (c = CMD_GOTO \/ c = CMD_GOSUB)
  | _ => True
  end.
(** No IF inside the THEN part of an IF with ELSE; no IF with ELSE inside the THEN part of one without. *)
Fixpoint if_ok (l : lin) : Prop :=
  match l with
  | LOne _ => True
  | LSeq _ l => if_ok l
  | LIf _ t el => label_ok t /\ if_ok t /\
      match el with Some el => label_ok el /\ has_if t = false /\ if_ok el | None => has_else t = false end
  end.

(** ** the checks at the end of a line (runner.c BC_SYSVAR_VALIDATE): the system variables occurring in
    the line whose values must be checked, in this order: TABSTEP ICONPUSE ICONPAGE ICONPMAX MEM$ MEMSAFE *)
Definition checked : list Z := [19; 26; 27; 28; 31; 32].
Definition line_checks (l : lin) : list Z := filter (fun c => existsb (fun t => is_ty t sysvar && (cl t =? c)) (line_code l)) checked.
Fixpoint run_checks (h : host) (cs : list Z) (st : St h) : outcome (St h) :=
  match cs with [] => Ok st | c :: r => let* st := hcheck h c st in run_checks h r st end.

(** lines as the lexer delivers them, within the limits of the compiler *)
Definition proper (l : lin) : Prop :=
  wfl false true l /\ all_stmts (fun s => sspelled s /\ basic s) spelled l /\ (length (line_toks l) <= 100)%nat.
