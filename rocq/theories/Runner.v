(** The interpreter loop and the control flow commands
    (source/interpreter/runner.c _run, flow.c, stack.h).

    Everything the loop calls that is not control flow (operators, functions, variable lookup, other
    commands) is a parameter, collected in the record [host]; the other files of this development model
    many of these.  The theorems hold for every host. *)
From Verif Require Import Base Tokens Bytecode BytecodeSpec.

(** how an instruction designates a variable *)
Inductive vref := ByName (actual_array : bool) (s : list Z) | ById (i : Z).

(** stack.h:47-55 struct stack_entry: a number, a string, a reference to a variable or array element
    (VAR_VARIABLE), or a comma / semicolon (STACK_OP) *)
Inductive entry (Loc : Type) :=
| EN (v : Z)
| ES (label : bool) (s : list Z)
| ER (str : bool) (l : Loc)
| EO (o : Z).
Arguments EN {Loc} _. Arguments ES {Loc} _ _. Arguments ER {Loc} _ _. Arguments EO {Loc} _.

Record host := mkHost {
  St : Type; Loc : Type;
  same : Loc -> Loc -> bool;                                   (* comparison of addresses *)
  getn : St -> Loc -> Z; setn : St -> Loc -> Z -> St;          (* reading / writing a number *)
  hvar : vref -> St -> outcome (bool * Loc * St);              (* get_var: is it a string, where *)
  harr : vref -> list (entry Loc) -> St -> outcome (bool * Loc * St);   (* get_arr_entry *)
  hdim : list Z -> list (entry Loc) -> St -> outcome St;       (* DIM *)
  hun : Z -> entry Loc -> St -> outcome (entry Loc * St);      (* unary operators *)
  hbin : Z -> entry Loc -> entry Loc -> St -> outcome (entry Loc * St);
  hsassign : Loc -> entry Loc -> St -> outcome St;             (* string assignment *)
  hfun : Z -> list (entry Loc) -> St -> outcome (entry Loc * St);
  hsys : Z -> St -> outcome (entry Loc * St);
  hcheck : Z -> St -> outcome St;
  hcmd : Z -> list (entry Loc) -> St -> outcome St             (* commands without control flow; arguments in order *)
}.

(** stack.h:117-137: calls.entry[], last first *)
Inductive call (Loc : Type) := CFor (address : Z) (var : Loc) | CGosub (address : Z).
Arguments CFor {Loc} _ _. Arguments CGosub {Loc} _.

Section Machine.
Variable h : host.
Notation ent := (entry (Loc h)).
Record cfg := mkC { ix : Z; stk : list ent; calls : list (call (Loc h)); argc : Z; hst : St h }.

(** ** Decoding one instruction (runner.c:188-191 and the reads in each case).
    [data] is a plain char, taken as signed (x86; on the DS it is unsigned). *)
Definition slice (code : list Z) (i n : Z) : list Z := firstn (Z.to_nat n) (skipn (Z.to_nat i) code).
Definition fetch (code : list Z) (i : Z) : outcome (instr * Z) :=
  let op := byte code i in let u := byte code (i + 1) in let data := s8 u in
  let skip := i + 2 + data + Z.land data 1 in
  let nm (k : list Z -> instr) := if data <? 65 then Ok (k (slice code (i + 2) data), skip) else Ok (k [u], i + 2) in
  if op =? BC_SMALL_NUMBER then if u <=? 99 then Ok (INum false (u * 4096), i + 2) else Err ERR_NUM_INVALID
  else if op =? BC_STRING then Ok (IStr false (slice code (i + 2) u), skip)
  else if op =? BC_LABEL_STRING then Ok (IStr true (slice code (i + 2) u), skip)
  else if op =? BC_COMMAND then Ok (ICmd false u, i + 2)
  else if op =? BC_COMMAND_FIRST then Ok (ICmd true u, i + 2)
  else if op =? BC_OPERATOR then Ok (IOp u, i + 2)
  else if op =? BC_FUNCTION then Ok (IFun u, i + 2)
  else if op =? BC_SYSVAR then Ok (ISys u, i + 2)
  else if op =? BC_SYSVAR_VALIDATE then Ok (ICheck u, i + 2)
  else if op =? BC_NUMBER then
    Ok (INum true (s32 (byte code (i + 2) * 2 ^ 24 + byte code (i + 3) * 2 ^ 16 + byte code (i + 4) * 2 ^ 8 + byte code (i + 5))), i + 6)
  else if op =? BC_VARIABLE_ID_SMALL then Ok (IId false u, i + 2)
  else if op =? BC_VARIABLE_ID then Ok (IId true (u + byte code (i + 2) * 256 + byte code (i + 3) * 65536), i + 4)
  else if op =? BC_ARRAY_NAME then nm IArray
  else if op =? BC_VARIABLE_NAME then nm IVar
  else if op =? BC_DIM then nm IDim
  else if op =? BC_ARGCOUNT then Ok (IArgc data, i + 2)
  else if op =? BC_BEGIN_LOOP then Ok (ILoop, i + 2)
  else if op =? BC_DATA then Ok (IData (slice code (i + 2) data), skip)
  else if op =? BC_LABEL then Ok (ILabel (slice code (i + 2) data), skip)
  else if op =? BC_ERROR then Ok (IErr u, i + 2)
  else Err ERR_INVALID_BC.

(** ** the value stack: VALUE_STACK_SIZE 100; the loop pushes without checking *)
Definition push (e : ent) (s : list ent) : outcome (list ent) := if (length s <? 100)%nat then Ok (e :: s) else UB.
Definition pop (s : list ent) : outcome (ent * list ent) := match s with e :: r => Ok (e, r) | [] => UB end.
(** the last [n] entries, in order, and the rest *)
Fixpoint pops (n : nat) (s : list ent) (acc : list ent) : outcome (list ent * list ent) :=
  match n with O => Ok (acc, s) | S n => match s with e :: r => pops n r (e :: acc) | [] => UB end end.
(** stack.h:15 VALUE_NUM *)
Definition value_num (st : St h) (e : ent) : outcome Z :=
  match e with EN v => Ok v | ER false l => Ok (getn h st l) | _ => UB end.
Definition bottom (s : list ent) : outcome ent := match rev s with e :: _ => Ok e | [] => UB end.
Definition arg (s : list ent) (i : nat) : outcome ent := match nth_error (rev s) i with Some e => Ok e | None => UB end.

Definition set_stk (c : cfg) s st := mkC (ix c) s (calls c) 0 st.
Definition goto_ (c : cfg) i := mkC i (stk c) (calls c) (argc c) (hst c).

(** operators.c:134-147 op_assign *)
Definition assign (a b : ent) (st : St h) : outcome (St h) :=
  match a with
  | ER false l => let* v := value_num st b in Ok (setn h st l v)
  | ER true l => hsassign h l b st
  | _ => UB
  end.
Definition unary (o : Z) : bool := (o =? OP_NEGATE) || (o =? OP_NOT) || (o =? OP_LOGICAL_NOT).

(** ** instructions other than control flow; [c] already points past the instruction *)
Definition simple (c : cfg) (i : instr) : outcome cfg :=
  let st := hst c in
  match i with
  | INum _ v => let* s := push (EN v) (stk c) in Ok (set_stk c s st)
  | IStr lb w => let* s := push (ES lb w) (stk c) in Ok (set_stk c s st)
  | ISys k => let* (e, st) := hsys h k st in let* s := push e (stk c) in Ok (set_stk c s st)
  | ICheck k => let* st := hcheck h k st in Ok (set_stk c (stk c) st)
  | IVar _ | IArray _ | IId _ _ =>  (* runner.c:310-388 *)
      let r := match i with IVar w => ByName false w | IArray w => ByName true w | IId _ n => ById n | _ => ById 0 end in
      if argc c =? 0 then
        let* (b, l, st) := hvar h r st in let* s := push (ER b l) (stk c) in Ok (set_stk c s st)
      else
        let* (args, s) := pops (Z.to_nat (argc c)) (stk c) [] in
        let* (b, l, st) := harr h r args st in let* s := push (ER b l) s in Ok (set_stk c s st)
  | IDim w => (* runner.c:390-420 *)
      let* (args, s) := pops (Z.to_nat (argc c)) (stk c) [] in let* st := hdim h w args st in Ok (set_stk c s st)
  | IFun f => (* functions take their arguments from the stack; modelled: exactly the arguments written *)
      let* (args, s) := pops (Z.to_nat (argc c)) (stk c) [] in
      let* (e, st) := hfun h f args st in let* s := push e s in Ok (set_stk c s st)
  | IOp o =>
      if (o =? OP_COMMA) || (o =? OP_SEMICOLON) then let* s := push (EO o) (stk c) in Ok (set_stk c s st)
      else let* (b, s) := pop (stk c) in
        if unary o then let* (e, st) := hun h o b st in let* s := push e s in Ok (set_stk c s st)
        else let* (a, s) := pop s in
          if o =? OP_ASSIGN then let* st := assign a b st in Ok (set_stk c s st)
          else let* (e, st) := hbin h o a b st in let* s := push e s in Ok (set_stk c s st)
  | IArgc n => Ok (mkC (ix c) (stk c) (calls c) n st)
  | IData _ | ILabel _ => Ok (set_stk c (stk c) st)
  | _ => UB
  end.

(** ** cmd_for (flow.c:16-54) *)
Fixpoint find_assign (fuel : nat) (code : list Z) (i : Z) : option Z :=
  match fuel with
  | O => None
  | S f => match bc_scan code i BC_OPERATOR with
           | None => None
           | Some j => if byte code (j + 1) =? OP_ASSIGN then Some j else find_assign f code (j + 2)
           end
  end.
Definition cmd_for (code : list Z) (c : cfg) : outcome cfg :=
  let* e := bottom (stk c) in
  match find_assign (S (length code)) code (ix c) with
  | None => Err ERR_FOR_MISSING_BEGIN_LOOP (* ERR_MISSING_OP_ASSIGN_FOR *)
  | Some j =>
      if (length (calls c) =? 255)%nat then Err ERR_OUT_OF_MEMORY else
      match bc_scan code (j + 2) BC_BEGIN_LOOP with
      | None => Err ERR_FOR_MISSING_BEGIN_LOOP
      | Some b =>
          match e with
          | ER _ l => Ok (mkC (ix c) (stk c) (CFor (u32 (Z.lor (j + 2) ((b - (j + 2)) * 2 ^ 24))) l :: calls c) 0 (hst c))
          | _ => UB
          end
      end
  end.

(** ** running the TO / STEP expressions for NEXT (flow.c:101-112): the code slice is run with an empty
    stack from its index 0 and the execution state restored.  An error there is lost; not modelled (UB).
    Only TO and STEP can occur as commands (Tokens.ev_command inserts BEGIN_LOOP before any other). *)
Definition cond_step (code : list Z) (c : cfg) : outcome cfg :=
  let* (i, nx) := fetch code (ix c) in
  let c := goto_ c nx in
  match i with
  | ICmd _ k => if (k =? CMD_TO) || (k =? CMD_STEP) then Ok (set_stk c (stk c) (hst c)) else UB
  | _ => simple c i
  end.
Fixpoint run_cond (fuel : nat) (code : list Z) (c : cfg) : outcome cfg :=
  match fuel with
  | O => UB
  | S f => if ix c <? Z.of_nat (length code) then
             match cond_step code c with Ok c => run_cond f code c | _ => UB end
           else Ok c
  end.

(** ** cmd_next (flow.c:72-144) *)
Definition is_for_of (e : option ent) (k : call (Loc h)) : bool :=
  match k, e with
  | CFor _ _, None => true
  | CFor _ v, Some (ER _ l) => same h v l
  | _, _ => false
  end.
(** searched from the top; the entries above, the entry, the entries below *)
Fixpoint find_call {A} (f : A -> bool) (above : list A) (l : list A) : option (list A * A * list A) :=
  match l with
  | [] => None
  | k :: r => if f k then Some (rev above, k, r) else find_call f (k :: above) r
  end.
Definition past (step end_ v : Z) : bool := ((step <? 0) && (end_ >? v)) || ((step >=? 0) && (end_ <? v)).
Definition cmd_next (code : list Z) (c : cfg) : outcome cfg :=
  let e := match stk c with x :: _ => Some x | [] => None end in
  match find_call (is_for_of e) [] (calls c) with
  | Some (above, CFor addr var, below) =>
      let to_start := addr mod 2 ^ 24 in let to_size := addr / 2 ^ 24 in
      let* d := run_cond (S (Z.to_nat to_size)) (slice code to_start to_size) (mkC 0 [] (calls c) (argc c) (hst c)) in
      let st := hst d in
      let* e0 := arg (stk d) 0 in
      let* end_ := value_num st e0 in
      let* step := (if (length (stk d) =? 1)%nat then Ok 4096 else let* e1 := arg (stk d) 1 in value_num st e1) in
      let v := getn h st var + step in
      if (v >? INT_MAX) || (v <? INT_MIN) then Err ERR_OVERFLOW else
      let st := setn h st var v in
      if past step end_ v then Ok (mkC (ix c) [] (above ++ below) 0 st)
      else Ok (mkC to_start [] (calls c) 0 st)
  | _ => Err ERR_NEXT_WITHOUT_FOR
  end.

(** ** BC_BEGIN_LOOP (runner.c:431-524) *)
Definition next_var (code : list Z) (prev : Z) : option vref :=
  let k := byte code prev in let u := byte code (prev + 1) in
  if k =? BC_VARIABLE_NAME then Some (ByName false (if s8 u <? 65 then slice code (prev + 2) (s8 u) else [u]))
  else if k =? BC_VARIABLE_ID_SMALL then Some (ById u)
  else if k =? BC_VARIABLE_ID then Some (ById (u + byte code (prev + 2) * 256 + byte code (prev + 3) * 65536))
  else None.
Fixpoint skip_loop (fuel : nat) (code : list Z) (var : Loc h) (nest : Z) (index : Z) (st : St h) : outcome (Z * St h) :=
  match fuel with
  | O => UB
  | S f =>
      match bc_scan_pair code index BC_COMMAND_FIRST with
      | (_, None) => Err ERR_FOR_WITHOUT_NEXT
      | (prev, Some j) =>
          let continue nest st := if nest >? 0 then skip_loop f code var nest (j + 2) st else Ok (j + 2, st) in
          let data := byte code (j + 1) in
          if data =? CMD_NEXT then
            match prev with
            | None => continue (nest - 1) st
            | Some q =>
                match next_var code q with
                | Some r => let* (b, l, st) := hvar h r st in if same h var l then Ok (j + 2, st) else continue nest st
                | None => continue (nest - 1) st
                end
            end
          else if data =? CMD_FOR then continue (nest + 1) st
          else continue nest st
      end
  end.
Definition begin_loop (code : list Z) (c : cfg) : outcome cfg :=
  match calls c with
  | [] => Err ERR_BEGIN_LOOP_FAIL
  | CGosub _ :: _ => UB   (* .var of a GOSUB entry *)
  | CFor _ var :: _ =>
      match stk c with
      | [] => Err ERR_BEGIN_LOOP_NO_END
      | e1 :: r =>
          let st := hst c in
          let* (step, end_) := (match r with
                                | [] => let* v := value_num st e1 in Ok (4096, v)
                                | e2 :: _ => let* s := value_num st e1 in let* v := value_num st e2 in Ok (s, v)
                                end) in
          if past step end_ (getn h st var) then
            let* (i, st) := skip_loop (S (length code)) code var 1 (ix c) st in Ok (mkC i [] (calls c) 0 st)
          else Ok (mkC (ix c) [] (calls c) 0 st)
      end
  end.

(** ** IF / ELSE (flow.c:148-212); [lab] is search_label on the program's labels *)
Definition labels_fun := entry (Loc h) -> St h -> outcome Z.
Fixpoint find_cmd (fuel : nat) (code : list Z) (want : Z -> bool) (i : Z) : option Z :=
  match fuel with
  | O => None
  | S f => match bc_scan code i BC_COMMAND with
           | None => None
           | Some j => if want (byte code (j + 1)) then Some j else find_cmd f code want (j + 2)
           end
  end.
Definition cmd_if (lab : labels_fun) (code : list Z) (c : cfg) : outcome cfg :=
  let* e := arg (stk c) 0 in
  let* v := value_num (hst c) e in
  let done (index : Z) (jump_ok : bool) : outcome cfg :=
    let n := byte code (index + 1) in
    let after := index + 2 + n + Z.land n 1 in
    if jump_ok && (byte code index =? BC_LABEL_STRING) &&
       negb ((byte code after =? BC_COMMAND) && ((byte code (after + 1) =? CMD_GOSUB) || (byte code (after + 1) =? CMD_GOTO)))
    then let* i := lab (ES true (slice code (index + 2) n)) (hst c) in Ok (mkC i [] (calls c) 0 (hst c))
    else Ok (mkC index [] (calls c) 0 (hst c)) in
  if negb (v =? 0) then done (ix c) true
  else match find_cmd (S (length code)) code (fun k => (k =? CMD_ELSE) || (k =? CMD_ENDIF)) (ix c) with
       | None => Err ERR_MISSING_ELSE_AND_ENDIF
       | Some j => done (j + 2) (byte code (j + 1) =? CMD_ELSE)
       end.
Definition cmd_else (code : list Z) (c : cfg) : outcome cfg :=
  match find_cmd (S (length code)) code (fun k => k =? CMD_ENDIF) (ix c) with
  | None => Err ERR_MISSING_ELSE_AND_ENDIF
  | Some j => Ok (mkC (j + 2) [] (calls c) 0 (hst c))
  end.

(** ** GOTO / GOSUB (flow.c:218-254).  A string argument is looked up through the host's labels. *)
Definition cmd_goto (lab : labels_fun) (gosub : bool) (c : cfg) : outcome cfg :=
  let* e := arg (stk c) 0 in
  let stay := Ok (mkC (ix c) [] (calls c) 0 (hst c)) in
  let jump (label : ent) : outcome cfg :=
    match lab label (hst c) with
    | UB => UB
    | r => if gosub && (length (calls c) =? 255)%nat then Err ERR_OUT_OF_MEMORY
           else let* i := r in Ok (mkC i [] (if gosub then CGosub (ix c) :: calls c else calls c) 0 (hst c))
    end in
  match e with
  | ES _ _ | ER true _ => jump e
  | EN _ | ER false _ =>
      let* v := value_num (hst c) e in
      let n := FP_TO_INT v in
      if (n <? 0) || (n + 1 >=? Z.of_nat (length (stk c))) then stay
      else let* l := arg (stk c) (Z.to_nat (n + 1)) in
           match l with EO _ => Err ERR_SYNTAX | ES _ _ => jump l | _ => UB end  (* .ptr of a variable is not a string *)
  | EO _ => UB
  end.
(** ** RETURN (flow.c:266-285): when the stack holds only FOR entries, entry[-1] is read *)
Definition is_gosub (k : call (Loc h)) : bool := match k with CGosub _ => true | _ => false end.
Definition cmd_return (c : cfg) : outcome cfg :=
  match calls c with
  | [] => Err ERR_RETURN_WITHOUT_GOSUB
  | _ => match find_call is_gosub [] (calls c) with
         | Some (_, CGosub a, below) => Ok (mkC a [] below 0 (hst c))
         | _ => UB
         end
  end.
Definition CMD_END : Z := 16. Definition CMD_STOP : Z := 17.

(** ** one instruction (runner.c:186-551) *)
Definition command_step (lab : labels_fun) (code : list Z) (c : cfg) (k : Z) : outcome cfg :=
  if k =? CMD_FOR then cmd_for code c
  else if (k =? CMD_TO) || (k =? CMD_STEP) || (k =? CMD_ON) then Ok (set_stk c (stk c) (hst c))
  else if k =? CMD_NEXT then cmd_next code c
  else if k =? CMD_IF then cmd_if lab code c
  else if k =? CMD_ELSE then cmd_else code c
  else if k =? CMD_ENDIF then Ok (mkC (ix c) [] (calls c) 0 (hst c))
  else if k =? CMD_GOTO then cmd_goto lab false c
  else if k =? CMD_GOSUB then cmd_goto lab true c
  else if k =? CMD_RETURN then cmd_return c
  else if k =? CMD_END then Ok (mkC (Z.of_nat (length code)) [] (calls c) 0 (hst c))
  else if k =? CMD_STOP then Err ERR_BREAK
  else let* st := hcmd h k (rev (stk c)) (hst c) in Ok (mkC (ix c) [] (calls c) 0 st).
Definition step (lab : labels_fun) (code : list Z) (c : cfg) : outcome cfg :=
  let* (i, nx) := fetch code (ix c) in
  let c := goto_ c nx in
  match i with
  | ICmd _ k => command_step lab code c k
  | ILoop => begin_loop code c
  | IErr e => Err ERR_SYNTAX (* the error number stored in the code *)
  | _ => simple c i
  end.
(** [n] instructions; the loop ends by itself at the end of the code *)
Fixpoint steps (lab : labels_fun) (code : list Z) (n : nat) (c : cfg) : outcome cfg :=
  match n with O => Ok c | S n => let* c := step lab code c in steps lab code n c end.
Definition running (code : list Z) (c : cfg) : Prop := ix c < Z.of_nat (length code).
End Machine.
Arguments mkC {h} _ _ _ _ _. Arguments ix {h} _. Arguments stk {h} _. Arguments calls {h} _. Arguments argc {h} _. Arguments hst {h} _.
Arguments steps {h} _ _ _ _. Arguments step {h} _ _ _. Arguments command_step {h} _ _ _ _. Arguments simple {h} _ _.
