(** One machine from the parts: the host of the interpreter loop (Runner.v) with the variable table and array memory of Vars.v,
    the numeric operators of Num.v, the strings of Strs.v / StrFuncs.v / NumText.v and the console of Console.v.

    Simplifications of this file: (1) the contents of strings are kept in a list that only grows (the pool with its reference
    counts and its exhaustion is in Pool.v); (2) byte strings of the pool and strings in the code are not distinguished, they behave
    alike in Strs.v / StrFuncs.v; MEM$ is not here; (3) the system variables, functions and commands not listed are UB;
    (4) variables are found by name, as in user programs (system.c:367,412, runner.c:597 compile them with TOKOPT_NONE). *)
From Verif Require Import Base Tokens Bytecode BytecodeSpec Runner Vars Num Strs StrFuncs NumText Console Codes.

Record mstate := mkM { mvars : variables; texts : list (list Z); mcon : console }.
(** a pointer to a value: of a variable (slot of the table) or of an array element (cell of the array memory) *)
Inductive mloc := LVar (i : Z) | LCell (c : Z).
Definition mloc_eq (a b : mloc) : {a = b} + {a <> b}.
Proof. decide equality; apply Z.eq_dec. Defined.

(** stack.h:15-17: reading through the pointer *)
Definition mget (m : mstate) (l : mloc) : value :=
  match l with LVar i => v_value (slot (mvars m) i) | LCell c => arr_cell (arrs (mvars m)) c end.
Definition set_cell (v : variables) (c : Z) (x : value) : variables :=
  set_arrs v (mkArr (arr_data_size (arrs v)) (arr_data_next (arrs v)) (upd (arr_data (arrs v)) (Z.to_nat c) x)).
(** writing through it *)
Definition mput (m : mstate) (l : mloc) (x : value) : mstate :=
  mkM (match l with
       | LVar i => let s := slot (mvars m) i in set_slot (mvars m) i (mkVar (v_type s) (v_name s) x)
       | LCell c => set_cell (mvars m) c x
       end) (texts m) (mcon m).
Definition mgetn (m : mstate) (l : mloc) : Z := match mget m l with VNum n => n | _ => 0 end.
Definition msetn (m : mstate) (l : mloc) (n : Z) : mstate := mput m l (VNum n).
Definition mtext (m : mstate) (l : mloc) : list Z := match mget m l with VStr h => nth (Z.to_nat h) (texts m) [] | _ => [] end.

Notation ment := (entry mloc).
(** entry type bits VAR_NUMBER / VAR_STRING *)
Definition is_num {L} (e : entry L) : bool := match e with EN _ | ER false _ => true | _ => false end.
Definition is_str {L} (e : entry L) : bool := match e with ES _ _ | ER true _ => true | _ => false end.
(** stack.h:15 VALUE_NUM, stack.h:59-71 value_str *)
Definition mnum (m : mstate) (e : ment) : outcome Z := match e with EN v => Ok v | ER false l => Ok (mgetn m l) | _ => UB end.
Definition mstr (m : mstate) (e : ment) : outcome str := match e with ES _ s => Ok (SChar s) | ER true l => Ok (SChar (mtext m l)) | _ => UB end.
Definition bytes_of (s : str) : list Z := str_char_copy s.
Definition pushn (m : mstate) (x : outcome Z) : outcome (ment * mstate) := let* v := x in Ok (EN v, m).
Definition pushs (m : mstate) (x : outcome str) : outcome (ment * mstate) := let* s := x in Ok (ES false (bytes_of s), m).

(** runner.c:144-161 read_var_name: the type is in the last character.  A one-letter name is always a number. *)
Definition var_name (w : list Z) : list Z * Z :=
  if (nth (length w - 1) w 0 =? 36) && negb (length w =? 1)%nat then (firstn (length w - 1) w, VAR_STRING) else (w, VAR_NUMBER).
(** runner.c:361-371 *)
Definition mvar (r : vref) (m : mstate) : outcome (bool * mloc * mstate) :=
  match r with
  | ByName false w =>
      let '(nm, t) := var_name w in
      match get_var (mvars m) nm t with
      | (v, Ok i) => Ok (t =? VAR_STRING, LVar i, mkM v (texts m) (mcon m))
      | (_, Err e) => Err e
      | (_, UB) => UB
      end
  | _ => UB
  end.
(** runner.c:372-384: two arguments are two subscripts, otherwise the last one is the only one *)
Definition marr (r : vref) (args : list ment) (m : mstate) : outcome (bool * mloc * mstate) :=
  match r with
  | ByName false w =>
      let '(nm, t) := var_name w in
      let* (a, b) := (match args with
        | [x; y] => let* i := mnum m x in let* j := mnum m y in Ok (u32 (FP_TO_INT i), u32 (FP_TO_INT j))
        | _ => match rev args with x :: _ => let* i := mnum m x in Ok (u32 (FP_TO_INT i), ARR_DIM2_UNUSED) | [] => UB end
        end) in
      match get_arr_entry (mvars m) nm (t + VAR_ARRAY) a b with
      | (v, Ok c) => Ok (t =? VAR_STRING, LCell c, mkM v (texts m) (mcon m))
      | (_, Err e) => Err e
      | (_, UB) => UB
      end
  | _ => UB
  end.
(** runner.c:390-420 BC_DIM *)
Definition mdim (w : list Z) (args : list ment) (m : mstate) : outcome mstate :=
  let '(nm, t) := var_name w in
  let* (a, b) := (match args with
    | [x; y] => let* i := mnum m x in let* j := mnum m y in Ok (u32 (FP_TO_INT i), u32 (FP_TO_INT j))
    | _ => match rev args with x :: _ => let* i := mnum m x in Ok (u32 (FP_TO_INT i), ARR_DIM2_UNUSED) | [] => UB end
    end) in
  match dim (mvars m) nm (t + VAR_ARRAY) a b with
  | (v, Ok _) => Ok (mkM v (texts m) (mcon m))
  | (_, Err e) => Err e
  | (_, UB) => UB
  end.

(** operators.c:125-132, 320-341 *)
Definition mun (o : Z) (e : ment) (m : mstate) : outcome (ment * mstate) :=
  let* x := mnum m e in
  pushn m (if o =? OP_NEGATE then op_negate x else if o =? OP_NOT then op_not x else if o =? OP_LOGICAL_NOT then op_logical_not x else UB).
Definition num_op (o : Z) : option (Z -> Z -> outcome Z) :=
  if o =? OP_ADD then Some op_add else if o =? OP_SUBTRACT then Some op_sub else if o =? OP_MULTIPLY then Some op_mult
  else if o =? OP_DIVIDE then Some op_div else if o =? OP_MODULO then Some op_modulo
  else if o =? OP_EQUAL then Some op_equal else if o =? OP_NOT_EQUAL then Some op_inequal
  else if o =? OP_LESS then Some op_less else if o =? OP_GREATER then Some op_greater
  else if o =? OP_LESS_EQUAL then Some op_less_equal else if o =? OP_GREATER_EQUAL then Some op_greater_equal
  else if o =? OP_AND then Some op_and else if o =? OP_OR then Some op_or else if o =? OP_XOR then Some op_xor else None.
Definition str_cmp (o : Z) : option (str -> str -> outcome Z) :=
  if o =? OP_EQUAL then Some op_equal_str else if o =? OP_NOT_EQUAL then Some op_inequal_str
  else if o =? OP_LESS then Some op_less_str else if o =? OP_GREATER then Some op_greater_str
  else if o =? OP_LESS_EQUAL then Some op_less_equal_str else if o =? OP_GREATER_EQUAL then Some op_greater_equal_str else None.
(** operators.c:15-311: the branch is chosen by the types of the operands *)
Definition mbin (o : Z) (a b : ment) (m : mstate) : outcome (ment * mstate) :=
  if is_num a && is_num b then
    let* x := mnum m a in let* y := mnum m b in match num_op o with Some f => pushn m (f x y) | None => UB end
  else if is_str a && is_str b then
    let* x := mstr m a in let* y := mstr m b in
    if o =? OP_ADD then pushs m (op_add_str x y)
    else if o =? OP_MULTIPLY then Err ERR_OP_INVALID_TYPES
    else match str_cmp o with Some f => pushn m (f x y) | None => UB end
  else if is_str a && is_num b && (o =? OP_MULTIPLY) then
    let* x := mstr m a in let* y := mnum m b in pushs m (op_mult_str x y)
  else UB.
(** operators.c:134-185 op_assign, string branch: a new string with the same characters *)
Definition msassign (l : mloc) (e : ment) (m : mstate) : outcome mstate :=
  let* s := mstr m e in
  let m' := mput m l (VStr (Z.of_nat (length (texts m)))) in Ok (mkM (mvars m') (texts m ++ [bytes_of s]) (mcon m)).

(** functions.  VAL reads its buffer of 256 bytes before anything is in it for texts of fewer than two characters (strfuncs.c:61-69): taken to be zeros here,
    so VAL of the empty text and of an ampersand alone are not what the program can rely on. *)
Definition mfun (c : Z) (args : list ment) (m : mstate) : outcome (ment * mstate) :=
  match args with
  | [] => if c =? FUNC_PI then pushn m (Ok FIXP_PI) else UB
  | [x] =>
      if is_num x then
        let* v := mnum m x in
        if c =? FUNC_ABS then pushn m (func_abs v) else if c =? FUNC_FLOOR then pushn m (Ok (func_floor v))
        else if c =? FUNC_SGN then pushn m (Ok (func_sgn v)) else if c =? FUNC_CHR then pushs m (func_chr v)
        else if c =? FUNC_STR then pushs m (func_str v) else if c =? FUNC_DEG then pushn m (Ok (func_deg v)) else if c =? FUNC_RAD then pushn m (Ok (func_rad v))
        else if c =? FUNC_HEX then pushs m (func_hex v None) else UB
      else
        let* s := mstr m x in
        if c =? FUNC_LEN then pushn m (Ok (func_len s)) else if c =? FUNC_ASC then pushn m (func_asc s)
        else if c =? FUNC_VAL then pushn m (func_val (repeat 0 256) s) else UB
  | [x; y] =>
      if c =? FUNC_CHKCHR then let* a := mnum m x in let* b := mnum m y in pushn m (Ok (func_chkchr (mcon m) (FP_TO_INT a) (FP_TO_INT b)))
      else if c =? FUNC_LEFT then let* s := mstr m x in let* v := mnum m y in pushs m (func_left s v)
      else if c =? FUNC_HEX then let* v := mnum m x in let* w := mnum m y in pushs m (func_hex v (Some w))
      else if c =? FUNC_RIGHT then let* s := mstr m x in let* v := mnum m y in pushs m (func_right s v)
      else if c =? FUNC_INSTR then let* s := mstr m x in let* t := mstr m y in pushn m (func_instr s t 0)
      else UB
  | [x; y; z] =>
      if c =? FUNC_MID then let* s := mstr m x in let* v := mnum m y in let* w := mnum m z in pushs m (func_mid s v w)
      else if c =? FUNC_INSTR then let* s := mstr m x in let* t := mstr m y in let* v := mnum m z in pushn m (func_instr s t (FP_TO_INT v))
      else UB
  | [x; y; z; w] =>
      if c =? FUNC_SUBST then let* s := mstr m x in let* a := mnum m y in let* b := mnum m z in let* t := mstr m w in pushs m (func_subst s a b t)
      else UB
  | _ => UB
  end.
(** system variables: subsystem/sysvars.c:12-27, 169-171, console.c:487-497 *)
Definition msys (c : Z) (m : mstate) : outcome (ment * mstate) :=
  if c =? SYS_TRUE then pushn m (Ok (INT_TO_FP 1)) else if c =? SYS_FALSE then pushn m (Ok (INT_TO_FP 0))
  else if c =? SYS_CANCEL then pushn m (Ok (- INT_TO_FP 1))
  else if c =? SYS_FREEVAR then pushn m (Ok (INT_TO_FP (vars_max (mvars m) - var_count (mvars m))))
  else if c =? SYS_CSRX then pushn m (Ok (sys_csrx (mcon m))) else if c =? SYS_CSRY then pushn m (Ok (sys_csry (mcon m))) else UB.

(** console.c:112-150 cmd_print: what each stack entry puts (85-91 con_putn).  Simplification: all items are looked at before the first is put. *)
Definition mitem (m : mstate) (e : ment) : outcome item :=
  match e with
  | EO o => if o =? OP_COMMA then Ok Comma else if o =? OP_SEMICOLON then Ok Semicolon else UB
  | _ => if is_num e then let* v := mnum m e in let* b := fixp_to_char v in Ok (Text (map to_wide b))
         else let* s := mstr m e in Ok (Text (str_wide_copy s))
  end.
Fixpoint mitems (m : mstate) (l : list ment) : outcome (list item) :=
  match l with [] => Ok [] | e :: r => let* i := mitem m e in let* is := mitems m r in Ok (i :: is) end.
Definition with_con (m : mstate) (c : console) : mstate := mkM (mvars m) (texts m) c.
Definition mcmd (c : Z) (args : list ment) (m : mstate) : outcome mstate :=
  if c =? CMD_PRINT then let* is := mitems m args in let* k := cmd_print (mcon m) is in Ok (with_con m k)
  else if c =? CMD_LOCATE then
    match args with [x; y] => let* a := mnum m x in let* b := mnum m y in Ok (with_con m (cmd_locate (mcon m) (FP_TO_INT a) (FP_TO_INT b))) | _ => UB end
  else if c =? CMD_COLOR then
    match args with
    | [x; y] => let* a := mnum m x in let* b := mnum m y in Ok (with_con m (cmd_color (mcon m) (FP_TO_INT a) (Some (FP_TO_INT b))))
    | [x] => let* a := mnum m x in Ok (with_con m (cmd_color (mcon m) (FP_TO_INT a) None))
    | _ => UB
    end
  else if c =? CMD_CLS then Ok (with_con m (cmd_cls (mcon m)))
  else if c =? CMD_SWAP then (* subsystem/variables.c:9-18 *)
    match args with
    | [ER _ a; ER _ b] => let x := mget m a in Ok (mput (mput m a (mget m b)) b x)
    | _ => UB
    end
  else UB.

Definition machine : host :=
  mkHost mstate mloc (fun a b => if mloc_eq a b then true else false) mgetn msetn mvar marr mdim mun mbin msassign mfun msys (fun _ _ => UB) mcmd.
(** at the start of a program: system.c:33-43 with the sizes of system.h:29-31, an empty screen; entry 0 of [texts] is the empty string *)
Definition machine_start (max elements : Z) : mstate := mkM (init_vars max elements false) [[]] init_console.
