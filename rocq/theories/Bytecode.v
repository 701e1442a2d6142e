(** From ordered tokens to bytecode, and scanning bytecode
    (source/interpreter/tokens.c tok_code, tok_data, tokenize_full; program.c bc_scan_pair). *)
From Verif Require Import Base Tokens NumText.

(** ptc.h:13-36 instruction letters *)
Definition BC_ARGCOUNT := 65. Definition BC_ARRAY_NAME := 97. Definition BC_BEGIN_LOOP := 66.
Definition BC_COMMAND_FIRST := 99. Definition BC_COMMAND := 67. Definition BC_DIM := 68. Definition BC_DATA := 100.
Definition BC_ERROR := 69. Definition BC_FUNCTION := 70. Definition BC_VARIABLE_ID_SMALL := 105.
Definition BC_VARIABLE_ID := 73. Definition BC_LABEL := 76. Definition BC_LABEL_STRING := 108.
Definition BC_OPERATOR := 79. Definition BC_SMALL_NUMBER := 110. Definition BC_NUMBER := 78. Definition BC_STRING := 83.
Definition BC_VARIABLE_NAME := 86. Definition BC_WIDE_STRING := 87. Definition BC_SYSVAR := 89. Definition BC_SYSVAR_VALIDATE := 121.

(** ** tok_data (tokens.c:650-738): [src] is the source text from after "DATA" to the end of the
    line including its '\r'.  The length byte is counted modulo 256. *)
Inductive dstate := DNone | DString | DQuoted | DWait.
Definition BC_DATA_DELIM : Z := 0.   (* data.h:10 *)
Definition BC_DATA_ERROR : Z := 13.  (* data.h:13 *)
Fixpoint data_loop (st : dstate) (src : list Z) : list Z :=
  match src with
  | [] => []
  | c :: r =>
      match st with
      | DNone =>
          if c =? 34 then data_loop DQuoted r
          else if (c =? 13) || (c =? 44) then BC_DATA_DELIM :: data_loop DNone r
          else if c =? 32 then data_loop DNone r
          else c :: data_loop DString r
      | DQuoted =>
          if c =? 34 then data_loop DNone r
          else if c =? 13 then BC_DATA_DELIM :: data_loop DQuoted r
          else c :: data_loop DQuoted r
      | DWait =>
          if c =? 32 then data_loop DWait r
          else if (c =? 44) || (c =? 13) then BC_DATA_DELIM :: data_loop DNone r
          else BC_DATA_ERROR :: data_loop DWait r
      | DString =>
          if c =? 32 then data_loop DWait r
          else if (c =? 44) || (c =? 13) then BC_DATA_DELIM :: data_loop DNone r
          else c :: data_loop DString r
      end
  end.
Definition padded (d : list Z) : list Z := if Nat.odd (length d) then d ++ [0] else d.
Definition tok_data (d src : list Z) : list Z :=
  let b := data_loop DNone src in padded (d ++ [BC_DATA; u8 (Z.of_nat (length b))] ++ b).

(** ** tok_code (tokens.c:740-955).  [d] is the bytecode so far.  [ids] is the variable table lookup
    of TOKOPT_VARIABLE_IDS (name without '$', type), None when the option is off; the table is looked
    up but not threaded through here (VarsProps.v has its properties).
    The text of a DATA token is the source from after "DATA" to the end of the line. *)
Definition VAR_NUMBER_ : Z := 1. Definition VAR_STRING_ : Z := 2. Definition VAR_ARRAY_ : Z := 4.
Definition ids_fun := list Z -> Z -> outcome Z.
Definition body (t : token) : list Z := firstn (Z.to_nat (cl t)) (text t).
Definition with_text (d : list Z) (op : Z) (t : token) : list Z := padded (d ++ [op; cl t] ++ body t).
Definition code_name (ids : option ids_fun) (d : list Z) (t : token) : outcome (list Z) :=
  let is_array := is_ty t array_name || is_ty t array_actual in
  match ids, is_ty t dim_arr with
  | Some f, false =>
      let dollar := nth (Z.to_nat (cl t - 1)) (text t) 0 =? 36 in
      let len := if dollar then cl t - 1 else cl t in
      let ty := (if dollar then VAR_STRING_ else VAR_NUMBER_) + (if is_array then VAR_ARRAY_ else 0) in
      let* id := f (firstn (Z.to_nat len) (text t)) ty in
      if id <? 256 then Ok (d ++ [BC_VARIABLE_ID_SMALL; id mod 256])
      else if len =? 1 then Err ERR_LENGTH_INVARIANT_BROKEN
      else Ok (d ++ [BC_VARIABLE_ID; id mod 256; id / 256 mod 256; id / 65536 mod 256])
  | _, _ =>
      let op := if is_ty t dim_arr then BC_DIM else if is_ty t array_actual then BC_ARRAY_NAME else BC_VARIABLE_NAME in
      if cl t =? 1 then Ok (d ++ [op; nth 0 (text t) 0]) else Ok (with_text d op t)
  end.
(** one token; [Ok (d, true)]: the loop ends here *)
Definition code_token (ids : option ids_fun) (d : list Z) (t : token) : outcome (list Z * bool) :=
  let go (x : outcome (list Z)) := let* d := x in Ok (d, false) in
  match ty t with
  | command | first_of_line_command =>
      if cl t =? CMD_DATA then Ok (tok_data d (text t), true)
      else Ok (d ++ [if is_ty t first_of_line_command then BC_COMMAND_FIRST else BC_COMMAND; cl t], false)
  | base_number =>
      let* n := u8_to_number (skipn 2 (body t)) (if nth 1 (text t) 0 =? 72 then 16 else 2) false in
      let* b := emit_number n false in Ok (d ++ b, false)
  | number => let* n := u8_to_num (body t) in let* b := emit_number n true in Ok (d ++ b, false)
  | string => Ok (with_text d BC_STRING t, false)
  | operation => Ok (d ++ [BC_OPERATOR; if (level t =? 6) && (cl t =? OP_SUBTRACT) then OP_NEGATE else cl t], false)
  | function => Ok (d ++ [BC_FUNCTION; cl t], false)
  | name | array_name | dim_arr | array_actual => go (code_name ids d t)
  | arg_count => Ok (d ++ [BC_ARGCOUNT; cl t], false)
  | loop_begin => Ok (d ++ [BC_BEGIN_LOOP; 0], false)
  | sysvar => Ok (d ++ [BC_SYSVAR; cl t], false)
  | label => Ok (with_text d BC_LABEL t, false)
  | label_string => Ok (with_text d BC_LABEL_STRING t, false)
  | comment => Ok (d, true)
  | tt_empty | newline => Err ERR_UNKNOWN_TOKEN_TYPE
  end.
(** The loop 746-930: what has been emitted stays in the buffer when an error is returned.
    [vs] are the system variables met so far (sys_validate). *)
Fixpoint code_loop (ids : option ids_fun) (d : list Z) (vs : list Z) (l : list token) : outcome (list Z * list Z * option err) :=
  match l with
  | [] => Ok (d, vs, None)
  | t :: r =>
      match code_token ids d t with
      | Ok (d', true) => Ok (d', vs, None)
      | Ok (d', false) => code_loop ids d' (if is_ty t sysvar then cl t :: vs else vs) r
      | Err e => Ok (d, vs, Some e)
      | UB => UB
      end
  end.
(** 932-950: SYS_TABSTEP, SYS_ICONPUSE, SYS_ICONPAGE, SYS_ICONPMAX, SYS_MEM, SYS_MEMSAFE *)
Definition validated : list Z := [19; 26; 27; 28; 31; 32].
Definition validations (vs : list Z) : list Z :=
  concat (map (fun c => [BC_SYSVAR_VALIDATE; c]) (filter (fun c => existsb (Z.eqb c) vs) validated)).
Definition tok_code (ids : option ids_fun) (d : list Z) (l : list token) : outcome (list Z * option err) :=
  let* (d, vs, e) := code_loop ids d [] l in
  match e with None => Ok (d ++ validations vs, None) | Some e => Ok (d, Some e) end.

(** ** bc_scan_pair (program.c:85-121): (previous instruction, index); None is BC_SCAN_NOT_FOUND.
    Reads of the byte after the end see the zeroed buffer. *)
Definition byte (code : list Z) (i : Z) : Z := nth (Z.to_nat i) code 0.
Definition scan_next (code : list Z) (index : Z) : Z :=
  let cur := byte code index in
  let len := byte code (index + 1) in
  let pad_len := len + Z.land len 1 in
  if (cur =? BC_STRING) || (cur =? BC_LABEL) || (cur =? BC_LABEL_STRING) || (cur =? BC_DATA) then index + 2 + pad_len
  else if cur =? BC_WIDE_STRING then index + 2 + 2 * len
  else if (cur =? BC_DIM) || (cur =? BC_VARIABLE_NAME) || (cur =? BC_ARRAY_NAME) then
    if len <? 65 then index + 2 + pad_len else index + 2
  else if cur =? BC_NUMBER then index + 6
  else if cur =? BC_VARIABLE_ID then index + 4
  else index + 2.
Fixpoint scan_loop (fuel : nat) (code : list Z) (prev : option Z) (index find : Z) : option Z * option Z :=
  match fuel with
  | O => (prev, None)
  | S f =>
      if index <? Z.of_nat (length code) then
        if byte code index =? find then (prev, Some index)
        else scan_loop f code (Some index) (scan_next code index) find
      else (prev, None)
  end.
Definition bc_scan_pair (code : list Z) (index find : Z) : option Z * option Z := scan_loop (S (length code)) code None index find.
(** program.c:125-128 *)
Definition bc_scan (code : list Z) (index find : Z) : option Z := snd (bc_scan_pair code index find).

(** ** tokenize_full (tokens.c:226-299), from lines of tokens.  A line is the tokens before its end
    (they end with a newline token), or a lexical error; [test] is tok_test (tokens.c:450-640), the
    label table is in Labels.v.  Errors are compiled to BC_ERROR followed by their number (the option
    TOKOPT_STRICT_ERROR is not modelled); [errno] gives the number. *)
Inductive line := Tokens (l : list token) | BadLine (e : err).
Definition convert (ids : option ids_fun) (no_labels : bool) (test : list token -> option err) (d : list Z) (l : list token) : outcome (list Z * option err) :=
  let is_label := match l with t :: _ => is_ty t label | [] => false end in
  if is_label && no_labels then Ok (d, None) else
  let* p := tok_prio l in
  let* r := tok_eval p in
  match test r with Some e => Ok (d, Some e) | None => tok_code ids d r end.
Fixpoint compile (errno : err -> Z) ids no_labels test (d : list Z) (ls : list line) : outcome (list Z) :=
  match ls with
  | [] => Ok d
  | BadLine e :: r => compile errno ids no_labels test (d ++ [BC_ERROR; errno e]) r
  | Tokens l :: r =>
      let* (d, e) := convert ids no_labels test d l in
      let d := match e with None => d | Some e => d ++ [BC_ERROR; errno e] end in
      compile errno ids no_labels test d r
  end.
