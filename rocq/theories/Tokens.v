(** The compiler from the tokens of one line to bytecode
    (source/interpreter/tokens.c, tokens.h, ptc.h).

    Simplification: a C token refers to its source text by (ofs, len); here the
    text itself is stored.  [cl] is the union of len and cmd (tokens.h:80-83):
    for operations, functions, commands, system variables and argument counts it is the number,
    for tokens with a text it is the (u8) length of the text. *)
From Verif Require Import Base.

(** tokens.h:58-78 enum type *)
Inductive tty :=
| tt_empty | number | string | name | operation | command | function | label | comment | newline
| dim_arr | arg_count | loop_begin | sysvar | label_string | first_of_line_command | base_number
| array_name | array_actual.
Scheme Equality for tty.
Record token := mk { ty : tty; cl : Z; prio : Z; text : list Z }.
Definition retag (t : token) (k : tty) : token := mk k (cl t) (prio t) (text t).
Definition is_ty (t : token) (k : tty) : bool := tty_beq (ty t) k.

(** ptc.h:128-137 enum operations *)
Definition OP_ADD := 0. Definition OP_COMMA := 1. Definition OP_SUBTRACT := 2. Definition OP_MULTIPLY := 3.
Definition OP_DIVIDE := 4. Definition OP_SEMICOLON := 5. Definition OP_ASSIGN := 6. Definition OP_NEGATE := 7.
Definition OP_EQUAL := 8. Definition OP_NOT_EQUAL := 9. Definition OP_LESS := 10. Definition OP_GREATER := 11.
Definition OP_LESS_EQUAL := 12. Definition OP_GREATER_EQUAL := 13. Definition OP_MODULO := 14.
Definition OP_AND := 15. Definition OP_OR := 16. Definition OP_XOR := 17. Definition OP_NOT := 18.
Definition OP_LOGICAL_NOT := 19. Definition OP_OPEN_PAREN := 20. Definition OP_CLOSE_PAREN := 21.
Definition OP_OPEN_BRACKET := 22. Definition OP_CLOSE_BRACKET := 23.
(** ptc.h:51-80 enum command_ids, those the compiler and the runner treat specially *)
Definition CMD_PRINT := 0. Definition CMD_DIM := 3. Definition CMD_FOR := 4. Definition CMD_TO := 5. Definition CMD_STEP := 6.
Definition CMD_NEXT := 7. Definition CMD_IF := 8. Definition CMD_THEN := 9. Definition CMD_ELSE := 10. Definition CMD_ENDIF := 11.
Definition CMD_GOTO := 12. Definition CMD_GOSUB := 13. Definition CMD_ON := 14. Definition CMD_RETURN := 15.
Definition CMD_DATA := 52. Definition CMD_RSORT := 83. Definition CMD_SORT := 87.

(** tokens.h:29 *)
Definition TOKENS_LINE_MAX : Z := 100.

(** * tok_prio (tokens.c:1193-1265): [done] are the tokens before the current one, last first.
    [prio] is a u16. *)
Definition set_prio (t : token) (p : Z) : token := mk (ty t) (cl t) (u16 p) (text t).
Definition is_op (t : token) (o : Z) : bool := is_ty t operation && (cl t =? o).
(** tokens.c:1219-1225; tokens[-1] is read when the line starts with '-' *)
Definition binary_minus (done : list token) : outcome bool :=
  match done with
  | [] => UB
  | p :: _ => Ok (is_ty p number || is_ty p name || is_ty p sysvar || (is_ty p operation && (cl p >? OP_OPEN_PAREN)))
  end.
Definition op_level (o : Z) : option Z :=
  if o =? OP_ASSIGN then Some 0
  else if (o =? OP_COMMA) || (o =? OP_SEMICOLON) then Some 1
  else if (o =? OP_AND) || (o =? OP_OR) || (o =? OP_XOR) then Some 2
  else if (o =? OP_LESS) || (o =? OP_LESS_EQUAL) || (o =? OP_GREATER_EQUAL) || (o =? OP_GREATER) || (o =? OP_EQUAL) || (o =? OP_NOT_EQUAL) then Some 3
  else if o =? OP_ADD then Some 4
  else if (o =? OP_MULTIPLY) || (o =? OP_DIVIDE) || (o =? OP_MODULO) then Some 5
  else if (o =? OP_NOT) || (o =? OP_LOGICAL_NOT) then Some 6
  else None.
Fixpoint prio_loop (done : list token) (nest : Z) (l : list token) : outcome (list token) :=
  match l with
  | [] => Ok (rev done)
  | t :: r =>
      match ty t with
      | operation =>
          let o := cl t in
          if o =? OP_SUBTRACT then
            let* b := binary_minus done in
            if b then prio_loop (set_prio t (nest + 4) :: done) nest r
            else prio_loop (mk (ty t) OP_NEGATE (u16 (nest + 6)) (text t) :: done) nest r
          else if (o =? OP_OPEN_BRACKET) || (o =? OP_OPEN_PAREN) then
            let done := match done with p :: d => (if is_ty p name then set_prio p (nest + 7) else p) :: d | [] => [] end in
            prio_loop (set_prio t (nest + 8) :: done) (nest + 8) r
          else if (o =? OP_CLOSE_BRACKET) || (o =? OP_CLOSE_PAREN) then
            prio_loop (set_prio t nest :: done) (nest - 8) r
          else match op_level o with
               | Some k => prio_loop (set_prio t (nest + k) :: done) nest r
               | None => prio_loop (t :: done) nest r (* OP_NEGATE "(-)" is never produced by the lexer *)
               end
      | function => prio_loop (set_prio t (nest + 7) :: done) nest r
      | _ => prio_loop (set_prio t 0 :: done) nest r
      end
  end.
Definition tok_prio (l : list token) : outcome (list token) := prio_loop [] 0 l.

(** * tok_eval (tokens.c:957-1190) *)
(** struct eval (957-969): op_stack holds pointers to tokens, here the tokens, top first; the only
    token changed after it has been pushed is the name before an opening bracket, which is then on top.
    argc_i is a u8 index into argc_stack[64]; result grows only, so its bound is checked at the end. *)
Record eval := mkE { ops : list token; argc_i : Z; argcs : list Z; res : list token;
                     is_for : bool; is_dim : bool; is_if : bool; is_sort : bool; implicit_commas : bool }.
Definition init_eval : eval := mkE [] 0 (repeat 0 64) [] false false false false true.
Definition set_ops (e : eval) o r := mkE o (argc_i e) (argcs e) r (is_for e) (is_dim e) (is_if e) (is_sort e) (implicit_commas e).
Definition set_argc (e : eval) i a := mkE (ops e) i a (res e) (is_for e) (is_dim e) (is_if e) (is_sort e) (implicit_commas e).
Definition set_flags (e : eval) f d i s c := mkE (ops e) (argc_i e) (argcs e) (res e) f d i s c.
(** tokens.c:974-980 tok_eval_clean_stack *)
Fixpoint clean (o r : list token) (p : Z) : list token * list token :=
  match o with
  | t :: o' => if prio t >=? p then clean o' (r ++ [t]) p else (o, r)
  | [] => (o, r)
  end.
Definition clean_stack (e : eval) (p : Z) : eval := let '(o, r) := clean (ops e) (res e) p in set_ops e o r.
(** e.op_stack[e.op_i++] = t, op_stack[100] *)
Definition push_op (e : eval) (t : token) : outcome eval :=
  if Z.of_nat (length (ops e)) <? 100 then Ok (set_ops e (t :: ops e) (res e)) else UB.
Definition push_res (e : eval) (t : token) : eval := set_ops e (ops e) (res e ++ [t]).
Definition argc_get (e : eval) : outcome Z :=
  if (0 <=? argc_i e) && (argc_i e <? 64) then Ok (nth (Z.to_nat (argc_i e)) (argcs e) 0) else UB.
Definition argc_put (e : eval) (v : Z) : outcome eval :=
  if (0 <=? argc_i e) && (argc_i e <? 64) then Ok (set_argc e (argc_i e) (upd (argcs e) (Z.to_nat (argc_i e)) (u8 v))) else UB.
Definition loop_token : token := mk loop_begin 1 0 [].
Definition endif_token : token := mk command CMD_ENDIF 0 [].
Definition level (t : token) : Z := prio t mod 8.
Definition prev_is (prev : option token) (f : token -> bool) : bool := match prev with Some t => f t | None => false end.

(** the token before the bracket is the last one pushed: tok_prio gave it a priority *)
Definition mark_array (o : list token) : list token :=
  match o with x :: r => (if is_ty x name then retag x array_name else x) :: r | [] => [] end.
(** tokens.c:1011-1045: operators of priority 0, i.e. = ( ) [ ] *)
Definition ev_zero (e : eval) (prev : option token) (t : token) : outcome (eval * token * bool) :=
  let p := prio t in let o := cl t in
  if o =? OP_ASSIGN then let* e := push_op (clean_stack e p) t in Ok (e, t, false)
  else if (o =? OP_OPEN_BRACKET) || (o =? OP_OPEN_PAREN) then
    let e := set_argc e (u8 (argc_i e + 1)) (argcs e) in
    let* e := argc_put e 1 in
    match prev with
    | None => Ok (e, t, false)
    | Some q =>
        if is_ty q name then
          Ok (set_ops e (mark_array (ops e)) (res e), t, false)
        else if negb (is_ty q function) && negb (is_ty q dim_arr) then
          let* c := argc_get e in let* e := argc_put e (Z.lor c 128) in Ok (e, t, false)
        else Ok (e, t, false)
    end
  else
    match prev with
    | None => UB
    | Some q =>
        let* e := (if is_op q OP_OPEN_PAREN then argc_put e 0 else Ok e) in
        let* c := argc_get e in
        if Z.land c 128 =? 0 then
          let t := mk arg_count c p (text t) in
          let e := set_argc e (u8 (argc_i e - 1)) (argcs e) in
          let* e := push_op (clean_stack e p) t in Ok (e, t, false)
        else Ok (set_argc e (u8 (argc_i e - 1)) (argcs e), t, false)
    end.
(** tokens.c:1046-1063: comma or semicolon outside brackets *)
Definition ev_comma (e : eval) (prev : option token) (t : token) (next : option token) : outcome (eval * token * bool) :=
  let* c := argc_get e in let* e := argc_put e (c + 1) in
  let e := clean_stack e (prio t) in
  if implicit_commas e then
    if cl t =? OP_SEMICOLON then Ok (push_res e t, t, false)
    else
      match res e with
      | [] => Ok (push_res e t, t, false)
      | _ => match next with
             | None => UB
             | Some nx => if is_ty nx newline || prev_is prev (fun q => level q =? 1)
                          then Ok (push_res e t, t, false) else Ok (e, t, false)
             end
      end
  else Ok (push_res e t, t, false).
(** tokens.c:1125-1137: operators, functions, array names and commands *)
Definition ev_push (e : eval) (t : token) : outcome (eval * token * bool) :=
  let p := prio t in
  let e := if match ops e with [] => true | x :: _ => prio x <? p + b2z (level t =? 6) end then e else clean_stack e p in
  if negb (is_ty t operation) || negb (cl t =? OP_COMMA) then let* e := push_op e t in Ok (e, t, false)
  else let* c := argc_get e in let* e := argc_put e (c + 1) in Ok (e, t, false).
(** tokens.c:1067-1119: commands *)
Definition ev_command (e : eval) (prev : option token) (t : token) : outcome (eval * token * bool) :=
  let o := cl t in
  let first (e : eval) := (* 1117-1119 *)
    ev_push e (if match prev with None => true | Some q => is_ty q newline end then retag t first_of_line_command else t) in
  if o =? CMD_DIM then Ok (set_flags e (is_for e) true (is_if e) (is_sort e) (implicit_commas e), t, false)
  else if o =? CMD_PRINT then first (set_flags e (is_for e) (is_dim e) (is_if e) (is_sort e) false)
  else if o =? CMD_FOR then first (set_flags e true (is_dim e) (is_if e) (is_sort e) (implicit_commas e))
  else if o =? CMD_IF then first (set_flags e (is_for e) (is_dim e) true (is_sort e) (implicit_commas e))
  else if o =? CMD_THEN then Ok (clean_stack e 0, t, false)
  else if o =? CMD_ELSE then Ok (push_res (clean_stack e 0) t, t, false)
  else if (o =? CMD_SORT) || (o =? CMD_RSORT) then first (set_flags e (is_for e) (is_dim e) (is_if e) true (implicit_commas e))
  else if o =? CMD_DATA then Ok (push_res (clean_stack e 0) t, t, true)
  else
    let e := set_flags e (is_for e) false (is_if e) (is_sort e) (implicit_commas e) in
    let e := if is_for e && negb (o =? CMD_TO) && negb (o =? CMD_STEP)
             then set_flags (push_res e loop_token) false (is_dim e) (is_if e) (is_sort e) (implicit_commas e) else e in
    first e.
(** tokens.c:1138-1146 *)
Definition ev_newline (e : eval) : eval :=
  let e := clean_stack e 0 in
  let e := set_flags e (is_for e) false (is_if e) (is_sort e) true in
  if is_for e then set_flags (push_res e loop_token) false false (is_if e) (is_sort e) true else e.
(** one iteration of the loop 1004-1158 on token [t]; the result is the new state, the token as
    modified in place, and whether the loop ends (DATA) *)
Definition ev_step (e : eval) (prev : option token) (t : token) (next : option token) : outcome (eval * token * bool) :=
  if is_ty t operation && (level t =? 0) then ev_zero e prev t
  else if is_ty t operation && (prio t =? 1) then ev_comma e prev t next
  else if is_ty t command then ev_command e prev t
  else if prio t >? 0 then
    if is_ty t name && (prio t =? 7) && is_dim e then ev_push e (retag t dim_arr) else ev_push e t
  else if is_ty t newline then Ok (ev_newline e, t, false)
  else if is_ty t label then (* 1147-1154 *)
    let t := match prev with Some _ => retag t label_string | None => t end in Ok (push_res e t, t, false)
  else if is_ty t name && is_sort e && (nth 0 (argcs e) 0 >=? 2) then
    let t := retag t array_actual in Ok (push_res e t, t, false)
  else Ok (push_res e t, t, false).

Fixpoint ev_loop (e : eval) (prev : option token) (l : list token) : outcome eval :=
  match l with
  | [] => Ok e
  | t :: r =>
      let* (e, t, stop) := ev_step e prev t (hd_error r) in
      if stop then Ok e else ev_loop e (Some t) r
  end.
(** 1159-1190; result[100] *)
Definition tok_eval (l : list token) : outcome (list token) :=
  let* e := ev_loop init_eval None l in
  let e := clean_stack e 0 in
  let r := if is_if e then res e ++ [endif_token] else res e in
  if Z.of_nat (length r) <=? 100 then Ok r else UB.
