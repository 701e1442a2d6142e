(** String functions (source/interpreter/strfuncs.c).  Each function takes the
    already popped arguments (numbers as fixed-point contents) and returns the
    pushed value.  The destination is a pool string with a 256-byte buffer:
    storing outside it is UB. *)
From Verif Require Import Base Strs.

Definition empty_str : str := SBc [].   (* strs.c:27,31 *)

(** strfuncs.c:10-17 func_len *)
Definition func_len (s : str) : Z := INT_TO_FP (str_len s).

(** strfuncs.c:19-51 func_mid.  [start], [len] are ints; the clip against the
    string length is done in s16. *)
Definition func_mid (s : str) (startv lenv : Z) : outcome str :=
  let start := FP_TO_INT startv in let len := FP_TO_INT lenv in
  if start <? 0 then Err ERR_OUT_OF_RANGE else
  if len <? 0 then Err ERR_OUT_OF_RANGE else
  let max_len := s16 (s16 (str_len s) - s16 start) in
  if max_len <=? 0 then Ok empty_str else
  let len := if max_len <=? s16 len then max_len else len in
  if len >? MAX_STRLEN then UB     (* dest->len / copy exceed the 256-byte buffer *)
  else let* b := copy_bytes s start len in Ok (SChar b).

(** strfuncs.c:201-230 _func_substring (LEFT$, RIGHT$) *)
Definition func_substring (right : bool) (s : str) (countv : Z) : outcome str :=
  let count := FP_TO_INT countv in
  if count <? 0 then Err ERR_OUT_OF_RANGE else
  let max_len := str_len s in
  if count =? 0 then Ok empty_str else
  let count := if count >? max_len then max_len else count in
  let* b := copy_bytes s (if right then max_len - count else 0) count in
  Ok (SChar b).
Definition func_right := func_substring true.
Definition func_left := func_substring false.

(** strfuncs.c:156-188 func_subst *)
Definition func_subst (s : str) (startv countv : Z) (repl : str) : outcome str :=
  let len := str_len s in
  let start := FP_TO_INT startv in
  if (start <? 0) || (start >? len) then Err ERR_OUT_OF_RANGE else
  let count := FP_TO_INT countv in
  let count := if (count <? 0) || (count >? len) then len else count in
  let repl_len := str_len repl in
  if start + repl_len >? MAX_STRLEN then Err ERR_STRING_TOO_LONG else
  let* b1 := copy_bytes s 0 start in
  let* b2 := copy_bytes repl 0 repl_len in
  let remaining := len - start - count in
  if remaining >? 0 then
    if start + repl_len + remaining >? MAX_STRLEN then UB   (* buffer overrun *)
    else let* b3 := copy_bytes s (start + count) remaining in Ok (SChar (b1 ++ b2 ++ b3))
  else Ok (SChar (b1 ++ b2)).

(** strfuncs.c:96-141 func_instr: the search loop with the C loop variables
    [i] and [j]; [None] is running out of fuel. *)
Fixpoint instr_loop (fuel : nat) (s t : str) (i j : Z) : option (outcome (Z * Z)) :=
  match fuel with
  | O => None
  | S fuel' =>
      if i <? str_len s then
        if str_len t - j >? str_len s - i then Some (Ok (i, j))
        else if j =? str_len t then Some (Ok (i, j))
        else match str_at_wide s i, str_at_wide t j with
             | Ok a, Ok b =>
                 if a =? b then instr_loop fuel' s t (i + 1) (j + 1)
                 else instr_loop fuel' s t (i - j + 1) 0
             | _, _ => Some UB
             end
      else Some (Ok (i, j))
  end.
Definition instr_fuel (s t : str) : nat :=
  S (Z.to_nat (str_len s + 1) * Z.to_nat (str_len t + 1)).
(** [start] is the integer part of the optional third argument, 0 if absent *)
Definition func_instr (s t : str) (start : Z) : outcome Z :=
  if str_len t =? 0 then Ok (INT_TO_FP 0) else
  match instr_loop (instr_fuel s t) s t start 0 with
  | None => UB
  | Some UB => UB
  | Some (Err e) => Err e
  | Some (Ok (i, j)) =>
      if j =? str_len t then Ok (INT_TO_FP (i - str_len t)) else Ok (- INT_TO_FP 1)
  end.

(** strfuncs.c:143-154 func_chr; strs.c:11-26 single_char_strs *)
Definition func_chr (v : Z) : outcome str :=
  let c := FP_TO_INT v in
  if (c <? 0) || (c >? 255) then Err ERR_OUT_OF_RANGE else Ok (SBc [c]).

(** strfuncs.c:190-198 func_asc *)
Definition func_asc (s : str) : outcome Z :=
  if str_len s =? 0 then Err ERR_SYNTAX
  else let* c := str_at_char s 0 in Ok (INT_TO_FP c).
