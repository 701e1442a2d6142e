(** Direct mode (source/system.c:299-478): the launcher asks for a line (the program LINPUT CODE$), compiles and runs it as a program of its own, and prints
    how it went.  It runs on the machine of Ask.v: one set of variables, one screen, one keyboard for all the lines.

    Simplifications: the launcher's own program is taken for what it does (looking up CODE$, the prompt, the line; Ask.v models it as part of a program);
    the keys that will be pressed are a list; a line that raises an error while it runs is not followed further (the machine's errors keep no state), except when the error is
    the first thing in its code: then nothing was done.  Left out: the states EDIT, RUN and AUTOLOAD, shutting down, the debug lines
    REM BENCH and REM LABEL, the text in exec.error_info (labels that are not found). *)
From Coq Require Import String Ascii.
From Verif Require Import Base Labels Link Strs Tokens Bytecode Runner Vars Data Machine HostData MachineData Console LineInput Ask LexSpec.
Local Open Scope string_scope.
Local Open Scope list_scope.
Open Scope Z_scope.

(** source/error.c:3-79, in the order of Base.v *)
Definition error_message (e : err) : String.string :=
  match e with
  | ERR_NUM_INVALID => "BC_SMALL_NUMBER data out of range"
  | ERR_OP_INVALID_TYPES => "Operator argument types invalid"
  | ERR_TYPE_MISMATCH => "Wrong type provided"
  | ERR_VARIABLE_CREATION_FAIL => "Failed to create variable"
  | ERR_STRING_TOO_LONG => "String too long"
  | ERR_LABEL_NOT_FOUND => "Label not found"
  | ERR_OUT_OF_DATA => "Out of DATA"
  | ERR_READ_FAILURE => "READ command failed"
  | ERR_SYNTAX => "Syntax error"
  | ERR_OUT_OF_RANGE => "Argument out of range!"
  | ERR_DIVIDE_BY_ZERO => "Division by zero!"
  | ERR_OVERFLOW => "Overflow!"
  | ERR_DUPLICATE_DIM => "Duplicate definition"
  | ERR_OUT_OF_MEMORY => "Out of memory"
  | ERR_SUBSCRIPT_OUT_OF_RANGE => "Subscript out of range"
  | ERR_SUBSCRIPT_OUT_OF_RANGE_X => "Subscript out of range [X]"
  | ERR_SUBSCRIPT_OUT_OF_RANGE_Y => "Subscript out of range [Y]"
  | ERR_LABEL_ADD_FAILURE => "Failed to generate label entry"
  | ERR_ILLEGAL_FUNCTION_CALL => "Illegal function call"
  | ERR_LABEL_TOO_LONG => "Label name is too long"
  | ERR_ILLEGAL_ADDRESS => "Illegal pointer address"
  | ERR_NULL_ADDRESS => "Null pointer address"
  | ERR_MISALIGNED_ADDRESS => "Misaligned pointer address"
  | ERR_ILLEGAL_OFFSET => "Illegal pointer offset"
  | ERR_SORT_SAME_ARRAY => "Can't sort array using itself as key"
  | ERR_SORT_2D => "Sorting 2D array not allowed!"
  | ERR_NEXT_WITHOUT_FOR => "Can't find a matching FOR for this NEXT"
  | ERR_RETURN_WITHOUT_GOSUB => "RETURN without GOSUB"
  | ERR_FOR_WITHOUT_NEXT => "Can't find a matching NEXT for this FOR"
  | ERR_BEGIN_LOOP_FAIL => "Entered BC_BEGIN_LOOP with no FOR call!"
  | ERR_BEGIN_LOOP_NO_END => "Entered BC_BEGIN_LOOP with no TO value!"
  | ERR_FOR_MISSING_BEGIN_LOOP => "FOR command has no matching BC_BEGIN_LOOP"
  | ERR_MISSING_ELSE_AND_ENDIF => "Can't find ELSE or ENDIF"
  | ERR_WRONG_ARG_COUNT => "Wrong number of arguments"
  | ERR_NO_ARGUMENTS => "No arguments provided"
  | ERR_INVALID_RESOURCE_TYPE => "Resource type is invalid"
  | ERR_PAINT_STACK_OVERFLOW => "GPAINT stack overflow"
  | ERR_BREAK => "Program manually stopped"
  | ERR_TEST_COMMAND => "Command has incorrect arguments"
  | ERR_TEST_OPERATION => "Operator has incorrect arguments"
  | ERR_TEST_FUNCTION => "Function has incorrect arguments"
  | ERR_TEST_ARRAY => "Array has incorrect arguments"
  | ERR_TEST_UNKNOWN => "Unknown token type in tok_test!"
  | ERR_TEST_STACK => "Stack not empty after tok_test!"
  | ERR_UNKNOWN_TOKEN_TYPE => "Unknown token type in tok_code!"
  | ERR_INVALID_OPTS => "Optimization option requires system pointer"
  | ERR_LENGTH_INVARIANT_BROKEN => "BC length invariant failed"
  | ERR_INVALID_BC => "Invalid bytecode"
  | ERR_INVALID_ARGUMENT_VALUE => "Incorrect argument value"
  | ERR_PTC_SYSVAR_INVALID => "Invalid sysvar ID"
  | ERR_UNKNOWN_TYPE => "Handling for type is unspecified"
  | ERR_UNIMPLEMENTED => "Functionality currently unimplemented"
  | ERR_FILE_LOAD_FAILED => "Failed to load file"
  | ERR_FILE_FORMAT => "File contains invalid data"
  | ERR_FILE_INTERAL => "File processing internal error"
  | ERR_UNKNOWN_TRANSITION => "Unknown transition"
  end.
(** system.c:463-466: ERR_NONE is OK.  error_info is empty. *)
Definition err_msg (e : option err) : list Z := letters (match e with None => "OK" | Some e => error_message e end).
(** system.c:463-469 *)
Definition report (m : mstate) (e : option err) : outcome mstate :=
  let* c := con_puts (mcon m) (map to_wide (err_msg e)) in Ok (with_con m (con_newline c true)).
(** system.c:274-276, :379 *)
Definition CODE : list Z := letters "CODE$".
(** system.c:380-387 *)
Definition debug_line (t : list Z) : Prop := t = letters "REM BENCH" \/ t = letters "REM LABEL".
Definition is_debug (t : list Z) : bool := if list_eq_dec Z.eq_dec t (letters "REM BENCH") then true else if list_eq_dec Z.eq_dec t (letters "REM LABEL") then true else false.

Section Direct.
Variable errno : err -> Z.
Variable test : list token -> option err.
(** MAX_LABELS, a power of two (system.c:330) *)
Variable size : Z.
(** the interpreter runs this code, in at most [fuel] instructions, from a fresh start (runner.c:172-182) *)
Definition complete (fuel : nat) (code : list Z) (tbl : Labels.labels) (m : mstate) (ks : list keys) : outcome (mstate * list keys) :=
  let host := machine_ask code tbl in
  let* c := Link.run (table_lab host atext tbl) code fuel (mkC (h := host) 0 [] [] 0 ((m, reader_start 0), ks)) in
  if ix c <? Z.of_nat (length code) then UB else Ok (fst (fst (hst c)), snd (hst c)).
(** system.c:403-413 and :313-321.  direct_cmd has 33 bytes. *)
Definition direct_exec (fuel : nat) (t : list Z) (m : mstate) (ks : list keys) : outcome (mstate * list keys * option err) :=
  if (32 <? length t)%nat || is_debug t then UB
  else let* (code, tbl, es) := link_text errno None false test size (t ++ [13]) in
       match code, es with
       | c :: _, e :: _ => if c =? BC_ERROR then Ok (m, ks, Some e) else let* s := complete fuel code tbl m ks in Ok (s, None)
       | _, _ => let* s := complete fuel code tbl m ks in Ok (s, None)
       end.
(** one round of system.c:368-477 in the state LAUNCH_PROMPT; None: it waits for keys.  Breaking off leaves CODE$ alone, and the error is forgotten by token_and_run *)
Definition direct_turn (fuel : nat) (m : mstate) (ks : list keys) : outcome (option (mstate * list keys)) :=
  match mvar (ByName false CODE) m with
  | Ok (_, l, m) =>
      let* c := con_prompt (mcon m) None in
      let* r := shared_input c ks in
      match r with
      | None => Ok None
      | Some (c, broken, ks) =>
          let m := if broken then with_con m c else ask_store (with_con m (con_newline c true)) (ER true l) (IVStr (stored (until_null (row c)))) in
          let* x := direct_exec fuel (mtext m l) m ks in
          let* m := report (fst (fst x)) (snd x) in Ok (Some (m, snd (fst x)))
      end
  | _ => UB
  end.
(** [n] rounds *)
Fixpoint direct (fuel n : nat) (m : mstate) (ks : list keys) : outcome (option (mstate * list keys)) :=
  match n with
  | O => Ok (Some (m, ks))
  | S n => let* r := direct_turn fuel m ks in match r with Some (m, ks) => direct fuel n m ks | None => Ok None end
  end.
(** system.c:355-357 *)
Definition banner : list Z := letters "Small BASIC Computer            READY".
Definition direct_start (max elements : Z) : outcome mstate :=
  let m := machine_start max elements in let* c := con_puts (mcon m) (map to_wide banner) in Ok (with_con m (con_newline c true)).
End Direct.
