(** The ideal computer in direct mode: a page, variables, and a player who types lines.  Each line is carried out once, on the variables and the page the lines
    before have left, and then the computer says OK, or what is wrong with it.

    Independent of the code; of the models only the table of display codes is used, and the compiler to say that a line is accepted or refused. *)
From Coq Require Import String Ascii.
From Verif Require Import Base Tokens Bytecode BytecodeSpec BytecodeProofs Runner RunnerSpec StmtSpec ExecProofs FlowSpec FlowProofs ForSpec ProgSpec Lexer LexSpec LexProofs LexProps Link ProgProofs ProgEnd ProgProps.
From Verif Require Import Strs NumTextSpec ConsoleSpec Ideal HostData IdealData DataHost IdealAsk.
From Verif Require Direct.
Local Open Scope string_scope.
Local Open Scope list_scope.
Open Scope Z_scope.

(** a message, on a line of its own *)
Definition say (s : istate) (t : list Z) : istate := with_page s (print (page s) [Console.Text (map to_wide t)]).
Definition ok_text : list Z := letters "OK".
Definition variable_name : list Z := letters "CODE$".
(** what the computer says about each error (as its table of messages has it) *)
Definition complaint (e : err) : list Z :=
  letters match e with
  | ERR_NUM_INVALID => "BC_SMALL_NUMBER data out of range"
  | ERR_OP_INVALID_TYPES => "Operator argument types invalid"
  | ERR_TYPE_MISMATCH => "Wrong type provided"
  | ERR_VARIABLE_CREATION_FAIL => "Failed to create variable"
  | ERR_STRING_TOO_LONG => "String too long"
  | ERR_LABEL_NOT_FOUND => "Label not found"
  | ERR_OUT_OF_DATA => "Out of DATA"
  | ERR_READ_FAILURE => "READ command failed"
  | ERR_SYNTAX => "Syntax error"
  | ERR_OUT_OF_RANGE => "Argument out of range!"
  | ERR_DIVIDE_BY_ZERO => "Division by zero!"
  | ERR_OVERFLOW => "Overflow!"
  | ERR_DUPLICATE_DIM => "Duplicate definition"
  | ERR_OUT_OF_MEMORY => "Out of memory"
  | ERR_SUBSCRIPT_OUT_OF_RANGE => "Subscript out of range"
  | ERR_SUBSCRIPT_OUT_OF_RANGE_X => "Subscript out of range [X]"
  | ERR_SUBSCRIPT_OUT_OF_RANGE_Y => "Subscript out of range [Y]"
  | ERR_LABEL_ADD_FAILURE => "Failed to generate label entry"
  | ERR_ILLEGAL_FUNCTION_CALL => "Illegal function call"
  | ERR_LABEL_TOO_LONG => "Label name is too long"
  | ERR_ILLEGAL_ADDRESS => "Illegal pointer address"
  | ERR_NULL_ADDRESS => "Null pointer address"
  | ERR_MISALIGNED_ADDRESS => "Misaligned pointer address"
  | ERR_ILLEGAL_OFFSET => "Illegal pointer offset"
  | ERR_SORT_SAME_ARRAY => "Can't sort array using itself as key"
  | ERR_SORT_2D => "Sorting 2D array not allowed!"
  | ERR_NEXT_WITHOUT_FOR => "Can't find a matching FOR for this NEXT"
  | ERR_RETURN_WITHOUT_GOSUB => "RETURN without GOSUB"
  | ERR_FOR_WITHOUT_NEXT => "Can't find a matching NEXT for this FOR"
  | ERR_BEGIN_LOOP_FAIL => "Entered BC_BEGIN_LOOP with no FOR call!"
  | ERR_BEGIN_LOOP_NO_END => "Entered BC_BEGIN_LOOP with no TO value!"
  | ERR_FOR_MISSING_BEGIN_LOOP => "FOR command has no matching BC_BEGIN_LOOP"
  | ERR_MISSING_ELSE_AND_ENDIF => "Can't find ELSE or ENDIF"
  | ERR_WRONG_ARG_COUNT => "Wrong number of arguments"
  | ERR_NO_ARGUMENTS => "No arguments provided"
  | ERR_INVALID_RESOURCE_TYPE => "Resource type is invalid"
  | ERR_PAINT_STACK_OVERFLOW => "GPAINT stack overflow"
  | ERR_BREAK => "Program manually stopped"
  | ERR_TEST_COMMAND => "Command has incorrect arguments"
  | ERR_TEST_OPERATION => "Operator has incorrect arguments"
  | ERR_TEST_FUNCTION => "Function has incorrect arguments"
  | ERR_TEST_ARRAY => "Array has incorrect arguments"
  | ERR_TEST_UNKNOWN => "Unknown token type in tok_test!"
  | ERR_TEST_STACK => "Stack not empty after tok_test!"
  | ERR_UNKNOWN_TOKEN_TYPE => "Unknown token type in tok_code!"
  | ERR_INVALID_OPTS => "Optimization option requires system pointer"
  | ERR_LENGTH_INVARIANT_BROKEN => "BC length invariant failed"
  | ERR_INVALID_BC => "Invalid bytecode"
  | ERR_INVALID_ARGUMENT_VALUE => "Incorrect argument value"
  | ERR_PTC_SYSVAR_INVALID => "Invalid sysvar ID"
  | ERR_UNKNOWN_TYPE => "Handling for type is unspecified"
  | ERR_UNIMPLEMENTED => "Functionality currently unimplemented"
  | ERR_FILE_LOAD_FAILED => "Failed to load file"
  | ERR_FILE_FORMAT => "File contains invalid data"
  | ERR_FILE_INTERAL => "File processing internal error"
  | ERR_UNKNOWN_TRANSITION => "Unknown transition"
  end.
Section Session.
Variable errno : err -> Z.
Variable test : list token -> option err.
Variables labels max cells : Z.
(** the line [t] is a line of the language, with the DATA items [its], and the compiler accepts it *)
Definition means (t : list Z) (line : pline) (its : list (list (list Z))) : Prop :=
  line_spelled (t ++ [13]) (ptoks line) /\ proper_pline line /\ Forall (short_bounds None) (statements [line]) /\ Forall2 data_line (statements [line]) its /\
  exists code tbl, link_text errno None false test (2 ^ labels) (t ++ [13]) = Ok (code, tbl, []) /\ Z.of_nat (length code) < 16777216.
(** words, and then a character that is in no word *)
Definition not_a_line (t : list Z) : Prop :=
  exists ss ts c r, t = concat (map (fun s => s ++ [32]) ss) ++ c :: r /\ Forall2 lexeme ss ts /\ (length ts < 100)%nat /\ illegal c /\ ~ In 13 r.
(** a line the compiler refuses, with this error *)
Definition refused (t : list Z) (e : err) : Prop := exists code tbl es, link_text errno None false test (2 ^ labels) (t ++ [13]) = Ok (BC_ERROR :: code, tbl, e :: es).
(** the ideal computer carries out the line, in so many steps *)
Definition carries_out (line : pline) (its : list (list (list Z))) (before after : (istate * list (list Z)) * list (option (list Z))) : Prop :=
  exists m, match run_program (ideal_ask (statements [line]) its max cells) (ref_of None) ideal_ask_text (statements [line]) m before with
            | ProgSpec.End s => s = after
            | _ => False
            end.
(** the question is asked, the line [t] typed: it is kept in CODE$ *)
Definition typed_line (s : istate) (t : list Z) (s1 : istate) : Prop :=
  exists l s0 p, ivar max (ByName false variable_name) s = Ok (true, l, s0) /\ ask (page s0) = Ok p /\ s1 = Ideal.put (with_page s0 (written p t)) l (Words t).
Inductive turn : istate * list (option (list Z)) -> istate * list (option (list Z)) -> Prop :=
| turn_done s t todo s1 line its (after : (istate * list (list Z)) * list (option (list Z))) : typed_line s t s1 -> ~ Direct.debug_line t -> means t line its ->
    carries_out line its ((s1, from_here its 0), todo) after ->
    turn (s, Some t :: todo) (say (fst (fst after)) ok_text, snd after)
| turn_refused s t todo s1 : typed_line s t s1 -> ~ Direct.debug_line t -> not_a_line t ->
    turn (s, Some t :: todo) (say s1 (letters "Unknown transition"), todo)
| turn_wrong s t todo s1 e : typed_line s t s1 -> ~ Direct.debug_line t -> refused t e ->
    turn (s, Some t :: todo) (say s1 (complaint e), todo).
Inductive session : nat -> istate * list (option (list Z)) -> istate * list (option (list Z)) -> Prop :=
| session_over x : session 0 x x
| session_turn n x y z : turn x y -> session n y z -> session (S n) x z.
(** switched on *)
Definition switched_on : istate := say ideal_start (letters "Small BASIC Computer            READY").
End Session.
