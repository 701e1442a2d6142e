(** Shared basics of the model: machine integers, C undefined behaviour as an
    explicit outcome, BASIC error codes. *)
From Coq Require Export List ZArith Lia Bool ZifyBool.
Export ListNotations.
Open Scope Z_scope.

(** source/error.h:10-86 (enum err_code), only the codes that the modelled
    functions can raise. *)
Inductive err :=
| ERR_NUM_INVALID | ERR_OP_INVALID_TYPES | ERR_TYPE_MISMATCH
| ERR_VARIABLE_CREATION_FAIL | ERR_STRING_TOO_LONG | ERR_LABEL_NOT_FOUND
| ERR_OUT_OF_DATA | ERR_READ_FAILURE | ERR_SYNTAX | ERR_OUT_OF_RANGE
| ERR_DIVIDE_BY_ZERO | ERR_OVERFLOW | ERR_DUPLICATE_DIM | ERR_OUT_OF_MEMORY
| ERR_SUBSCRIPT_OUT_OF_RANGE | ERR_SUBSCRIPT_OUT_OF_RANGE_X
| ERR_SUBSCRIPT_OUT_OF_RANGE_Y | ERR_LABEL_ADD_FAILURE
| ERR_ILLEGAL_FUNCTION_CALL | ERR_LABEL_TOO_LONG | ERR_ILLEGAL_ADDRESS
| ERR_NULL_ADDRESS | ERR_MISALIGNED_ADDRESS | ERR_ILLEGAL_OFFSET
| ERR_SORT_SAME_ARRAY | ERR_SORT_2D | ERR_NEXT_WITHOUT_FOR
| ERR_RETURN_WITHOUT_GOSUB | ERR_FOR_WITHOUT_NEXT | ERR_BEGIN_LOOP_FAIL
| ERR_BEGIN_LOOP_NO_END | ERR_FOR_MISSING_BEGIN_LOOP
| ERR_MISSING_ELSE_AND_ENDIF | ERR_WRONG_ARG_COUNT | ERR_NO_ARGUMENTS
| ERR_INVALID_RESOURCE_TYPE | ERR_PAINT_STACK_OVERFLOW | ERR_BREAK
| ERR_TEST_COMMAND | ERR_TEST_OPERATION | ERR_TEST_FUNCTION | ERR_TEST_ARRAY
| ERR_TEST_UNKNOWN | ERR_TEST_STACK | ERR_UNKNOWN_TOKEN_TYPE
| ERR_INVALID_OPTS | ERR_LENGTH_INVARIANT_BROKEN | ERR_INVALID_BC
| ERR_INVALID_ARGUMENT_VALUE | ERR_PTC_SYSVAR_INVALID | ERR_UNKNOWN_TYPE | ERR_UNIMPLEMENTED
| ERR_FILE_LOAD_FAILED | ERR_FILE_FORMAT | ERR_FILE_INTERAL | ERR_UNKNOWN_TRANSITION.

(** Outcome of a modelled C function: a normal result, a BASIC error raised
    through [ERROR(code)] (source/common.h:49), or undefined behaviour /
    assertion failure / abort of the C program. *)
Inductive outcome (A : Type) :=
| Ok (a : A)
| Err (e : err)
| UB.
Arguments Ok {A} _.
Arguments Err {A} _.
Arguments UB {A}.

Definition bind {A B} (m : outcome A) (f : A -> outcome B) : outcome B :=
  match m with Ok a => f a | Err e => Err e | UB => UB end.
Notation "'let*' x ':=' m 'in' k" := (bind m (fun x => k))
  (at level 200, x pattern, m at level 100, k at level 200, right associativity).

(** C integer types used by the code (source/common.h:64-92). *)
Definition INT_MIN : Z := - 2 ^ 31.
Definition INT_MAX : Z := 2 ^ 31 - 1.
Definition is_s32 (z : Z) : Prop := INT_MIN <= z <= INT_MAX.
Definition s32b (z : Z) : bool := (INT_MIN <=? z) && (z <=? INT_MAX).
Definition u8 (z : Z) : Z := z mod 2 ^ 8.
Definition u16 (z : Z) : Z := z mod 2 ^ 16.
Definition u32 (z : Z) : Z := z mod 2 ^ 32.
(** Conversion of any integer to int32_t (two's complement, gcc semantics). *)
Definition s32 (z : Z) : Z := (z + 2 ^ 31) mod 2 ^ 32 - 2 ^ 31.
Definition s16 (z : Z) : Z := (z + 2 ^ 15) mod 2 ^ 16 - 2 ^ 15.
Definition s8 (z : Z) : Z := (z + 2 ^ 7) mod 2 ^ 8 - 2 ^ 7.

(** source/common.h:29 FIXPOINT, :31 FP_TO_INT (arithmetic shift = floor
    division), :33 INT_TO_FP (shift of the uint32 then conversion to int32). *)
Definition FIXP_1 : Z := 4096.
Definition FP_TO_INT (n : Z) : Z := n / 4096.
Definition INT_TO_FP (n : Z) : Z := s32 (u32 n * 4096).

(** list cell update used by array models: [upd l i v] is [l] with cell [i]
    replaced; identity when out of range (models always guard the range). *)
Fixpoint upd {A} (l : list A) (i : nat) (v : A) : list A :=
  match l, i with
  | [], _ => []
  | _ :: t, O => v :: t
  | h :: t, S j => h :: upd t j v
  end.

Definition b2z (b : bool) : Z := if b then 1 else 0.
