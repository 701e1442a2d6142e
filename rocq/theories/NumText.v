(** Numbers as text (source/interpreter/strs.c, strfuncs.c) and number
    constants in bytecode (tokens.c, runner.c). *)
From Verif Require Import Base Strs StrFuncs.

(** strs.c:173-224 str_to_number, digit loops.  [cs] is the rest of the string
    as wide characters (the C code reads them through str_at_wide, which is
    total inside the string).  [unsigned int] arithmetic wraps mod 2^32. *)
(** strs.c:190-203: the fraction loop; result (fraction, maximum) *)
Fixpoint frac_loop (base : Z) (cs : list Z) (fraction maximum : Z) : Z * Z :=
  match cs with
  | [] => (fraction, maximum)
  | c :: t =>
      let digit := digit_value c in
      if (0 <=? digit) && (digit <? base)
      then frac_loop base t (u32 (u32 (fraction * base) + digit)) (u32 (maximum * base))
      else (fraction, maximum)
  end.

(** strs.c:183-214: the main loop; result (number, fraction, maximum, negative).
    [first] is [i == 0]. *)
Fixpoint num_loop (base : Z) (dec : bool) (cs : list Z) (first : bool) (number : Z) (neg : bool)
  : Z * (Z * Z) * bool :=
  match cs with
  | [] => (number, (0, 1), neg)
  | c :: t =>
      let digit := digit_value c in
      if (0 <=? digit) && (digit <? base) then
        let number := u32 (u32 (number * base) + digit) in
        if number >=? 524288 then (number, (0, 1), neg)
        else num_loop base dec t false number neg
      else if (c =? to_wide 46) && dec then (number, frac_loop base t 0 1, neg)
      else if first && (c =? to_wide 45) then
        if number >=? 524288 then (number, (0, 1), true)
        else num_loop base dec t false number true
      else (number, (0, 1), neg)
  end.

(** strs.c:216-224: combination, as int64; division by a wrapped maximum of 0
    is UB.  [INT_TO_FP(-number)]: u32 negation. *)
Definition str_to_number (cs : list Z) (base : Z) (dec : bool) : outcome Z :=
  let '(number, (fraction, maximum), neg) := num_loop base dec cs true 0 false in
  if maximum =? 0 then UB else
  let f := u32 (4096 * fraction) / maximum in
  if neg then Ok (INT_TO_FP (u32 (- number)) - f) else Ok (number * 4096 + f).

(** strs.c:165-170 u8_to_number and :230-232 u8_to_num *)
Definition u8_to_number (bs : list Z) (base : Z) (dec : bool) : outcome Z :=
  str_to_number (map to_wide bs) base dec.
Definition u8_to_num (bs : list Z) : outcome Z := u8_to_number bs 10 true.

(** strfuncs.c:53-81 func_val.  [g] is the uninitialised content of the 256-byte
    local buffer; the result is truncated to fixp (int32).  A string "&H"/"&B"
    prefix with fewer than 2 characters makes the length negative: UB. *)
Definition func_val (g : list Z) (s : str) : outcome Z :=
  let bs := str_char_copy s in
  let buf := bs ++ skipn (length bs) g in
  let first := nth 0 buf 0 in let second := nth 1 buf 0 in
  if first =? 38 then
    if second =? 72 then
      if str_len s <? 2 then UB else let* v := u8_to_number (skipn 2 bs) 16 false in Ok (s32 v)
    else if second =? 66 then
      if str_len s <? 2 then UB else let* v := u8_to_number (skipn 2 bs) 2 false in Ok (s32 v)
    else Err ERR_SYNTAX
  else let* v := u8_to_num bs in Ok (s32 v).

(** strs.c:266-300 fixp_to_char, integer part: one step per divisor.  The inner
    subtraction loop is modelled by its quotient and remainder. *)
Fixpoint int_loop (divs : list Z) (integer : Z) (trailing : bool) : list Z :=
  match divs with
  | [] => []
  | d :: t =>
      if d >? integer then (if trailing then [48] else []) ++ int_loop t integer trailing
      else (48 + integer / d) :: int_loop t (integer mod d) true
  end.
(** strs.c:301-322 decimal part: stops as soon as nothing is left.  The C loop
    only ends on decimal = 0, which happens at the latest after divisor 1. *)
Fixpoint dec_loop (divs : list Z) (decimal : Z) : list Z :=
  if decimal <=? 0 then [] else
  match divs with
  | [] => []
  | d :: t => if d >? decimal then 48 :: dec_loop t decimal
              else (48 + decimal / d) :: dec_loop t (decimal mod d)
  end.

(** strs.c:266-326 fixp_to_char: the characters before the terminating NUL.
    [-n] overflows for INT_MIN: UB. *)
Definition fixp_to_char (n : Z) : outcome (list Z) :=
  if n =? INT_MIN then UB else
  let num := if n <? 0 then - n else n in
  let integer := num / 4096 in
  let decimal := ((num mod 4096 + 2) * 1000) / 4096 in
  Ok ((if n <? 0 then [45] else []) ++
      (if integer =? 0 then [48] else int_loop [100000; 10000; 1000; 100; 10; 1] integer false) ++
      (if decimal =? 0 then [] else 46 :: dec_loop [100; 10; 1] decimal)).

(** strfuncs.c:83-94 func_str *)
Definition func_str (n : Z) : outcome str :=
  let* b := fixp_to_char n in Ok (SChar b).

(** C library printf "%0*X": hexadecimal digits of a non-negative number,
    uppercase, at least one digit, left padded with zeros to [width]. *)
Definition hex_char (d : Z) : Z := if d <? 10 then 48 + d else 55 + d.
Fixpoint hex_digits (fuel : nat) (n : Z) (acc : list Z) : list Z :=
  match fuel with
  | O => acc
  | S k => if n <? 16 then hex_char n :: acc
           else hex_digits k (n / 16) (hex_char (n mod 16) :: acc)
  end.
Definition printf_0X (width n : Z) : list Z :=
  let ds := hex_digits 8 n [] in
  repeat 48 (Z.to_nat (width - zlen ds)) ++ ds.

(** strfuncs.c:240-275 func_hex; [digits] is the optional second argument *)
Definition func_hex (numv : Z) (digitsv : option Z) : outcome str :=
  let num := FP_TO_INT numv in
  let* digits := match digitsv with
    | None => Ok 0
    | Some d => let d := FP_TO_INT d in
                if (d <? 1) || (d >? 5) then Err ERR_OUT_OF_RANGE else Ok d
    end in
  if negb (digits =? 0) && ((num >=? 2 ^ (4 * digits)) || (num <? - 2 ^ (4 * digits - 1)))
  then Err ERR_ILLEGAL_FUNCTION_CALL else
  let num := Z.land num 1048575 in
  let num := if digits =? 0 then num else Z.land num (Z.shiftr 1048575 (4 * (5 - digits))) in
  Ok (SChar (printf_0X digits num)).

(** tokens.c:762-796 tok_code, numeric literal.  [n] is the int64 value read;
    [dec] says the token is a decimal number (not &H / &B).
    Simplification: the bit test at :774 is implied by the range test at :775. *)
Definition emit_number (n : Z) (dec : bool) : outcome (list Z) :=
  if (2147483648 <=? n) && (n <=? 4294967295) && dec then Err ERR_OVERFLOW else
  if (0 <=? n) && (n <? 409600) && (n =? Z.land n (-4096))
  then Ok [110; u8 (FP_TO_INT n)]                       (* 'n' *)
  else Ok [78; 0; u32 n / 2 ^ 24 mod 256; u32 n / 2 ^ 16 mod 256;
           u32 n / 2 ^ 8 mod 256; u32 n mod 256].       (* 'N' *)

(** runner.c:193-201 BC_SMALL_NUMBER, :294-306 BC_NUMBER: the value pushed and
    the rest of the code *)
Definition run_number (code : list Z) : outcome (Z * list Z) :=
  match code with
  | op :: data :: rest =>
      if op =? 110 then if data <=? 99 then Ok (data * 4096, rest) else Err ERR_NUM_INVALID
      else if op =? 78 then
        match rest with
        | a :: b :: c :: d :: rest' =>
            Ok (s32 (Z.lor (Z.lor (Z.lor (Z.shiftl a 24) (Z.shiftl b 16)) (Z.shiftl c 8)) d), rest')
        | _ => UB
        end
      else UB
  | _ => UB
  end.

(** tokens.c:767-771: reading a decimal / prefixed literal token *)
Definition literal_decimal (text : list Z) : outcome (list Z) :=
  let* n := u8_to_num text in emit_number n true.
Definition literal_based (base : Z) (digits : list Z) : outcome (list Z) :=
  let* n := u8_to_number digits base false in emit_number n false.
