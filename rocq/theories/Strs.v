(** Strings (source/interpreter/strs.c, strs.h).

    A string value is one of three storage formats; the other tags of the C code
    (BC_LABEL, BC_LABEL_STRING, STRING_INLINE_CHAR) share the layout and all the
    accessors of BC_STRING.  STRING_INLINE_WIDE and BC_WIDE_STRING are never
    produced by the interpreter and are not modelled.
    Characters are Z codes: 0..255 in byte strings, 0..65535 in wide strings. *)
From Verif Require Import Base.

(** strs.c:329-352 to_wide, table of half-width katakana *)
Definition katakana_wide : list Z :=
  [2; 12; 13; 1; 251; 242; 161; 163; 165; 167; 169; 227; 229; 231; 195; 63;
   162; 164; 166; 168; 170; 171; 173; 175; 177; 179; 181; 183; 185; 187; 189; 191;
   193; 196; 198; 200; 202; 203; 204; 205; 206; 207; 210; 213; 216; 219; 222; 223;
   224; 225; 226; 228; 230; 232; 233; 234; 235; 236; 237; 239; 243; 155; 156].

Definition to_wide (c : Z) : Z :=
  if c <? 33 then c
  else if c <? 128 then
    if c =? 34 then 8221          (* 0x201d *)
    else if c =? 39 then 8217     (* 0x2019 *)
    else if c =? 92 then 65509    (* 0xffe5 *)
    else Z.lor (c - 32) 65280     (* | 0xff00 *)
  else if c <? 161 then c
  else if c <? 224 then
    if c =? 176 then 65392        (* 0xff70 *)
    else Z.lor (nth (Z.to_nat (c - 161)) katakana_wide 0) 12288   (* | 0x3000 *)
  else c.

(** strs.c:354-358 inverse katakana table *)
Definition katakana_char : list Z :=
  [63; 3; 0; 63; 63; 63; 63; 63; 63; 63; 63; 63; 1; 2; 63; 63;
   63; 63; 63; 63; 63; 63; 63; 63; 63; 63; 63; 63; 63; 63; 63; 63;
   63; 63; 63; 63; 63; 63; 63; 63; 63; 63; 63; 63; 63; 63; 63; 63;
   63; 63; 63; 63; 63; 63; 63; 63; 63; 63; 63; 63; 63; 63; 63; 15;
   63; 63; 63; 63; 63; 63; 63; 63; 63; 63; 63; 63; 63; 63; 63; 63;
   63; 63; 63; 63; 63; 63; 63; 63; 63; 63; 63; 63; 63; 63; 63; 63;
   63; 63; 63; 63; 63; 63; 63; 63; 63; 63; 63; 63; 63; 63; 63; 63;
   63; 63; 63; 63; 63; 63; 63; 63; 63; 63; 63; 63; 63; 63; 63; 63;
   63; 63; 63; 63; 63; 63; 63; 63; 63; 63; 63; 63; 63; 63; 63; 63;
   63; 63; 63; 63; 63; 63; 63; 63; 63; 63; 63; 61; 62; 63; 63; 63;
   63; 6; 16; 7; 17; 8; 18; 9; 19; 10; 20; 21; 63; 22; 63; 23;
   63; 24; 63; 25; 63; 26; 63; 27; 63; 28; 63; 29; 63; 30; 63; 31;
   63; 32; 63; 14; 33; 63; 34; 63; 35; 63; 36; 37; 38; 39; 40; 41;
   63; 63; 42; 63; 63; 43; 63; 63; 44; 63; 63; 45; 63; 63; 46; 47;
   48; 49; 50; 11; 51; 12; 52; 13; 53; 54; 55; 56; 57; 58; 63; 59;
   63; 63; 5; 60; 63; 63; 63; 63; 63; 63; 63; 4; 63; 63; 63; 63].

(** strs.c:361-379 to_char; -1 when the wide character has no 8-bit code *)
Definition to_char (w : Z) : Z :=
  let wh := w / 256 in let wl := w mod 256 in
  if wh =? 0 then wl
  else if wh =? 32 then (if wl =? 29 then 34 else if wl =? 25 then 39 else -1)
  else if wh =? 255 then
    (if wl =? 112 then 176 else if wl =? 229 then 92 else wl + 32)
  else if wh =? 48 then nth (Z.to_nat wl) katakana_char 0 + 161
  else -1.

(** strs.c:156-163 digit_value *)
Definition digit_value (c : Z) : Z :=
  if (to_wide 48 <=? c) && (c <=? to_wide 57) then c - to_wide 48
  else if (to_wide 65 <=? c) && (c <=? to_wide 70) then c - to_wide 65 + 10
  else -1.

(** strs.h:27-53 struct string / ptc.h BC_STRING.  [SChar]: dynamic 8-bit string
    of the pool ('s'); [SWide]: 16-bit string ('w', only MEM$); [SBc]: inline
    byte string in bytecode or constant memory ('S'). *)
Inductive str := SChar (b : list Z) | SWide (w : list Z) | SBc (b : list Z).

Definition MAX_STRLEN : Z := 256.   (* strs.h:19 *)

Definition zlen {A} (l : list A) : Z := Z.of_nat (length l).

(** strs.c:539-559 str_len *)
Definition str_len (s : str) : Z :=
  match s with SChar b => zlen b | SWide w => zlen w | SBc b => zlen b end.

(** strs.c:492-513 str_at_wide; reading outside the string is UB.  The C index
    parameter is u16. *)
Definition str_at_wide (s : str) (i : Z) : outcome Z :=
  let k := Z.to_nat (u16 i) in
  match s with
  | SChar b | SBc b => match nth_error b k with Some c => Ok (to_wide c) | None => UB end
  | SWide w => match nth_error w k with Some c => Ok c | None => UB end
  end.

(** strs.c:516-538 str_at_char: note that wide strings return the raw wide code *)
Definition str_at_char (s : str) (i : Z) : outcome Z :=
  let k := Z.to_nat (u16 i) in
  match s with
  | SChar b | SBc b => match nth_error b k with Some c => Ok c | None => UB end
  | SWide w => match nth_error w k with Some c => Ok c | None => UB end
  end.

(** strs.c:389-408 str_copy_buf to an 8-bit destination of the source's
    characters [off, off+n): the list of bytes stored (u8 conversion of
    to_char).  Reading past the source's length is UB (in C: stale or foreign
    memory).  [off] is the u16 index given to str_at, [n] the u16 count. *)
Definition copy_bytes (s : str) (off n : Z) : outcome (list Z) :=
  let off := u16 off in let n := u16 n in
  if off + n <=? str_len s then
    match s with
    | SChar b | SBc b => Ok (firstn (Z.to_nat n) (skipn (Z.to_nat off) b))
    | SWide w => Ok (map (fun x => u8 (to_char x)) (firstn (Z.to_nat n) (skipn (Z.to_nat off) w)))
    end
  else UB.

(** strs.c:441-464 str_char_copy: the whole string as bytes *)
Definition str_char_copy (s : str) : list Z :=
  match s with
  | SChar b | SBc b => b
  | SWide w => map (fun x => u8 (to_char x)) w
  end.

(** strs.c:412-437 str_wide_copy: the whole string as wide characters *)
Definition str_wide_copy (s : str) : list Z :=
  match s with
  | SChar b | SBc b => map to_wide b
  | SWide w => w
  end.

(** strs.c:585-604 str_comp, character loop over indices (the pointer equality
    shortcut returns the same answer) *)
Fixpoint comp_loop (n : nat) (i : Z) (a b : str) : outcome bool :=
  match n with
  | O => Ok true
  | S n' => let* x := str_at_wide a i in let* y := str_at_wide b i in
            if x =? y then comp_loop n' (i + 1) a b else Ok false
  end.
Definition str_comp (a b : str) : outcome bool :=
  if str_len a =? str_len b then comp_loop (Z.to_nat (str_len a)) 0 a b else Ok false.

(** strs.c:606-628 str_lex *)
Fixpoint lex_loop (n : nat) (i : Z) (a b : str) : outcome Z :=
  match n with
  | O => Ok (if str_len a <? str_len b then -1 else if str_len b <? str_len a then 1 else 0)
  | S n' => let* x := str_at_wide a i in let* y := str_at_wide b i in
            if x <? y then Ok (-1) else if y <? x then Ok 1 else lex_loop n' (i + 1) a b
  end.
Definition str_lex (a b : str) : outcome Z :=
  lex_loop (Z.to_nat (Z.min (str_len a) (str_len b))) 0 a b.

(** operators.c:187-277 comparison operators, string branches *)
Definition op_equal_str (a b : str) : outcome Z :=
  let* r := str_comp a b in Ok (INT_TO_FP (b2z r)).
Definition op_inequal_str (a b : str) : outcome Z :=
  let* r := str_comp a b in Ok (INT_TO_FP (b2z (negb r))).
Definition op_less_str (a b : str) : outcome Z :=
  let* r := str_lex a b in Ok (INT_TO_FP (b2z (r <? 0))).
Definition op_greater_str (a b : str) : outcome Z :=
  let* r := str_lex a b in Ok (INT_TO_FP (b2z (r >? 0))).
Definition op_less_equal_str (a b : str) : outcome Z :=
  let* r := str_lex a b in Ok (INT_TO_FP (b2z (r <=? 0))).
Definition op_greater_equal_str (a b : str) : outcome Z :=
  let* r := str_lex a b in Ok (INT_TO_FP (b2z (r >=? 0))).

(** strs.c:659-685 str_concat into an 8-bit pool string (system.c:38: the pool
    is STRING_CHAR).  [None]: the copy is refused and dest keeps its content. *)
Definition str_concat (a b : str) : option str :=
  if str_len a + str_len b >? MAX_STRLEN then None
  else Some (SChar (str_char_copy a ++ str_char_copy b)).

(** operators.c:31-45 op_add, string branch *)
Definition op_add_str (a b : str) : outcome str :=
  if str_len a + str_len b >? MAX_STRLEN then Err ERR_STRING_TOO_LONG
  else match str_concat a b with Some z => Ok z | None => UB end.

(** operators.c:76-94 op_mult, string branch: [num] is the fixed-point count.
    The product is computed in 32-bit unsigned.  A refused str_concat leaves y
    as it was (its result is ignored by the C code). *)
Fixpoint mult_loop (n : nat) (y x : str) : str :=
  match n with
  | O => y
  | S n' => mult_loop n' (match str_concat y x with Some z => z | None => y end) x
  end.
Definition op_mult_str (x : str) (num : Z) : outcome str :=
  let count := FP_TO_INT num in
  let count := if count <? 0 then 0 else count in
  if u32 (count * str_len x) >? MAX_STRLEN then Err ERR_STRING_TOO_LONG
  else Ok (mult_loop (Z.to_nat count) (SChar []) x).
