(** The ideal computer of a BASIC programmer: variables are maps from names to numbers and texts, the screen is the page of
    ConsoleSpec.v, numbers are multiples of 1/4096.  [UB] is what is left unspecified.

    Independent of how the code stores things: of the models only the entries of the argument stack, the constants and the
    table of display codes [to_wide] are used. *)
From Verif Require Import Base Tokens Runner Codes Vars VarsSpec Strs Console NumTextSpec ConsoleSpec.

Inductive thing := Number (z : Z) | Words (t : list Z).
(** the contents a number can have; texts of at most 256 characters *)
Definition fits (z : Z) : bool := (-2147483648 <=? z) && (z <? 2147483648).
Definition textb (t : list Z) : bool := forallb (fun c => (0 <=? c) && (c <? 256)) t && (length t <=? 256)%nat.

(** ** Numbers *)
Definition clip (z : Z) : outcome Z := if fits z then Ok z else Err ERR_OVERFLOW.
Definition truth (b : bool) : Z := if b then 4096 else 0.
Definition arith (o x y : Z) : outcome Z :=
  if o =? OP_ADD then clip (x + y)
  else if o =? OP_SUBTRACT then clip (x - y)
  else if o =? OP_MULTIPLY then clip (x * y / 4096)
  else if o =? OP_DIVIDE then if y =? 0 then Err ERR_DIVIDE_BY_ZERO else clip (Z.quot (x * 4096) y)
  else if o =? OP_MODULO then if y =? 0 then Err ERR_DIVIDE_BY_ZERO else if (x =? -2147483648) && (y =? -1) then UB else Ok (Z.rem x y)
  else if o =? OP_EQUAL then Ok (truth (x =? y)) else if o =? OP_NOT_EQUAL then Ok (truth (negb (x =? y)))
  else if o =? OP_LESS then Ok (truth (x <? y)) else if o =? OP_GREATER then Ok (truth (y <? x))
  else if o =? OP_LESS_EQUAL then Ok (truth (x <=? y)) else if o =? OP_GREATER_EQUAL then Ok (truth (y <=? x))
  else if o =? OP_AND then Ok (4096 * Z.land (x / 4096) (y / 4096)) else if o =? OP_OR then Ok (4096 * Z.lor (x / 4096) (y / 4096))
  else if o =? OP_XOR then Ok (4096 * Z.lxor (x / 4096) (y / 4096)) else UB.
Definition unary (o x : Z) : outcome Z :=
  if o =? OP_NEGATE then if x =? -2147483648 then UB else Ok (- x)
  else if o =? OP_NOT then Ok (4096 * Z.lnot (x / 4096)) else if o =? OP_LOGICAL_NOT then Ok (truth (x =? 0)) else UB.

(** ** Texts *)
(** dictionary order of display codes *)
Fixpoint before (a b : list Z) : bool :=
  match a, b with
  | _, [] => false
  | [], _ :: _ => true
  | x :: a, y :: b => if x <? y then true else if x =? y then before a b else false
  end.
Definition sorted_before (a b : list Z) : bool := before (map to_wide a) (map to_wide b).
Definition same_text (a b : list Z) : bool := if list_eq_dec Z.eq_dec a b then true else false.
Definition compare (o : Z) (a b : list Z) : outcome Z :=
  if o =? OP_EQUAL then Ok (truth (same_text a b)) else if o =? OP_NOT_EQUAL then Ok (truth (negb (same_text a b)))
  else if o =? OP_LESS then Ok (truth (sorted_before a b)) else if o =? OP_GREATER then Ok (truth (sorted_before b a))
  else if o =? OP_LESS_EQUAL then Ok (truth (sorted_before a b || same_text a b))
  else if o =? OP_GREATER_EQUAL then Ok (truth (sorted_before b a || same_text a b)) else UB.
Fixpoint many (n : nat) (t : list Z) : list Z := match n with O => [] | S n => t ++ many n t end.
Definition fit_text (t : list Z) : outcome (list Z) := if (length t <=? 256)%nat then Ok t else Err ERR_STRING_TOO_LONG.
Fixpoint starts (t s : list Z) : bool := match t, s with [], _ => true | c :: t, d :: s => (c =? d) && starts t s | _, _ => false end.
Fixpoint find (t s : list Z) (i : Z) : option Z :=
  if starts t s then Some i else match s with [] => None | _ :: s => find t s (i + 1) end.
(** where [t] first occurs in [s] from position [from] on *)
Definition instr (s t : list Z) (from : Z) : outcome Z :=
  match t with
  | [] => UB
  | _ => if from <? 0 then UB else Ok (match find t (skipn (Z.to_nat from) s) from with Some i => 4096 * i | None => -4096 end)
  end.
Definition subst (s : list Z) (st n : Z) (t : list Z) : outcome (list Z) :=
  let len := Z.of_nat (length s) in
  if (st <? 0) || (len <? st) then Err ERR_OUT_OF_RANGE
  else let n := if (n <? 0) || (len <? n) then len else n in
       let r := firstn (Z.to_nat st) s ++ t ++ skipn (Z.to_nat st + Z.to_nat n) s in
       if (length r <=? 256)%nat then Ok r else if 256 <? st + Z.of_nat (length t) then Err ERR_STRING_TOO_LONG else UB.

(** a number as text: whole part, and the thousandths without trailing zeros *)
Fixpoint decimal (fuel : nat) (n : Z) : list Z :=
  match fuel with O => [] | S f => if n <? 10 then [n] else decimal f (n / 10) ++ [n mod 10] end.
Fixpoint trim (l : list Z) : list Z :=
  match l with [] => [] | d :: t => match trim t with [] => if d =? 0 then [] else [d] | u => d :: u end end.
Definition number_text (x : Z) : outcome (list Z) :=
  let a := Z.abs x in let f := a mod 4096 in
  if (x =? -2147483648) || (4094 <=? f) then UB
  else let q := (f + 2) * 1000 / 4096 in Ok (decimal_text (x <? 0) (decimal 10 (a / 4096)) (trim [q / 100; q / 10 mod 10; q mod 10])).

(** HEX$: an integer as 20 bits, without leading zeros; or as so many hexadecimal digits, if they can hold it *)
Fixpoint last_digits (base : Z) (k : nat) (n : Z) : list Z :=
  match k with O => [] | S k => last_digits base k (n / base) ++ [n mod base] end.
Fixpoint no_zeros (l : list Z) : list Z :=
  match l with [] => [] | d :: t => match t with [] => [d] | _ => if d =? 0 then no_zeros t else l end end.
Definition hex_text (n : Z) : list Z := map digit_char (no_zeros (last_digits 16 5 n)).
Definition hex_fixed (n w : Z) : outcome (list Z) :=
  if (w <? 1) || (5 <? w) then Err ERR_OUT_OF_RANGE
  else if (- (16 ^ w / 2) <=? n) && (n <? 16 ^ w) then Ok (map digit_char (last_digits 16 (Z.to_nat w) n)) else Err ERR_ILLEGAL_FUNCTION_CALL.
(** VAL: the digits at the start of a text, and what is behind them *)
Definition digit_of (base c : Z) : option Z :=
  let d := if (48 <=? c) && (c <=? 57) then c - 48 else if (65 <=? c) && (c <=? 70) then c - 55 else base in
  if d <? base then Some d else None.
Fixpoint leading (base : Z) (t : list Z) : list Z * list Z :=
  match t with
  | c :: r => match digit_of base c with Some d => let (ds, u) := leading base r in (d :: ds, u) | None => ([], t) end
  | [] => ([], [])
  end.
Definition is_char (k : Z) (t : list Z) : bool := match t with c :: _ => c =? k | [] => false end.
(** ampersand H or B: 20 bits with a sign *)
Definition based_number (base : Z) (t : list Z) : outcome Z :=
  let (ds, r) := leading base t in let n := numeral base ds in
  if is_char 45 r || (1048576 <=? n) then UB else Ok (4096 * (if n <? 524288 then n else n - 1048576)).
(** [-]digits[.digits]; whole part below 524288, at most six decimals, rounded toward zero *)
Definition decimal_number (neg : bool) (t : list Z) : outcome Z :=
  let (ds, r) := leading 10 t in let n := numeral 10 ds in
  let signed v := if neg then - v else v in
  if 524288 <=? n then UB
  else if is_char 46 r then
    let (fs, _) := leading 10 (tl r) in
    if (length fs <=? 6)%nat then Ok (signed (n * 4096 + 4096 * numeral 10 fs / 10 ^ Z.of_nat (length fs))) else UB
  else if is_char 45 r then UB else Ok (signed (n * 4096)).
Definition number_of (t : list Z) : outcome Z :=
  match t with
  | [] => UB
  | c :: r =>
      if c =? 38 then
        match r with [] => UB | p :: r => if p =? 72 then based_number 16 r else if p =? 66 then based_number 2 r else Err ERR_SYNTAX end
      else if c =? 45 then decimal_number true r else decimal_number false t
  end.

(** ** The state: names in use, variables, arrays, used cells of the array memory, the page *)
Record table := mkT { wide : Z; high : option Z; item : Z -> Z -> thing }.
Record istate := mkI { names : list key; vals : key -> thing; tables : key -> option table; room : Z; page : paper }.
Inductive iloc := IVar (k : key) | IElem (k : key) (i j : Z).
Definition iloc_eq (a b : iloc) : {a = b} + {a <> b}.
Proof. decide equality; try apply Z.eq_dec; apply key_eq. Defined.
Definition nothing (text : bool) : thing := if text then Words [] else Number 0.
Definition height (t : table) : Z := match high t with None => 1 | Some n => n end.

Definition get (s : istate) (l : iloc) : thing :=
  match l with
  | IVar k => vals s k
  | IElem k i j => match tables s k with Some a => item a i j | None => Number 0 end
  end.
Definition set_item (f : Z -> Z -> thing) (i j : Z) (x : thing) : Z -> Z -> thing := fun a b => if (a =? i) && (b =? j) then x else f a b.
Definition put (s : istate) (l : iloc) (x : thing) : istate :=
  match l with
  | IVar k => mkI (names s) (set (vals s) k x) (tables s) (room s) (page s)
  | IElem k i j => match tables s k with
                   | Some a => mkI (names s) (vals s) (set (tables s) k (Some (mkT (wide a) (high a) (set_item (item a) i j x)))) (room s) (page s)
                   | None => s
                   end
  end.
Definition with_page (s : istate) (p : paper) : istate := mkI (names s) (vals s) (tables s) (room s) p.

Notation ient := (entry iloc).
Definition chkn (z : Z) : outcome Z := if fits z then Ok z else UB.
Definition chkt (t : list Z) : outcome (list Z) := if textb t then Ok t else UB.
Definition num (s : istate) (e : ient) : outcome Z :=
  match e with
  | EN v => chkn v
  | ER false l => match get s l with Number z => chkn z | _ => UB end
  | _ => UB
  end.
Definition txt (s : istate) (e : ient) : outcome (list Z) :=
  match e with
  | ES false t => chkt t
  | ER true l => match get s l with Words t => chkt t | _ => UB end
  | _ => UB
  end.
(** number, text, or neither *)
Definition kind (e : ient) : option bool :=
  match e with EN _ | ER false _ => Some false | ES false _ | ER true _ => Some true | _ => None end.
Definition retn (s : istate) (x : outcome Z) : outcome (ient * istate) := let* v := x in Ok (EN v, s).
Definition rett (s : istate) (x : outcome (list Z)) : outcome (ient * istate) := let* t := x in Ok (ES false t, s).

Section Ideal.
(** at most [max] variables; [cells] cells of array memory *)
Context (max cells : Z).

(** the last character of a name says whether it is a text; a name of one character is a number *)
Definition name_of (w : list Z) : list Z * bool :=
  match rev w with
  | c :: d :: r => if c =? 36 then (rev (d :: r), true) else (w, false)
  | _ => (w, false)
  end.
Definition legal (w : list Z) : bool := (1 <=? length w)%nat && (length w <=? 16)%nat && forallb (fun c => (0 <? c) && (c <? 256)) w.
Definition know (s : istate) (k : key) : outcome istate :=
  if mem k (names s) then Ok s
  else if max <=? Z.of_nat (length (names s)) then Err ERR_OUT_OF_MEMORY
  else Ok (mkI (k :: names s) (vals s) (tables s) (room s) (page s)).
Definition ivar (r : vref) (s : istate) : outcome (bool * iloc * istate) :=
  match r with
  | ByName false w =>
      let (n, text) := name_of w in
      if legal n then let k := (n, if text then 2 else 1) in let* s := know s k in Ok (text, IVar k, s) else UB
  | _ => UB
  end.
(** an array that was not declared has 10 elements, or 10 x 10 *)
Definition the_table (s : istate) (k : key) (text : bool) (two : bool) : outcome (istate * table) :=
  match tables s k with
  | Some a => Ok (s, a)
  | None =>
      let a := mkT 10 (if two then Some 10 else None) (fun _ _ => nothing text) in
      let n := room s + wide a * height a + 2 in
      if cells <=? n then Err ERR_OUT_OF_MEMORY else Ok (mkI (names s) (vals s) (set (tables s) k (Some a)) n (page s), a)
  end.
Definition iarr (r : vref) (args : list ient) (s : istate) : outcome (bool * iloc * istate) :=
  match r with
  | ByName false w =>
      let (n, text) := name_of w in
      let* (i, j) := (match args with
        | [x; y] => let* i := num s x in let* j := num s y in Ok (i / 4096, Some (j / 4096))
        | _ => match rev args with x :: _ => let* i := num s x in Ok (i / 4096, None) | [] => UB end
        end) in
      if legal n then
        if match j with Some j => j =? -1 | None => false end then UB else
        let k := (n, if text then 10 else 9) in
        let* s := know s k in
        let* (s, a) := the_table s k text (match j with Some _ => true | None => false end) in
        if match j with None => height a <=? 0 | Some _ => match high a with None => true | Some _ => false end end then UB
        else if (0 <=? i) && (i <? wide a) then
          let j := match j with None => 0 | Some j => j end in
          if (0 <=? j) && (j <? height a) then Ok (text, IElem k i j, s) else Err ERR_SUBSCRIPT_OUT_OF_RANGE_Y
        else Err ERR_SUBSCRIPT_OUT_OF_RANGE_X
      else UB
  | _ => UB
  end.
(** DIM: a new array of the given size, every element 0 or empty; an array that does not fit in the memory is not made *)
Definition idim (w : list Z) (args : list ient) (s : istate) : outcome istate :=
  let (n, text) := name_of w in
  let* (a, b) := (match args with
    | [x; y] => let* i := num s x in let* j := num s y in Ok (i / 4096, Some (j / 4096))
    | _ => match rev args with x :: _ => let* i := num s x in Ok (i / 4096, None) | [] => UB end
    end) in
  if legal n && (0 <=? a) && match b with None => true | Some b => (0 <=? b) && (a * b <? 2147483648) end then
    let k := (n, if text then 10 else 9) in
    if mem k (names s) then Err ERR_DUPLICATE_DIM
    else
      let* s := know s k in
      let t := mkT a b (fun _ _ => nothing text) in
      let n := room s + wide t * height t + 2 in
      Ok (if cells <=? n then s else mkI (names s) (vals s) (set (tables s) k (Some t)) n (page s))
  else UB.

Definition iun (o : Z) (e : ient) (s : istate) : outcome (ient * istate) := let* x := num s e in retn s (unary o x).
Definition ibin (o : Z) (a b : ient) (s : istate) : outcome (ient * istate) :=
  match kind a, kind b with
  | Some false, Some false => let* x := num s a in let* y := num s b in retn s (arith o x y)
  | Some true, Some true =>
      let* x := txt s a in let* y := txt s b in
      if o =? OP_ADD then rett s (fit_text (x ++ y)) else if o =? OP_MULTIPLY then Err ERR_OP_INVALID_TYPES else retn s (compare o x y)
  | Some true, Some false =>
      if o =? OP_MULTIPLY then
        let* x := txt s a in let* y := num s b in
        (* so many copies that the length is not computed *)
        let n := Z.max 0 (y / 4096) in
        rett s (if n * Z.of_nat (length x) <=? 256 then Ok (many (Z.to_nat n) x) else Err ERR_STRING_TOO_LONG)
      else UB
  | _, _ => UB
  end.
Definition isassign (l : iloc) (e : ient) (s : istate) : outcome istate := let* t := txt s e in Ok (put s l (Words t)).

Definition below (n : Z) : bool := n <? 32768.
Definition ifun (c : Z) (args : list ient) (s : istate) : outcome (ient * istate) :=
  match args with
  | [] => if c =? FUNC_PI then retn s (Ok 12867) else UB
  | [x] =>
      if c =? FUNC_ABS then let* v := num s x in retn s (Ok (if v =? -2147483648 then v else Z.abs v))
      else if c =? FUNC_FLOOR then let* v := num s x in retn s (Ok (4096 * (v / 4096)))
      else if c =? FUNC_SGN then let* v := num s x in retn s (Ok (4096 * Z.sgn v))
      else if c =? FUNC_CHR then
        let* v := num s x in rett s (if (0 <=? v / 4096) && (v / 4096 <? 256) then Ok [v / 4096] else Err ERR_OUT_OF_RANGE)
      else if c =? FUNC_STR then let* v := num s x in rett s (number_text v)
      else if c =? FUNC_DEG then let* v := num s x in let d := Z.quot (v * (180 * 4096)) 12867 in retn s (if fits d then Ok d else UB)
      else if c =? FUNC_RAD then let* v := num s x in retn s (Ok (Z.quot (v * 12867) (180 * 4096)))
      else if c =? FUNC_HEX then let* v := num s x in rett s (Ok (hex_text (v / 4096)))
      else if c =? FUNC_VAL then let* t := txt s x in retn s (number_of t)
      else if c =? FUNC_LEN then let* t := txt s x in retn s (Ok (4096 * Z.of_nat (length t)))
      else if c =? FUNC_ASC then let* t := txt s x in retn s (match t with [] => Err ERR_SYNTAX | c :: _ => Ok (4096 * c) end)
      else UB
  | [x; y] =>
      if c =? FUNC_CHKCHR then
        let* a := num s x in let* b := num s y in
        let x := a / 4096 in let y := b / 4096 in
        retn s (Ok (4096 * (if (0 <=? x) && (x <? 32) && (0 <=? y) && (y <? 24)
                            then to_char (fst (nth (Z.to_nat (32 * y + x)) (visible (page s)) (0, 0))) else -1)))
      else if c =? FUNC_LEFT then
        let* t := txt s x in let* v := num s y in let n := v / 4096 in
        rett s (if n <? 0 then Err ERR_OUT_OF_RANGE else Ok (firstn (Z.to_nat n) t))
      else if c =? FUNC_HEX then let* v := num s x in let* w := num s y in rett s (hex_fixed (v / 4096) (w / 4096))
      else if c =? FUNC_RIGHT then
        let* t := txt s x in let* v := num s y in let n := v / 4096 in
        rett s (if n <? 0 then Err ERR_OUT_OF_RANGE else Ok (skipn (length t - Z.to_nat n) t))
      else if c =? FUNC_INSTR then let* t := txt s x in let* u := txt s y in retn s (instr t u 0)
      else UB
  | [x; y; z] =>
      if c =? FUNC_MID then
        let* t := txt s x in let* v := num s y in let* w := num s z in
        let p := v / 4096 in let n := w / 4096 in
        rett s (if (p <? 0) || (n <? 0) then Err ERR_OUT_OF_RANGE
                else if below p && below n then Ok (firstn (Z.to_nat n) (skipn (Z.to_nat p) t)) else UB)
      else if c =? FUNC_INSTR then let* t := txt s x in let* u := txt s y in let* v := num s z in retn s (instr t u (v / 4096))
      else UB
  | [x; y; z; w] =>
      if c =? FUNC_SUBST then
        let* t := txt s x in let* a := num s y in let* b := num s z in let* u := txt s w in rett s (subst t (a / 4096) (b / 4096) u)
      else UB
  | _ => UB
  end.
Definition isys (c : Z) (s : istate) : outcome (ient * istate) :=
  if c =? SYS_TRUE then retn s (Ok 4096) else if c =? SYS_FALSE then retn s (Ok 0) else if c =? SYS_CANCEL then retn s (Ok (-4096))
  else if c =? SYS_FREEVAR then retn s (Ok (4096 * (max - Z.of_nat (length (names s)))))
  else if c =? SYS_CSRX then retn s (Ok (4096 * ((pos (page s) - top (page s)) mod 32)))
  else if c =? SYS_CSRY then retn s (Ok (4096 * ((pos (page s) - top (page s)) / 32))) else UB.

(** what PRINT puts for each item *)
Definition iitem (s : istate) (e : ient) : outcome Console.item :=
  match kind e with
  | Some false => let* v := num s e in let* t := number_text v in Ok (Console.Text (map to_wide t))
  | Some true => let* t := txt s e in Ok (Console.Text (map to_wide t))
  | None => match e with EO o => if o =? OP_COMMA then Ok Comma else if o =? OP_SEMICOLON then Ok Semicolon else UB | _ => UB end
  end.
Fixpoint iitems (s : istate) (l : list ient) : outcome (list Console.item) :=
  match l with [] => Ok [] | e :: r => let* i := iitem s e in let* is := iitems s r in Ok (i :: is) end.
Definition on_page (s : istate) (o : op) : outcome istate := Ok (with_page s (page_step (page s) o)).
Definition icmd (c : Z) (args : list ient) (s : istate) : outcome istate :=
  if c =? CMD_PRINT then let* is := iitems s args in on_page s (Print is)
  else if c =? CMD_LOCATE then
    match args with [x; y] => let* a := num s x in let* b := num s y in on_page s (Locate (a / 4096) (b / 4096)) | _ => UB end
  else if c =? CMD_COLOR then
    match args with
    | [x; y] => let* a := num s x in let* b := num s y in on_page s (Color (a / 4096) (Some (b / 4096)))
    | [x] => let* a := num s x in on_page s (Color (a / 4096) None)
    | _ => UB
    end
  else if c =? CMD_CLS then on_page s Cls
  else if c =? CMD_SWAP then
    match args with
    | [ER p a; ER q b] => if Bool.eqb p q then let x := get s a in Ok (put (put s a (get s b)) b x) else UB
    | _ => UB
    end
  else UB.

Definition ideal : host :=
  mkHost istate iloc (fun a b => if iloc_eq a b then true else false)
    (fun s l => match get s l with Number z => z | _ => 0 end) (fun s l z => put s l (Number z))
    ivar iarr idim iun ibin isassign ifun isys (fun _ _ => UB) icmd.
End Ideal.
Definition ideal_text (s : istate) (l : iloc) : list Z := match get s l with Words t => t | _ => [] end.
(** nothing named, every number 0 and every text empty, an empty page *)
Definition ideal_start : istate := mkI [] (fun k => nothing (snd k =? 2)) (fun _ => None) 0 blank.
