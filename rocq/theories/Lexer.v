(** From source text to tokens (source/interpreter/tokens.c:20-72, :151-184, :226-299, :1266-1466; strs.c:35-65).
    Simplifications: a token stores its text (see Tokens.v); operations, functions, commands, system variables and ends of statements store no text
    (the compiler does not look at it), except DATA, which stores the rest of its line (read by tok_data, tokens.c:650-738, from ofs + 4).
    Reading behind the end of the source is UB. *)
From Coq Require Import String Ascii.
From Verif Require Import Base Tokens Bytecode.
Local Open Scope string_scope.
Open Scope Z_scope.

Fixpoint zs (s : String.string) : list Z := match s with EmptyString => [] | String a r => Z.of_nat (nat_of_ascii a) :: zs r end.
(** strs.c:35-65 *)
Definition is_lower (c : Z) : bool := (97 <=? c) && (c <=? 122).
Definition is_upper (c : Z) : bool := (65 <=? c) && (c <=? 90).
Definition is_digit (c : Z) : bool := (48 <=? c) && (c <=? 57).
Definition is_alpha (c : Z) : bool := is_upper c || is_lower c.
Definition is_name_start (c : Z) : bool := is_alpha c || (c =? 95).
Definition is_name_char (c : Z) : bool := is_alpha c || is_digit c || (c =? 95).
Definition is_varname (c : Z) : bool := is_name_char c || (c =? 36).

(** tokens.c:18-72 *)
Definition commands : list Z := Eval vm_compute in zs (
"PRINT   LOCATE  COLOR   DIM     FOR     TO      STEP    NEXT    " ++
"IF      THEN    ELSE    [ENDIF] GOTO    GOSUB   ON      RETURN  " ++
"END     STOP    " ++
"CLS     VISIBLE ACLS    VSYNC   WAIT    " ++
"INPUT   LINPUT  " ++
"APPEND  " ++
"BEEP    BGCLIP  BGCLR   BGCOPY  BGFILL  BGMCLEARBGMPLAY BGMPRG  BGMSET  BGMSETD BGMSETV " ++
"BGMSTOP BGMVOL  BGOFS   BGPAGE  BGPUT   BGREAD  BREPEAT CHRINIT CHRREAD CHRSET  CLEAR   " ++
"COLINIT COLREAD COLSET  CONT    DATA    DELETE  DTREAD  " ++
"EXEC    FILES   GBOX    GCIRCLE GCLS    GCOLOR  GCOPY   GDRAWMD GFILL   GLINE   " ++
"GPAGE   GPAINT  GPSET   GPRIO   GPUTCHR ICONCLR ICONSET " ++
"KEY     LIST    LOAD    NEW     PNLSTR  PNLTYPE " ++
"READ    REBOOT  RECVFILERENAME  RESTORE RSORT   RUN     SAVE    SENDFILESORT    " ++
"SPANGLE SPANIM  SPCHR   SPCLR   SPCOL   SPCOLVECSPHOME  SPOFS   SPPAGE  SPREAD  SPSCALE " ++
"SPSET   SPSETV  SWAP    TMREAD  " ++
"TALK    TALKSTOP" ++
"POKE    POKEH   POKEB   MEMCOPY MEMFILL ").
Definition functions : list Z := Eval vm_compute in zs (
"ABS     ASC     ATAN    BGCHK   BGMCHK  BGMGETV BTRIG   BUTTON  CHKCHR  CHR$    COS     " ++
"DEG     EXP     FLOOR   GSPOIT  HEX$    ICONCHK INKEY$  INSTR   LEFT$   LEN     LOG     " ++
"MID$    PI      POW     RAD     RIGHT$  RND     SGN     SIN     SPCHK   SPGETV  SPHIT   " ++
"SPHITRC SPHITSP SQR     STR$    SUBST$  TAN     VAL     " ++
"TALKCHK " ++
"PEEK    PEEKH   PEEKB   ADDR    PTR$    ").
Definition bc_conv_operations : list Z := Eval vm_compute in zs (
"+       ,       -       *       /       ;       =       (-)     " ++
"==      !=      <       >       <=      >=      " ++
"%       " ++
"AND     OR      XOR     NOT     !       " ++
"(       )       [       ]       ").
Definition sysvars : list Z := Eval vm_compute in zs (
"TRUE    FALSE   CANCEL  VERSION " ++
"TIME$   DATE$   MAINCNTLMAINCNTH" ++
"FREEVAR FREEMEM PRGNAME$PACKAGE$RESULT  " ++
"TCHST   TCHX    TCHY    TCHTIME " ++
"CSRX    CSRY    TABSTEP " ++
"SPHITNO SPHITX  SPHITY  SPHITT  " ++
"KEYBOARDFUNCNO  ICONPUSEICONPAGEICONPMAX" ++
"ERL     ERR     " ++
"MEM$    " ++
"MEMSAFE ").
Definition labels : list Z := Eval vm_compute in zs "LABEL   ".
Definition comments : list Z := Eval vm_compute in zs "REM     ".

(** tokens.c:151-184 tok_in_str_index: does [s] match the table from here on?  [nth _ 0]: the table ends with '\0' *)
Definition to_upper (c : Z) : Z := if is_lower c then c - 32 else c.
Fixpoint same_chars (s str : list Z) : bool :=
  match s with
  | [] => true
  | c :: s' => match str with [] => false (* '\0' *) | d :: str' => (to_upper c =? d) && same_chars s' str' end
  end.
Definition match_here (s str : list Z) : bool :=
  same_chars s str && (let c := nth (length s) str 0 in negb ((length s <? 8)%nat && negb (c =? 32) && negb (c =? 0))).
Fixpoint find_index (fuel : nat) (s str : list Z) (index : Z) : option Z :=
  match fuel with
  | O => None
  | S f => if match_here s str then Some index
           else match skipn 8 str with [] => None | str' => find_index f s str' (index + 1) end
  end.
Definition tok_in_str_index (str s : list Z) : option Z := find_index (length str) s str 0.

(** ** tokens.c:1266-1466 *)
Inductive lexed :=
| Go (ts : list token) (is_comment : bool) (rest : list Z)   (* ERR_NONE *)
| Line (ts : list token) (rest : list Z)                     (* '\r' was read: TKR_CONVERT *)
| Bad (e : err) (rest : list Z).
Definition len8 (s : list Z) : Z := u8 (Z.of_nat (length s)).
(** tokens[token_i++] *)
Definition put (ts : list token) (t : token) : outcome (list token) :=
  if Z.of_nat (length ts) <? TOKENS_LINE_MAX then Ok (ts ++ [t])%list else UB.
Fixpoint span (f : Z -> bool) (l : list Z) : list Z * list Z :=
  match l with [] => ([], []) | c :: r => if f c then let '(a, b) := span f r in (c :: a, b) else ([], l) end.
(** a character, then those that satisfy [f] (tokens.c:1274-1285): the text and what follows it *)
Definition take_while (f : Z -> bool) (src : list Z) : outcome (list Z * list Z) :=
  match src with
  | [] => UB
  | c :: r => let '(a, b) := span f r in match b with [] => UB | _ => Ok (c :: a, b) end
  end.
Definition word (k : tty) (s : list Z) : token := mk k (len8 s) 0 s.
Definition coded (k : tty) (i : Z) : token := mk k i 0 [].
Definition go (ts : list token) (t : token) (com : bool) (rest : list Z) : outcome lexed :=
  let* ts := put ts t in Ok (Go ts com rest).
(** tokens.c:1357-1373; [src]: what follows LABEL *)
Fixpoint skip_spaces (l : list Z) : list Z := match l with 32 :: r => skip_spaces r | _ => l end.
Definition tok_label (ts : list token) (src : list Z) : outcome lexed :=
  match src with
  | [] => UB
  | c :: r =>
      if negb (c =? 32) then Ok (Bad ERR_SYNTAX r) else
      match skip_spaces r with
      | [] => UB
      | c :: r' =>
          if negb (is_name_char c) then Ok (Bad ERR_SYNTAX (c :: r')) else
          let* (s, rest) := take_while is_name_char (c :: r') in
          if 16 <? len8 s then Ok (Bad ERR_LABEL_TOO_LONG rest) else go ts (word label s) false rest
      end
  end.
(** the rest of the line with its '\r' *)
Definition line_rest (l : list Z) : list Z := let '(a, b) := span (fun c => negb (c =? 13)) l in (a ++ firstn 1 b)%list.
(** tokens.c:1375-1409 *)
Definition tok_name (ts : list token) (src : list Z) : outcome lexed :=
  let* (s, rest) := take_while is_varname src in
  let* _ := put ts (word name s) in
  let s8 := firstn (Z.to_nat (len8 s)) s in
  match tok_in_str_index commands s8 with
  | Some i => if i =? CMD_DATA then go ts (mk command i 0 (line_rest (skipn 4 src))) true rest else go ts (coded command i) false rest
  | None =>
  match tok_in_str_index functions s8 with
  | Some i => go ts (coded function i) false rest
  | None =>
  match tok_in_str_index bc_conv_operations s8 with
  | Some i => go ts (coded operation i) false rest
  | None =>
  match tok_in_str_index labels s8 with
  | Some _ => tok_label ts rest
  | None =>
  match tok_in_str_index comments s8 with
  | Some _ => go ts (word comment s) true rest
  | None =>
  match tok_in_str_index sysvars s8 with
  | Some i => go ts (coded sysvar i) false rest
  | None => go ts (word name s) false rest
  end end end end end end.
(** tokens.c:1411-1430; [src] starts with a quote *)
Definition tok_string (ts : list token) (src : list Z) : outcome lexed :=
  let '(s, rest) := span (fun c => negb (c =? 34) && negb (c =? 13)) (tl src) in
  match rest with [] => UB | c :: r => go ts (word string s) false (if c =? 34 then r else rest) end.
(** tokens.c:1432-1443: '&', two more characters whatever they are, then digits and A to F *)
Definition tok_base_number (ts : list token) (src : list Z) : outcome lexed :=
  match src with
  | a :: b :: r => let* (s, rest) := take_while (fun c => is_digit c || ((65 <=? c) && (c <=? 70))) r in go ts (word base_number (a :: b :: s)) false rest
  | _ => UB
  end.
(** tokens.c:1445-1454 *)
Definition tok_number (ts : list token) (src : list Z) : outcome lexed :=
  let* (s, rest) := take_while (fun c => is_digit c || (c =? 46)) src in go ts (word number s) false rest.
Definition op_of (s : list Z) : Z := match tok_in_str_index bc_conv_operations s with Some i => i | None => 255 (* -1 in a u8 *) end.
(** tokens.c:1288-1355 *)
Definition tok_none (ts : list token) (is_comment : bool) (src : list Z) : outcome lexed :=
  match src with
  | [] => UB
  | c :: r =>
      if c =? 13 then let* ts := put ts (coded newline 1) in Ok (Line ts r)
      else if is_comment then Ok (Go ts true r)
      else if is_name_start c then tok_name ts src
      else if c =? 63 then go ts (coded command CMD_PRINT) false r
      else if c =? 58 then go ts (coded newline 1) false r
      else if c =? 32 then Ok (Go ts false r)
      else if c =? 34 then tok_string ts src
      else if c =? 38 then tok_base_number ts src
      else if is_digit c || (c =? 46) then tok_number ts src
      else if existsb (Z.eqb c) (zs ",;+-*/%()[]") then go ts (coded operation (op_of [c])) false r
      else if existsb (Z.eqb c) (zs "<=>!") then
        match r with
        | [] => UB
        | d :: r' => if d =? 61 then go ts (coded operation (op_of [c; d])) false r' else go ts (coded operation (op_of [c])) false r
        end
      else if c =? 64 then
        let* (s, rest) := take_while is_name_char r in
        if 16 <? len8 s then Ok (Bad ERR_LABEL_TOO_LONG rest) else go ts (word label s) false rest
      else if c =? 39 then Ok (Go ts true r)
      else Ok (Bad ERR_UNKNOWN_TRANSITION src)
  end.

(** tokens.c:255-286, the loop of tokenize_full up to the conversion: the lines of the program.  After an error the rest of the line is skipped (266). *)
Fixpoint skip_line (l : list Z) : outcome (list Z) := match l with [] => UB | c :: r => if c =? 13 then Ok r else skip_line r end.
Fixpoint lex_loop (fuel : nat) (ts : list token) (is_comment : bool) (src : list Z) : outcome (list line) :=
  match fuel with
  | O => UB
  | S f =>
      match src with
      | [] => Ok []
      | _ =>
          let* x := tok_none ts is_comment src in
          match x with
          | Go ts com rest => lex_loop f ts com rest
          | Line ts rest => let* ls := lex_loop f [] false rest in Ok (Tokens ts :: ls)
          | Bad e rest => let* rest := skip_line rest in let* ls := lex_loop f [] false rest in Ok (BadLine e :: ls)
          end
      end
  end.
Definition lex (src : list Z) : outcome (list line) := lex_loop (S (length src)) [] false src.
(** tokenize_full from source text *)
Definition compile_text (errno : err -> Z) ids no_labels test (src : list Z) : outcome (list Z) :=
  let* ls := lex src in compile errno ids no_labels test [] ls.
