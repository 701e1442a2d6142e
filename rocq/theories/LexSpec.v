(** How a line of a program is spelled: words and symbols with spaces between them. *)
From Coq Require Import String Ascii.
From Verif Require Import Base Tokens.
Local Open Scope string_scope.
Open Scope Z_scope.

Definition letters (s : String.string) : list Z := map (fun a => Z.of_nat (nat_of_ascii a)) (list_ascii_of_string s).
(** the words of a text separated by spaces *)
Fixpoint split_words (cur : list Z) (l : list Z) : list (list Z) :=
  match l with
  | [] => if cur then [] else [cur]
  | c :: r => if c =? 32 then (if cur then split_words [] r else cur :: split_words [] r) else split_words (cur ++ [c])%list r
  end.
Definition words (s : String.string) : list (list Z) := split_words [] (letters s).
Definition command_names := Eval vm_compute in words
"PRINT LOCATE COLOR DIM FOR TO STEP NEXT IF THEN ELSE [ENDIF] GOTO GOSUB ON RETURN END STOP CLS VISIBLE ACLS VSYNC WAIT INPUT LINPUT APPEND BEEP BGCLIP BGCLR BGCOPY BGFILL BGMCLEAR BGMPLAY BGMPRG BGMSET BGMSETD BGMSETV BGMSTOP BGMVOL BGOFS BGPAGE BGPUT BGREAD BREPEAT CHRINIT CHRREAD CHRSET CLEAR COLINIT COLREAD COLSET CONT DATA DELETE DTREAD EXEC FILES GBOX GCIRCLE GCLS GCOLOR GCOPY GDRAWMD GFILL GLINE GPAGE GPAINT GPSET GPRIO GPUTCHR ICONCLR ICONSET KEY LIST LOAD NEW PNLSTR PNLTYPE READ REBOOT RECVFILE RENAME RESTORE RSORT RUN SAVE SENDFILE SORT SPANGLE SPANIM SPCHR SPCLR SPCOL SPCOLVEC SPHOME SPOFS SPPAGE SPREAD SPSCALE SPSET SPSETV SWAP TMREAD TALK TALKSTOP POKE POKEH POKEB MEMCOPY MEMFILL".
Definition function_names := Eval vm_compute in words
"ABS ASC ATAN BGCHK BGMCHK BGMGETV BTRIG BUTTON CHKCHR CHR$ COS DEG EXP FLOOR GSPOIT HEX$ ICONCHK INKEY$ INSTR LEFT$ LEN LOG MID$ PI POW RAD RIGHT$ RND SGN SIN SPCHK SPGETV SPHIT SPHITRC SPHITSP SQR STR$ SUBST$ TAN VAL TALKCHK PEEK PEEKH PEEKB ADDR PTR$".
Definition operator_names := Eval vm_compute in words "+ , - * / ; = (-) == != < > <= >= % AND OR XOR NOT ! ( ) [ ]".
Definition sysvar_names := Eval vm_compute in words
"TRUE FALSE CANCEL VERSION TIME$ DATE$ MAINCNTL MAINCNTH FREEVAR FREEMEM PRGNAME$ PACKAGE$ RESULT TCHST TCHX TCHY TCHTIME CSRX CSRY TABSTEP SPHITNO SPHITX SPHITY SPHITT KEYBOARD FUNCNO ICONPUSE ICONPAGE ICONPMAX ERL ERR MEM$ MEMSAFE".
Definition reserved : list (list Z) := Eval vm_compute in (command_names ++ function_names ++ operator_names ++ [letters "LABEL"; letters "REM"] ++ sysvar_names)%list.

Definition upcase (c : Z) : Z := if (97 <=? c) && (c <=? 122) then c - 32 else c.
Definition capitals (s : list Z) : list Z := map upcase s.
Definition letter (c : Z) : bool := (65 <=? c) && (c <=? 90) || (97 <=? c) && (c <=? 122) || (c =? 95).
Definition digit (c : Z) : bool := (48 <=? c) && (c <=? 57).
Definition hex (c : Z) : bool := digit c || (65 <=? c) && (c <=? 70).
(** a letter, then letters, digits and '$' *)
Definition wordlike (s : list Z) : Prop := match s with c :: r => letter c = true /\ forallb (fun c => letter c || digit c || (c =? 36)) r = true | [] => False end.
Definition labellike (s : list Z) : Prop := s <> [] /\ (length s <= 16)%nat /\ forallb (fun c => letter c || digit c) s = true.
Definition len (s : list Z) : Z := Z.of_nat (length s).
Definition end_of_statement : token := mk newline 1 0 [].
(** a word or symbol and its token *)
Inductive lexeme : list Z -> token -> Prop :=
| LxCommand s i : wordlike s -> nth_error command_names i = Some (capitals s) -> i <> 52%nat (* DATA *) -> lexeme s (mk command (Z.of_nat i) 0 [])
| LxFunction s i : nth_error function_names i = Some (capitals s) -> lexeme s (mk function (Z.of_nat i) 0 [])
| LxSysvar s i : nth_error sysvar_names i = Some (capitals s) -> lexeme s (mk sysvar (Z.of_nat i) 0 [])
| LxOperator s i : nth_error operator_names i = Some (capitals s) -> i <> 7%nat (* the sign is written - *) -> lexeme s (mk operation (Z.of_nat i) 0 [])
| LxQuestion : lexeme (letters "?") (mk command 0 0 [])                             (* PRINT *)
| LxColon : lexeme (letters ":") end_of_statement
| LxName s : wordlike s -> (length s <= 255)%nat -> ~ In (firstn 8 (capitals s)) reserved -> lexeme s (mk name (len s) 0 s)
| LxNumber s : s <> [] -> (length s <= 255)%nat -> forallb (fun c => digit c || (c =? 46)) s = true -> lexeme s (mk number (len s) 0 s)
| LxBase s b : s <> [] -> (length s <= 253)%nat -> b <> 13 -> forallb hex s = true -> lexeme (38 :: b :: s) (mk base_number (2 + len s) 0 (38 :: b :: s))
| LxString s : (length s <= 255)%nat -> ~ In 34 s -> ~ In 13 s -> lexeme (34 :: s ++ [34]) (mk string (len s) 0 s)
| LxLabel s : labellike s -> lexeme (64 :: s) (mk label (len s) 0 s).
(** [c] written directly after [s] would be read as a part of it *)
Definition continues (s : list Z) (c : Z) : bool :=
  match s with
  | [] => false
  | a :: r =>
      if letter a then letter c || digit c || (c =? 36)
      else if digit a || (a =? 46) then digit c || (c =? 46)
      else if a =? 38 then hex c
      else if a =? 64 then letter c || digit c
      else if existsb (Z.eqb a) (letters "<=>!") && (match r with [] => true | _ => false end) then c =? 61
      else false
  end.
Definition first (l : list Z) : Z := hd 0 l.
(** a line with its end (character 13) *)
Inductive spelled : list Z -> list token -> Prop :=
| SpEnd : spelled [13] [end_of_statement]
| SpSpace l ts : spelled l ts -> spelled (32 :: l) ts
| SpLexeme s t l ts : lexeme s t -> spelled l ts -> continues s (first l) = false -> spelled (s ++ l) (t :: ts)
| SpLabel s n w l ts : capitals s = letters "LABEL" -> labellike w -> spelled l ts -> letter (first l) || digit (first l) = false ->
    spelled (s ++ repeat 32 (S n) ++ w ++ l) (mk label (len w) 0 w :: ts)
| SpOpenString s : (length s <= 255)%nat -> ~ In 34 s -> ~ In 13 s -> spelled (34 :: s ++ [13]) [mk string (len s) 0 s; end_of_statement]
| SpComment s : ~ In 13 s -> spelled (39 :: s ++ [13]) [end_of_statement]
| SpRem s r : capitals s = letters "REM" -> ~ In 13 r -> continues s (first (r ++ [13])) = false -> spelled (s ++ r ++ [13]) [mk comment 3 0 s; end_of_statement]
| SpData s r : capitals s = letters "DATA" -> ~ In 13 r -> continues s (first (r ++ [13])) = false ->
    spelled (s ++ r ++ [13]) [mk command 52 0 (r ++ [13]); end_of_statement].
