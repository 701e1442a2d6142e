(** Clock commands and system variables (source/subsystem/sysvars.c, source/system.c) and the commands
    that take dates and times apart (source/interpreter/strfuncs.c). *)
From Verif Require Import Base Strs.

(** sysvars.c:151-155 sys_maincntl, :157-161 sys_maincnth; [t] is the 64-bit frame counter (timers.c).
    INT_TO_FP converts its argument to uint32 first. *)
Definition sys_maincntl (t : Z) : Z := INT_TO_FP (Z.land t 1048575).                         (* & 0xfffff *)
Definition sys_maincnth (t : Z) : Z := INT_TO_FP (Z.shiftr (Z.land t 1099510579200) 20).     (* & 0xfffff00000 *)

(** system.c:141-149 cmd_vsync and :151-170 cmd_wait, which are the same loop.  [clock k] is the k-th
    reading of the frame counter after the first, [broken k] tells whether another thread has raised an
    error (Break) when it is examined.  Returns the number of readings; None: still waiting. *)
Fixpoint wait_loop (fuel : nat) (start delay : Z) (clock : nat -> Z) (broken : nat -> bool) (k : nat) : option nat :=
  if (clock k - start <? delay) && negb (broken k)
  then match fuel with O => None | S f => wait_loop f start delay clock broken (S k) end
  else Some k.
Definition cmd_wait (fuel : nat) (start v : Z) (clock : nat -> Z) (broken : nat -> bool) : option nat :=
  wait_loop fuel start (FP_TO_INT v) clock broken 0.

(** sysvars.c:40-65 sys_date, :67-92 sys_time: fields of localtime; each byte is stored as a u8.
    C's / and % truncate. *)
Definition digit (n : Z) : Z := u8 (n + 48).
Definition sys_date (year month day : Z) : list Z :=
  [digit (Z.quot year 1000); digit (Z.rem (Z.quot year 100) 10); digit (Z.rem (Z.quot year 10) 10); digit (Z.rem year 10);
   47; digit (Z.quot month 10); digit (Z.rem month 10); 47; digit (Z.quot day 10); digit (Z.rem day 10)].
Definition sys_time (hour min sec : Z) : list Z :=
  [digit (Z.quot hour 10); digit (Z.rem hour 10); 58; digit (Z.quot min 10); digit (Z.rem min 10);
   58; digit (Z.quot sec 10); digit (Z.rem sec 10)].

(** strs.c:37-39 is_number *)
Definition is_number (c : Z) : bool := (48 <=? c) && (c <=? 57).
(** strfuncs.c:287-291, :318-322: the format check; each character goes through a u8 *)
Fixpoint check_format (s : str) (format : list Z) (sep i : Z) : outcome unit :=
  match format with
  | [] => Ok tt
  | f :: r =>
      let* w := str_at_char s i in let c := u8 w in
      if (f =? 78) && negb (is_number c) then Err ERR_SYNTAX
      else if (f =? sep) && negb (c =? sep) then Err ERR_SYNTAX
      else check_format s r sep (i + 1)
  end.
(** strfuncs.c:278-308 cmd_dtread: the values stored in the three variables, in this order.  The bytes
    at [str_at] are read: for a wide string that is the low byte (little endian). *)
Definition date_format : list Z := [78; 78; 78; 78; 47; 78; 78; 47; 78; 78].    (* "NNNN/NN/NN" *)
Definition cmd_dtread (s : str) : outcome (Z * Z * Z) :=
  if negb (str_len s =? 10) then Err ERR_SYNTAX else
  let* _ := check_format s date_format 47 0 in
  let at_ i := let* w := str_at_char s i in Ok (u8 w - 48) in
  let* a := at_ 0 in let* b := at_ 1 in let* c := at_ 2 in let* d := at_ 3 in
  let* e := at_ 5 in let* f := at_ 6 in let* g := at_ 8 in let* h := at_ 9 in
  Ok ((a * 1000 + b * 100 + c * 10 + d) * 4096, (e * 10 + f) * 4096, (g * 10 + h) * 4096).
(** strfuncs.c:312-341 cmd_tmread: here the whole characters are used *)
Definition time_format : list Z := [78; 78; 58; 78; 78; 58; 78; 78].            (* "NN:NN:NN" *)
Definition cmd_tmread (s : str) : outcome (Z * Z * Z) :=
  if negb (str_len s =? 8) then Err ERR_SYNTAX else
  let* _ := check_format s time_format 58 0 in
  let at_ i := let* w := str_at_char s i in Ok (w - 48) in
  let* a := at_ 0 in let* b := at_ 1 in let* c := at_ 3 in let* d := at_ 4 in let* e := at_ 6 in let* f := at_ 7 in
  Ok ((10 * a + b) * 4096, (10 * c + d) * 4096, (10 * e + f) * 4096).
