(** Text console (source/subsystem/console.c).  text[24][32] and color[24][32]
    are contiguous, so each is a list of 768 cells, row by row. *)
From Verif Require Import Base Strs.

Definition CW : Z := 32.   (* console.h:14 CONSOLE_WIDTH *)
Definition CH : Z := 24.   (* console.h:16 CONSOLE_HEIGHT *)
(** console.h:31-63 *)
Record console := { cx : Z; cy : Z; tabstep : Z; sys_tabstep : Z; col : Z; text : list Z; color : list Z }.
(** console.c:47-54 alloc_console (zeroed) and init_console *)
Definition init_console : console :=
  {| cx := 0; cy := 0; tabstep := 4; sys_tabstep := INT_TO_FP 4; col := 0;
     text := repeat 0 768; color := repeat 0 768 |}.

Definition set_cursor (c : console) (x y : Z) : console :=
  {| cx := x; cy := y; tabstep := tabstep c; sys_tabstep := sys_tabstep c; col := col c; text := text c; color := color c |}.
(** body of the loop in con_scroll: rows 1..23 move up, the last row is cleared *)
Definition scroll_once (c : console) : console :=
  {| cx := cx c; cy := cy c - 1; tabstep := tabstep c; sys_tabstep := sys_tabstep c; col := col c;
     text := skipn 32 (text c) ++ repeat 0 32; color := skipn 32 (color c) ++ repeat (col c) 32 |}.
(** console.c:23-39 con_scroll.  y is an 8-bit counter, so the loop ends; [fuel] is at least y. *)
Fixpoint scroll_loop (fuel : nat) (c : console) : console :=
  match fuel with
  | O => c
  | S n => if cy c >=? CH then scroll_loop n (scroll_once c) else c
  end.
Definition con_scroll (c : console) : console := scroll_loop (Z.to_nat (cy c)) c.
(** console.c:41-45 con_newline (y is uint_fast8_t, 8 bits) *)
Definition con_newline (c : console) (scroll : bool) : console :=
  let c := set_cursor c 0 (u8 (cy c + 1)) in if scroll then con_scroll c else c.
(** console.c:60-70 con_put; a failed assertion is UB *)
Definition con_put (c : console) (w : Z) : outcome console :=
  if (cx c <? CW) && (cy c <? CH) then
    let i := Z.to_nat (cy c * CW + cx c) in
    let c := {| cx := u8 (cx c + 1); cy := cy c; tabstep := tabstep c; sys_tabstep := sys_tabstep c; col := col c;
                text := upd (text c) i w; color := upd (color c) i (col c) |} in
    Ok (if cx c >=? CW then con_newline c false else c)
  else UB.
(** console.c:72-83 con_puts on the wide characters of the string *)
Fixpoint con_puts_loop (c : console) (ws : list Z) : outcome console :=
  match ws with
  | [] => Ok c
  | w :: t => let* c := con_put c w in
      con_puts_loop (match t with [] => c | _ => if cy c =? CH then con_scroll c else c end) t
  end.
Definition con_puts (c : console) (ws : list Z) : outcome console :=
  con_puts_loop (if cy c >=? CH then con_scroll c else c) ws.

(** the do-while of console.c:129-131; [fuel] iterations at most, the row ends after 32 *)
Fixpoint tab_loop (fuel : nat) (c : console) : outcome console :=
  let* c := con_put c (to_wide 32) in
  if tabstep c =? 0 then UB
  else if Z.rem (cx c) (tabstep c) =? 0 then Ok c
  else match fuel with O => UB | S n => tab_loop n c end.
(** PRINT items: the text of a number or string, a comma, a semicolon *)
Inductive item := Text (ws : list Z) | Comma | Semicolon.
(** console.c:112-150 cmd_print *)
Definition print_item (c : console) (i : item) : outcome console :=
  match i with
  | Text ws => con_puts c ws
  | Comma => tab_loop 40 (if (cx c =? 0) && (cy c =? CH) then con_scroll c else c)
  | Semicolon => Ok c
  end.
Fixpoint print_items (c : console) (l : list item) : outcome console :=
  match l with [] => Ok c | i :: t => let* c := print_item c i in print_items c t end.
Definition is_op (i : item) : bool := match i with Text _ => false | _ => true end.
Definition cmd_print (c : console) (l : list item) : outcome console :=
  let* c := print_items c l in
  Ok (if match last l (Text []) with Text _ => true | _ => false end then con_newline c true else c).

(** console.c:152-163 cmd_color with one or two integer arguments *)
Definition cmd_color (c : console) (fg : Z) (bg : option Z) : console :=
  let v := match bg with
           | Some b => u8 (Z.lor (u8 fg) (u8 (b * 16)))
           | None => u8 (Z.lor (Z.land (col c) 240) fg)
           end in
  {| cx := cx c; cy := cy c; tabstep := tabstep c; sys_tabstep := sys_tabstep c; col := v; text := text c; color := color c |}.
(** console.c:165-177 cmd_locate, integer parts of the arguments *)
Definition cmd_locate (c : console) (x y : Z) : console :=
  if (x >=? 0) && (y >=? 0) && (x <? CW) && (y <? CH) then set_cursor c x y else c.
(** console.c:179-190 cmd_cls (the panel's own text is not modelled) *)
Definition cmd_cls (c : console) : console :=
  {| cx := 0; cy := 0; tabstep := tabstep c; sys_tabstep := sys_tabstep c; col := col c;
     text := repeat 0 768; color := repeat (col c) 768 |}.
(** console.c:505-511 syschk_tabstep, after TABSTEP=v was stored *)
Definition set_tabstep (c : console) (v : Z) : console :=
  let t := FP_TO_INT v in let t := if t <? 1 then 1 else t in let t := if t >? 16 then 16 else t in
  {| cx := cx c; cy := cy c; tabstep := t; sys_tabstep := v; col := col c; text := text c; color := color c |}.
(** console.c:473-485 func_chkchr *)
Definition func_chkchr (c : console) (x y : Z) : Z :=
  INT_TO_FP (if (x >=? 0) && (x <? CW) && (y >=? 0) && (y <? CH)
             then to_char (nth (Z.to_nat (y * CW + x)) (text c) 0) else -1).
(** console.c:487-497 CSRX, CSRY *)
Definition sys_csrx (c : console) : Z := INT_TO_FP (cx c).
Definition sys_csry (c : console) : Z := INT_TO_FP (cy c).
(** console.c:288-294 con_prompt of INPUT and LINPUT *)
Definition con_prompt (c : console) (prompt : option (list Z)) : outcome console :=
  let* c := match prompt with Some ws => con_puts c ws | None => Ok c end in
  let* c := con_put c (to_wide 63) in
  Ok (if cx c =? 0 then c else con_newline c true).
