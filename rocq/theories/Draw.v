(** The machine of Ask.v with the graphics pages of Graphics.v (source/subsystem/graphics.c): GPAGE, GCOLOR, GDRAWMD, GPRIO, GCLS, GPSET, GFILL, GBOX, GLINE, GCOPY and GSPOIT
    as commands and a function of running programs.

    Simplifications: a number of arguments no form of the command has, or a text for a number, is UB (the code reads what happens to be in the slot, GLINE reports
    Wrong arg count); all arguments are converted before the first is used, which changes nothing as the conversion has no effect and reports nothing. *)
From Verif Require Import Base Labels Tokens Runner Vars Memory Resources Data Machine HostData MachineData LineInput Ask Graphics.

(** tokens.c:20-52 *)
Definition CMD_GBOX := 57. Definition CMD_GCLS := 59. Definition CMD_GCOLOR := 60. Definition CMD_GCOPY := 61. Definition CMD_GDRAWMD := 62. Definition CMD_GFILL := 63. Definition CMD_GLINE := 64.
Definition CMD_GPAGE := 65. Definition CMD_GPSET := 67. Definition CMD_GPRIO := 68. Definition FUNC_GSPOIT := 14.
Definition drawing (c : Z) : bool := existsb (Z.eqb c) [CMD_GBOX; CMD_GCLS; CMD_GCOLOR; CMD_GCOPY; CMD_GDRAWMD; CMD_GFILL; CMD_GLINE; CMD_GPAGE; CMD_GPSET; CMD_GPRIO].
(** stack.h:15-22: the arguments *)
Fixpoint nums (m : mstate) (es : list ment) : outcome (list Z) := match es with [] => Ok [] | e :: es => let* v := mnum m e in let* vs := nums m es in Ok (v :: vs) end.
(** how a command ends: graphics.c, ERROR of error.h *)
Definition finished (r : gfx * fin) : outcome gfx := match snd r with Done => Ok (fst r) | Raised e => Err e | Crash => UB end.
(** graphics.c:26-221, 320-419: the forms of the commands by the number of arguments *)
Definition draw_do (c : Z) (vs : list Z) (g : gfx) : outcome gfx :=
  if c =? CMD_GPAGE then match vs with [s] => finished (cmd_gpage g s None) | [s; d; v] => finished (cmd_gpage g s (Some (d, v))) | _ => UB end
  else if c =? CMD_GCOLOR then match vs with [k] => finished (cmd_gcolor g k) | _ => UB end
  else if c =? CMD_GDRAWMD then match vs with [k] => finished (cmd_gdrawmd g k) | _ => UB end
  else if c =? CMD_GPRIO then match vs with [k] => finished (cmd_gprio g k) | _ => UB end
  else if c =? CMD_GCLS then match vs with [] => finished (cmd_gcls g None) | [k] => finished (cmd_gcls g (Some k)) | _ => UB end
  else if c =? CMD_GPSET then match vs with [x; y] => finished (cmd_gpset g x y None) | [x; y; k] => finished (cmd_gpset g x y (Some k)) | _ => UB end
  else if c =? CMD_GFILL then match vs with [x; y; u; v] => finished (cmd_gfill g x y u v None) | [x; y; u; v; k] => finished (cmd_gfill g x y u v (Some k)) | _ => UB end
  else if c =? CMD_GBOX then match vs with [x; y; u; v] => finished (cmd_gbox g x y u v None) | [x; y; u; v; k] => finished (cmd_gbox g x y u v (Some k)) | _ => UB end
  else if c =? CMD_GCOPY then
    match vs with
    | [x; y; u; v; s; t; m] => finished (cmd_gcopy g None x y u v s t m)
    | [p; x; y; u; v; s; t; m] => finished (cmd_gcopy g (Some p) x y u v s t m)
    | _ => UB
    end
  else match vs with [x; y; u; v] => finished (cmd_gline g x y u v None) | [x; y; u; v; k] => finished (cmd_gline g x y u v (Some k)) | _ => UB end.
(** graphics.c:296-318 *)
Definition look_do (vs : list Z) (g : gfx) : outcome Z :=
  match vs with [x; y] => func_gspoit g None x y | [p; x; y] => func_gspoit g (Some p) x y | _ => UB end.

(** a host with one more function *)
Section Fun.
Variable h : host.
Variable f : Z -> list (entry (Loc h)) -> St h -> option (outcome Z).
Definition with_fun : host :=
  mkHost (St h) (Loc h) (same h) (getn h) (setn h) (hvar h) (harr h) (hdim h) (hun h) (hbin h) (hsassign h)
    (fun c vs s => match f c vs s with Some x => let* v := x in Ok (EN v, s) | None => hfun h c vs s end) (hsys h) (hcheck h) (hcmd h).
End Fun.
Section Draw.
Variable S : Type.
Variable ms : S -> mstate.
Definition draw_cmd (c : Z) (args : list ment) (st : S * gfx) : option (outcome (S * gfx)) :=
  if drawing c then Some (let* vs := nums (ms (fst st)) args in let* g := draw_do c vs (snd st) in Ok (fst st, g)) else None.
Definition draw_fun (c : Z) (args : list ment) (st : S * gfx) : option (outcome Z) :=
  if c =? FUNC_GSPOIT then Some (let* vs := nums (ms (fst st)) args in look_do vs (snd st)) else None.
End Draw.
Notation ask_state := ((mstate * reader) * list keys)%type.
Definition machine_draw (code : list Z) (tbl : Labels.labels) : host :=
  with_fun (attach (machine_ask code tbl) gfx (draw_cmd ask_state (fun s => fst (fst s)))) (draw_fun ask_state (fun s => fst (fst s))).
Definition drtext (st : ask_state * gfx) (l : mloc) : list Z := atext (fst st) l.
Definition machine_draw_start (max elements : Z) (ks : list keys) (g : gfx) : ask_state * gfx := (machine_ask_start max elements ks, g).
