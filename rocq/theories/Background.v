(** Background layers (source/subsystem/background.c, background.h).  Arguments
    are the integer parts of the command arguments. *)
From Verif Require Import Base Strs NumText.

(** resources.h:41-43,57,66; resources.c:465: scr[0..7], each of 64*64 u16 *)
Definition BG_WIDTH : Z := 64.
Definition BG_HEIGHT : Z := 64.
Definition SCR_BANKS : Z := 4.
(** background.h:28-36 *)
Record bg_offset := { ox : Z; oy : Z; step_x : Z; step_y : Z; time : Z }.
Record bg := { page : Z; scr : list (list Z); ofs : list bg_offset (* ofs[page][layer] at 2*page+layer *) }.
Definition init_bg : bg :=
  {| page := 0; scr := repeat (repeat 0 (Z.to_nat 4096)) 8;
     ofs := repeat {| ox := 0; oy := 0; step_x := 0; step_y := 0; time := 0 |} 4 |}.

(** background.c:40-42 bg_page, as bank number *)
Definition bg_page (s : bg) (layer : Z) : nat := Z.to_nat (SCR_BANKS * page s + 2 + layer).
(** background.c:48-54 bg_index (x, y are below 128 in every call) *)
Definition bg_index (x y : Z) : Z :=
  let cx := x / 32 in let cy := y / 32 in let tx := x mod 32 in let ty := y mod 32 in
  tx + ty * 32 + cx * 1024 + cy * 1024 * (BG_WIDTH / 32).

(** reading and writing one cell of a bank; outside its 4096 entries: UB *)
Definition peek (l : list Z) (i : Z) : outcome Z :=
  if (0 <=? i) && (i <? 4096) then Ok (nth (Z.to_nat i) l 0) else UB.
Definition poke (l : list Z) (i v : Z) : outcome (list Z) :=
  if (0 <=? i) && (i <? 4096) then Ok (upd l (Z.to_nat i) v) else UB.

(** background.h:65-70 to_tiledata *)
Definition to_tiledata (chr pal h v : Z) : Z := chr + h * 1024 + v * 2048 + pal * 4096.
Inductive tile := TNum (n : Z) | TStr (ws : list Z) | TParts (chr pal h v : Z).
(** background.c:93-111 and :127-144; STACK_INT_RANGE stops at the first bad argument *)
Definition tiledata (t : tile) : outcome Z :=
  match t with
  | TNum n => Ok (n mod 65536)
  | TStr ws => let* v := str_to_number ws 16 false in Ok (FP_TO_INT v mod 65536)
  | TParts chr pal h v =>
      if (chr <? 0) || (1023 <? chr) || (pal <? 0) || (15 <? pal) || (h <? 0) || (1 <? h) || (v <? 0) || (1 <? v)
      then Err ERR_OUT_OF_RANGE else Ok (to_tiledata chr pal h v)
  end.
Definition bad_layer (layer : Z) : bool := (layer <? 0) || (1 <? layer).
Definition bank (s : bg) (layer : Z) : list Z := nth (bg_page s layer) (scr s) [].
Definition set_bank (s : bg) (layer : Z) (l : list Z) : bg :=
  {| page := page s; scr := upd (scr s) (bg_page s layer) l; ofs := ofs s |}.

(** background.c:60-62 cmd_bgpage *)
Definition cmd_bgpage (s : bg) (p : Z) : outcome bg :=
  if (p <? 0) || (1 <? p) then Err ERR_OUT_OF_RANGE else Ok {| page := p; scr := scr s; ofs := ofs s |}.
(** background.c:64-78 cmd_bgclr *)
Definition cmd_bgclr (s : bg) (layer : option Z) : outcome bg :=
  let z := repeat 0 (Z.to_nat 4096) in
  match layer with
  | None => Ok (set_bank (set_bank s 0 z) 1 z)
  | Some l => if bad_layer l then Err ERR_OUT_OF_RANGE else Ok (set_bank s l z)
  end.
(** background.c:83-113 cmd_bgput; "& 63" of an int is mod 64 *)
Definition cmd_bgput (s : bg) (layer x y : Z) (t : tile) : outcome bg :=
  if bad_layer layer then Err ERR_OUT_OF_RANGE else
  let* td := tiledata t in
  let* l := poke (bank s layer) (bg_index (x mod 64) (y mod 64)) td in
  Ok (set_bank s layer l).
(** background.c:212-251 cmd_bgread: the tile word *)
Definition bgread_word (s : bg) (layer x y : Z) : outcome Z :=
  if bad_layer layer then Err ERR_OUT_OF_RANGE
  else peek (bank s layer) (bg_index (x mod 64) (y mod 64)).
(** background.c:224-227 / 243-250: numeric result, or CHR, PAL, H, V *)
Definition bgread_num (s : bg) (layer x y : Z) : outcome Z :=
  let* w := bgread_word s layer x y in Ok (INT_TO_FP w).
Definition bgread_parts (s : bg) (layer x y : Z) : outcome (Z * Z * Z * Z) :=
  let* w := bgread_word s layer x y in
  Ok (INT_TO_FP (w mod 1024), INT_TO_FP (w / 4096), INT_TO_FP ((w / 1024) mod 2), INT_TO_FP ((w / 2048) mod 2)).
(** background.c:230-240: the four hexadecimal digits *)
Definition hex_digit (n : Z) : Z := if n <? 10 then 48 + n else 55 + n.
Definition bgread_str (s : bg) (layer x y : Z) : outcome (list Z) :=
  let* w := bgread_word s layer x y in
  Ok [hex_digit (w / 4096); hex_digit ((w / 256) mod 16); hex_digit ((w / 16) mod 16); hex_digit (w mod 16)].

Definition clamp63 (v : Z) : Z := let v := if v <? 0 then 0 else v in if v >? 63 then 63 else v.
(** a for loop from a to b *)
Definition zrange (a b : Z) : list Z := map (fun i => a + Z.of_nat i) (seq 0 (Z.to_nat (b - a + 1))).
(** the nested loops of BGFILL/BGCOPY, row by row *)
Definition coords (x1 y1 x2 y2 : Z) : list (Z * Z) :=
  flat_map (fun y => map (fun x => (x, y)) (zrange x1 x2)) (zrange y1 y2).
Fixpoint fill_loop (l : list Z) (cs : list (Z * Z)) (td : Z) : outcome (list Z) :=
  match cs with [] => Ok l | (x, y) :: t => let* l := poke l (bg_index x y) td in fill_loop l t td end.
(** background.c:118-172 cmd_bgfill; the tile arguments are checked before the clamping *)
Definition cmd_bgfill (s : bg) (layer x1 y1 x2 y2 : Z) (t : tile) : outcome bg :=
  if bad_layer layer then Err ERR_OUT_OF_RANGE else
  let* td := tiledata t in
  let x1 := clamp63 x1 in let x2 := clamp63 x2 in let y1 := clamp63 y1 in let y2 := clamp63 y2 in
  let '(x1, x2) := if x1 >? x2 then (x2, x1) else (x1, x2) in
  let '(y1, y2) := if y1 >? y2 then (y2, y1) else (y1, y2) in
  let* l := fill_loop (bank s layer) (coords x1 y1 x2 y2) td in
  Ok (set_bank s layer l).
Fixpoint copy_loop (l : list Z) (cs : list (Z * Z)) (dx dy : Z) : outcome (list Z) :=
  match cs with
  | [] => Ok l
  | (x, y) :: t => let* v := peek l (bg_index x y) in let* l := poke l (bg_index (x + dx) (y + dy)) v in copy_loop l t dx dy
  end.
(** background.c:253-307 cmd_bgcopy *)
Definition cmd_bgcopy (s : bg) (layer x1 y1 x2 y2 x3 y3 : Z) : outcome bg :=
  if bad_layer layer then Err ERR_OUT_OF_RANGE else
  let x1 := clamp63 x1 in let x2 := clamp63 x2 in let x3 := clamp63 x3 in
  let y1 := clamp63 y1 in let y2 := clamp63 y2 in let y3 := clamp63 y3 in
  let '(x1, x2) := if x1 >? x2 then (x2, x1) else (x1, x2) in
  let '(y1, y2) := if y1 >? y2 then (y2, y1) else (y1, y2) in
  let cs := coords x1 y1 x2 y2 in
  let* l := copy_loop (bank s layer)
              (if (y3 <? y1) || (y3 =? y1) && (x3 <? x1) then cs else rev cs) (x3 - x1) (y3 - y1) in
  Ok (set_bank s layer l).

(** background.c:174-197 cmd_bgofs: fixed point x, y; int overflow is UB, "/" truncates *)
Definition set_ofs (s : bg) (layer : Z) (o : bg_offset) : bg :=
  {| page := page s; scr := scr s; ofs := upd (ofs s) (Z.to_nat (2 * page s + layer)) o |}.
Definition get_ofs (s : bg) (layer : Z) : bg_offset :=
  nth (Z.to_nat (2 * page s + layer)) (ofs s) {| ox := 0; oy := 0; step_x := 0; step_y := 0; time := 0 |}.
Definition cmd_bgofs (s : bg) (layer x y : Z) (t : option Z) : outcome bg :=
  if bad_layer layer then Err ERR_OUT_OF_RANGE else
  let b := get_ofs s layer in
  match t with
  | None => Ok (set_ofs s layer {| ox := x; oy := y; step_x := step_x b; step_y := step_y b; time := 0 |})
  | Some t =>
      if t <? 0 then Err ERR_OUT_OF_RANGE
      else if t =? 0 then Ok (set_ofs s layer {| ox := x; oy := y; step_x := step_x b; step_y := step_y b; time := 0 |})
      else if s32b (x - ox b) && s32b (y - oy b)
      then Ok (set_ofs s layer {| ox := ox b; oy := oy b; step_x := Z.quot (x - ox b) t; step_y := Z.quot (y - oy b) t; time := t |})
      else UB
  end.
(** background.c:27-38 step_background, one frame of one layer *)
Definition step_ofs (b : bg_offset) : bg_offset :=
  if time b >? 0
  then {| ox := ox b + step_x b; oy := oy b + step_y b; step_x := step_x b; step_y := step_y b; time := time b - 1 |}
  else b.
Definition step_background (s : bg) : bg := {| page := page s; scr := scr s; ofs := map step_ofs (ofs s) |}.
(** background.c:309-315 func_bgchk *)
Definition func_bgchk (s : bg) (layer : Z) : outcome Z :=
  if bad_layer layer then Err ERR_OUT_OF_RANGE else Ok (INT_TO_FP (b2z (time (get_ofs s layer) >? 0))).

(** one background command of a program, or a frame passing between commands *)
Inductive bg_cmd :=
| BgPage (p : Z) | BgClr (l : option Z) | BgPut (l x y : Z) (t : tile) | BgFill (l x1 y1 x2 y2 : Z) (t : tile)
| BgCopy (l x1 y1 x2 y2 x3 y3 : Z) | BgOfs (l x y : Z) (t : option Z) | Frame.
Definition bg_do (s : bg) (c : bg_cmd) : outcome bg :=
  match c with
  | BgPage p => cmd_bgpage s p | BgClr l => cmd_bgclr s l | BgPut l x y t => cmd_bgput s l x y t
  | BgFill l x1 y1 x2 y2 t => cmd_bgfill s l x1 y1 x2 y2 t | BgCopy l x1 y1 x2 y2 x3 y3 => cmd_bgcopy s l x1 y1 x2 y2 x3 y3
  | BgOfs l x y t => cmd_bgofs s l x y t | Frame => Ok (step_background s)
  end.
Fixpoint bg_run (s : bg) (cs : list bg_cmd) : outcome bg :=
  match cs with [] => Ok s | c :: t => let* s := bg_do s c in bg_run s t end.
