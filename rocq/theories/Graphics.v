(** The graphics pages (source/subsystem/graphics.c, graphics.h).  GCIRCLE (floating point) is not modelled. *)
From Coq Require Import String Ascii.
From Verif Require Import Base Strs Memory Resources.
Open Scope Z_scope.

Definition GRP_WIDTH : Z := 256. Definition GRP_HEIGHT : Z := 192. Definition GRP_SIZE : Z := 49152.
(** the bytes of a page, by index *)
Definition page := Z -> Z.
(** graphics.h:39-47 grp_index; the coordinates are converted to uint_fast8_t (8 bits) *)
Definition grp_index (x y : Z) : Z :=
  let x := u8 x in let y := u8 y in
  x mod 8 + y mod 8 * 8 + (x / 8) mod 8 * 64 + (y / 8) mod 8 * 512 + x / 64 * 4096 + y / 64 * 16384.
Definition set_byte (p : page) (i v : Z) : page := fun j => if j =? i then v else p j.
Definition on_page (x y : Z) : bool := (x >=? 0) && (x <? GRP_WIDTH) && (y >=? 0) && (y <? GRP_HEIGHT).
(** graphics.h:49-59 grp_pixel *)
Definition grp_pixel (p : page) (x y color : Z) (mode : bool) : page :=
  if on_page x y then set_byte p (grp_index x y) (if mode then Z.lxor (p (grp_index x y)) color else color) else p.

(** graphics.h:18-34 and the pages of resources.h:147 *)
Record gfx := mkG { screen : Z; color : Z; drawmode : bool;
                    drawpage : Z -> Z; displaypage : Z -> Z; prio : Z -> Z; pages : Z -> page }.
Definition upd2 {A} (f : Z -> A) (i : Z) (v : A) : Z -> A := fun j => if j =? i then v else f j.
Definition set_screen g v := mkG v (color g) (drawmode g) (drawpage g) (displaypage g) (prio g) (pages g).
Definition set_color g v := mkG (screen g) v (drawmode g) (drawpage g) (displaypage g) (prio g) (pages g).
Definition set_drawmode g v := mkG (screen g) (color g) v (drawpage g) (displaypage g) (prio g) (pages g).
Definition set_drawpage g v := mkG (screen g) (color g) (drawmode g) (upd2 (drawpage g) (screen g) v) (displaypage g) (prio g) (pages g).
Definition set_displaypage g v := mkG (screen g) (color g) (drawmode g) (drawpage g) (upd2 (displaypage g) (screen g) v) (prio g) (pages g).
Definition set_prio g v := mkG (screen g) (color g) (drawmode g) (drawpage g) (displaypage g) (upd2 (prio g) (screen g) v) (pages g).
(** graphics.c:22-24 grp_drawpage *)
Definition draw_no (g : gfx) : Z := drawpage g (screen g).
Definition canvas (g : gfx) : page := pages g (draw_no g).
Definition set_canvas (g : gfx) (p : page) : gfx :=
  mkG (screen g) (color g) (drawmode g) (drawpage g) (displaypage g) (prio g) (upd2 (pages g) (draw_no g) p).
(** graphics.c:11-20 *)
Definition init_graphics (c : Z) (ps : Z -> page) : gfx :=
  mkG 0 c false (fun s => s) (fun s => s) (fun _ => 3) ps.

(** stack.h:27 STACK_INT_RANGE *)
Definition int_range (v lo hi : Z) : option Z := let n := FP_TO_INT v in if (n <? lo) || (n >? hi) then None else Some n.
Definition in_range (g : gfx) (v lo hi : Z) (k : Z -> gfx * fin) : gfx * fin :=
  match int_range v lo hi with None => (g, Raised ERR_OUT_OF_RANGE) | Some n => k n end.
(** the optional colour argument *)
Definition with_color (g : gfx) (c : option Z) (k : Z -> gfx * fin) : gfx * fin :=
  match c with None => k (color g) | Some c => in_range g c 0 255 k end.

(** graphics.c:26-34 cmd_gpage *)
Definition cmd_gpage (g : gfx) (s : Z) (pgs : option (Z * Z)) : gfx * fin :=
  in_range g s 0 1 (fun s => let g := set_screen g s in
    match pgs with
    | None => (g, Done)
    | Some (d, v) => in_range g d 0 3 (fun d => let g := set_drawpage g d in in_range g v 0 3 (fun v => (set_displaypage g v, Done)))
    end).
(** graphics.c:36-38, :215-217, :219-221 *)
Definition cmd_gcolor (g : gfx) (c : Z) : gfx * fin := in_range g c 0 255 (fun c => (set_color g c, Done)).
Definition cmd_gdrawmd (g : gfx) (m : Z) : gfx * fin := in_range g m 0 1 (fun m => (set_drawmode g (negb (m =? 0)), Done)).
Definition cmd_gprio (g : gfx) (v : Z) : gfx * fin := in_range g v 0 3 (fun v => (set_prio g v, Done)).
(** graphics.c:40-53 cmd_gcls *)
Definition cmd_gcls (g : gfx) (c : option Z) : gfx * fin :=
  with_color g c (fun c => (set_canvas g (fun i => if (0 <=? i) && (i <? GRP_SIZE) then c else canvas g i), Done)).

(** a, a+1, .., b *)
Definition zrange (a b : Z) : list Z := map (fun k => a + Z.of_nat k) (seq 0 (Z.to_nat (b - a + 1))).
(** drawing a list of points, first to last *)
Definition plot (p : page) (c : Z) (mode : bool) (pts : list (Z * Z)) : page :=
  fold_left (fun p q => grp_pixel p (fst q) (snd q) c mode) pts p.
Definition clamp (v hi : Z) : Z := if v <? 0 then 0 else if v >? hi then hi else v.

(** graphics.c:55-83 cmd_gfill *)
Definition fill_points (x1 y1 x2 y2 : Z) : list (Z * Z) :=
  flat_map (fun x => map (fun y => (x, y)) (zrange y1 y2)) (zrange x1 x2).
Definition cmd_gfill (g : gfx) (x1 y1 x2 y2 : Z) (c : option Z) : gfx * fin :=
  let x1 := clamp (FP_TO_INT x1) GRP_WIDTH in let y1 := clamp (FP_TO_INT y1) GRP_HEIGHT in
  let x2 := clamp (FP_TO_INT x2) GRP_WIDTH in let y2 := clamp (FP_TO_INT y2) GRP_HEIGHT in
  with_color g c (fun c => (set_canvas g (plot (canvas g) c (drawmode g) (fill_points x1 y1 x2 y2)), Done)).
(** graphics.c:85-126 cmd_gbox *)
Definition box_points (x1 y1 x2 y2 : Z) : list (Z * Z) :=
  map (fun x => (x, y1)) (zrange x1 x2) ++ map (fun y => (x1, y)) (zrange y1 y2) ++
  map (fun x => (x, y2)) (zrange x1 x2) ++ map (fun y => (x2, y)) (zrange y1 y2).
Definition cmd_gbox (g : gfx) (x1 y1 x2 y2 : Z) (c : option Z) : gfx * fin :=
  let x1 := clamp (FP_TO_INT x1) GRP_WIDTH in let y1 := clamp (FP_TO_INT y1) GRP_HEIGHT in
  let x2 := clamp (FP_TO_INT x2) GRP_WIDTH in let y2 := clamp (FP_TO_INT y2) GRP_HEIGHT in
  with_color g c (fun c => (set_canvas g (plot (canvas g) c (drawmode g) (box_points x1 y1 x2 y2)), Done)).

(** graphics.c:128-170 draw_line.  [slope]: 64-bit division truncates, the shift rounds down.  The product
    slope*(x-x1) is a 32-bit int; it grows with x, so it overflows iff it does at the last point. *)
Definition slope (d n : Z) : Z := Z.quot (d * 2 ^ 32) n / 2 ^ 20.
Definition minor (sl k : Z) : Z := FP_TO_INT (sl * k + 2048).
Definition line_points (x1 y1 x2 y2 : Z) : outcome (list (Z * Z)) :=
  if Z.abs (x2 - x1) >=? Z.abs (y2 - y1) then
    if (x1 =? x2) && (y1 =? y2) then Ok [(x1, y1)] else
    let sl := slope (y2 - y1) (x2 - x1) in
    let '(x1, y1, x2, y2) := if x1 >? x2 then (x2, y2, x1, y1) else (x1, y1, x2, y2) in
    if s32b (sl * (x2 - x1) + 2048) then Ok (map (fun x => (x, minor sl (x - x1) + y1)) (zrange x1 x2)) else UB
  else
    let sl := slope (x2 - x1) (y2 - y1) in
    let '(x1, y1, x2, y2) := if y1 >? y2 then (x2, y2, x1, y1) else (x1, y1, x2, y2) in
    if s32b (sl * (y2 - y1) + 2048) then Ok (map (fun y => (minor sl (y - y1) + x1, y)) (zrange y1 y2)) else UB.
(** graphics.c:176-195 cmd_gline *)
Definition cmd_gline (g : gfx) (x1 y1 x2 y2 : Z) (c : option Z) : gfx * fin :=
  with_color g c (fun c =>
    match line_points (FP_TO_INT x1) (FP_TO_INT y1) (FP_TO_INT x2) (FP_TO_INT y2) with
    | Ok pts => (set_canvas g (plot (canvas g) c (drawmode g) pts), Done)
    | _ => (g, Crash)
    end).
(** graphics.c:197-213 cmd_gpset; STACK_INT_RANGE_SILENT returns before the colour is looked at *)
Definition cmd_gpset (g : gfx) (x y : Z) (c : option Z) : gfx * fin :=
  let x := FP_TO_INT x in let y := FP_TO_INT y in
  if (x <? 0) || (x >? 255) then (g, Done) else if (y <? 0) || (y >? 191) then (g, Done) else
  with_color g c (fun c => (set_canvas g (grp_pixel (canvas g) x y c (drawmode g)), Done)).

(** graphics.c:296-318 func_gspoit *)
Definition func_gspoit (g : gfx) (pg : option Z) (x y : Z) : outcome Z :=
  let x := FP_TO_INT x in let y := FP_TO_INT y in
  let get n := if (x >=? GRP_WIDTH) || (x <? 0) || (y <? 0) || (y >=? GRP_HEIGHT) then Ok (- INT_TO_FP 1)
               else Ok (INT_TO_FP (pages g n (grp_index x y))) in
  match pg with
  | None => get (draw_no g)
  | Some pg => match int_range pg 0 3 with None => Err ERR_OUT_OF_RANGE | Some n => get n end
  end.

(** graphics.c:320-419 cmd_gcopy.  [sp]: the source page given.  The source pixel is read when its turn
    comes, from the page as it is then. *)
Definition copy_one (src dest : Z) (mode : bool) (x1 y1 x3 y3 : Z) (ps : Z -> page) (q : Z * Z) : Z -> page :=
  let '(x, y) := q in
  let v := if on_page x y then ps src (grp_index x y) else 0 in
  let dx := x - x1 + x3 in let dy := y - y1 + y3 in
  if (mode || negb (v =? 0)) && on_page dx dy then upd2 ps dest (set_byte (ps dest) (grp_index dx dy) v) else ps.
Definition copy_order (x1 y1 x2 y2 x3 y3 : Z) : list (Z * Z) :=
  let rows := flat_map (fun y => map (fun x => (x, y)) (zrange x1 x2)) (zrange y1 y2) in
  if (y3 <? y1) || ((y3 =? y1) && (x3 <? x1)) then rows else rev rows.
Definition cmd_gcopy (g : gfx) (sp : option Z) (x1 y1 x2 y2 x3 y3 mode : Z) : gfx * fin :=
  let go src :=
    let '(x1, x2) := (let a := FP_TO_INT x1 in let b := FP_TO_INT x2 in if a >? b then (b, a) else (a, b)) in
    let '(y1, y2) := (let a := FP_TO_INT y1 in let b := FP_TO_INT y2 in if a >? b then (b, a) else (a, b)) in
    let x3 := FP_TO_INT x3 in let y3 := FP_TO_INT y3 in
    (mkG (screen g) (color g) (drawmode g) (drawpage g) (displaypage g) (prio g)
       (fold_left (copy_one src (draw_no g) (negb (FP_TO_INT mode =? 0)) x1 y1 x3 y3) (copy_order x1 y1 x2 y2 x3 y3) (pages g)), Done) in
  match sp with None => go (draw_no g) | Some p => in_range g p 0 3 go end.

(** ** GPAINT (graphics.c:449-540) *)
(** graphics.c:453-457 inside *)
Definition inside (p : page) (x y match_ : Z) : bool :=
  if (x <? 0) || (x >=? GRP_WIDTH) || (y <? 0) || (y >=? GRP_HEIGHT) then false
  else if match_ >=? 0 then p (grp_index x y) =? match_ else negb (p (grp_index x y) =? - match_ - 1).
(** graphics.c:461-475 the packed stack; the top is the head *)
Definition pack4 (x1 x2 y dy : Z) : Z :=
  u32 (Z.lor (Z.lor (Z.lor x1 (Z.shiftl x2 8)) (Z.shiftl y 16)) (Z.shiftl (b2z (dy >? 0)) 24)).
Definition unpack4 (v : Z) : Z * Z * Z * Z :=
  (Z.land v 255, Z.shiftr (Z.land v 65280) 8, Z.shiftr (Z.land v 16711680) 16, if Z.land v 16777216 =? 0 then -1 else 1).
Inductive painted := Painting (p : page) (s : list Z) | Overflow (p : page).
Definition push_span (st : painted) (x1 x2 y dy : Z) : painted :=
  match st with
  | Painting p s => if (256 <=? length s)%nat then Overflow p else Painting p (pack4 x1 x2 y dy :: s)
  | o => o
  end.
(** graphics.c:513-516: the loop to the left; [x] ends at the left end of the span.  At most 256 turns. *)
Fixpoint paint_left (n : nat) (p : page) (x y m c : Z) : page * Z :=
  match n with
  | O => (p, x)
  | S n => if inside p (x - 1) y m then paint_left n (set_byte p (grp_index (x - 1) y) c) (x - 1) y m c else (p, x)
  end.
(** graphics.c:522-525: to the right *)
Fixpoint paint_right (n : nat) (p : page) (x y m c : Z) : page * Z :=
  match n with
  | O => (p, x)
  | S n => if inside p x y m then paint_right n (set_byte p (grp_index x y) c) (x + 1) y m c else (p, x)
  end.
(** graphics.c:533-535: to the next pixel inside *)
Fixpoint paint_skip (n : nat) (p : page) (x x2 y m : Z) : Z :=
  match n with
  | O => x
  | S n => if (x <? x2) && negb (inside p x y m) then paint_skip n p (x + 1) x2 y m else x
  end.
(** graphics.c:521-537: the loop over the span; each turn advances x1, so [n] = 257 turns suffice *)
Fixpoint paint_span (n : nat) (st : painted) (x x1 x2 y dy m c : Z) : painted :=
  match n, st with
  | S n, Painting p s =>
      if x1 <=? x2 then
        let '(p, x1) := paint_right 257 p x1 y m c in
        let st := Painting p s in
        let st := if x1 >? x then push_span st x (x1 - 1) (y + dy) dy else st in
        let st := if x1 - 1 >? x2 then push_span st (x2 + 1) (x1 - 1) (y - dy) (- dy) else st in
        let x1 := paint_skip 257 p (x1 + 1) x2 y m in
        paint_span n st x1 x1 x2 y dy m c
      else st
  | _, _ => st
  end.
(** graphics.c:507-539: one turn of the main loop; [n] bounds the turns of the inner loops (257 suffice) *)
Definition paint_turn_within (n : nat) (st : painted) (m c : Z) : painted :=
  match st with
  | Painting p (v :: s) =>
      let '(x1, x2, y, dy) := unpack4 v in
      let x := x1 in
      let '(st, x) :=
        if inside p x y m then
          let '(p, x) := paint_left n p x y m c in
          (if x <? x1 then push_span (Painting p s) x (x1 - 1) (y - dy) (- dy) else Painting p s, x)
        else (Painting p s, x) in
      paint_span n st x x1 x2 y dy m c
  | _ => st
  end.
Definition paint_turn : painted -> Z -> Z -> painted := paint_turn_within 257.
(** None: the loop is still running after [fuel] turns *)
Fixpoint paint_loop (fuel : nat) (st : painted) (m c : Z) : option (page * fin) :=
  match st with
  | Overflow p => Some (p, Raised ERR_PAINT_STACK_OVERFLOW)
  | Painting p [] => Some (p, Done)
  | Painting _ _ => match fuel with O => None | S f => paint_loop f (paint_turn st m c) m c end
  end.
(** graphics.c:478-540 cmd_gpaint.  Without a border the seed's colour is read through the 8-bit
    coordinates: beyond row 191 that is outside the page. *)
Definition cmd_gpaint (fuel : nat) (g : gfx) (x y : Z) (c b : option Z) : option (gfx * fin) :=
  let x := FP_TO_INT x in let y := FP_TO_INT y in
  let go c m := match paint_loop fuel (push_span (push_span (Painting (canvas g) []) x x y 1) x x (y - 1) (-1)) m c with
                | Some (p, f) => Some (set_canvas g p, f)
                | None => None
                end in
  let c := match c with None => Some (color g) | Some c => int_range c 0 255 end in
  match c with
  | None => Some (g, Raised ERR_OUT_OF_RANGE)
  | Some c =>
    match b with
    | Some b => match int_range b 0 255 with None => Some (g, Raised ERR_OUT_OF_RANGE) | Some b => go c (-1 - b) end
    | None => if grp_index x y >=? GRP_SIZE then Some (g, Crash) else go c (canvas g (grp_index x y))
    end
  end.

(** ** GPUTCHR (graphics.c:223-294).  [src]: the 32 bytes of the character, two pixels in a byte, low half
    first; here only the drawing, for a size of 1, 2, 4 or 8. *)
Definition chr_pixel (src : list Z) (x y : Z) : Z :=
  let b := nth (Z.to_nat (x / 2 + 4 * y)) src 0 in if x mod 2 =? 0 then Z.land b 15 else Z.shiftr b 4.
(** graphics.c:266-289: the points of character pixel (x,y), row by row *)
Definition cell_points (xs ys size x y : Z) : list (Z * Z) :=
  flat_map (fun i => map (fun j => (xs + x * size + j, ys + y * size + i)) (zrange 0 (size - 1))) (zrange 0 (size - 1)).
Definition put_cell (src : list Z) (xs ys size pal : Z) (mode : bool) (p : page) (q : Z * Z) : page :=
  let '(x, y) := q in
  let c := chr_pixel src x y in
  fold_left (fun p r => let '(xp, yp) := r in
      if negb (c =? 0) && (xp >=? 0) && (xp <? GRP_WIDTH) && negb (yp =? 0) && (yp <? GRP_HEIGHT)
      then grp_pixel p xp yp (16 * pal + c) mode else p) (cell_points xs ys size x y) p.
Definition chr_cells : list (Z * Z) := flat_map (fun y => map (fun x => (x, y)) (zrange 0 7)) (zrange 0 7).
Definition put_chr (src : list Z) (xs ys size pal : Z) (mode : bool) (p : page) : page :=
  fold_left (put_cell src xs ys size pal mode) chr_cells p.
(** the palette name: graphics.c:240-246 *)
Definition palette_name (res : list Z) : list Z :=
  let last := nth (length res - 1) res 0 in
  zs "COL" ++ [if nth 0 res 0 =? 66 then 48 else 49] ++ (if (last =? 76) || (last =? 85) then [last] else []).
(** The whole command.  [chr], [col]: the banks, [res] the resource name (not empty).  The palette is
    copied before the resource is looked up.  A resource other than a character bank is used as bytes
    all the same; that is left out (Crash). *)
Record ggfx := mkGG { gg : gfx; g_col : Z -> list Z; g_regen : bool }.
Definition copy16 (dst src : list Z) (pal : Z) : list Z :=
  let k := Z.to_nat (16 * pal) in firstn k dst ++ firstn 16 (skipn k src) ++ skipn (k + 16) dst.
Definition cmd_gputchr (pg : Resources.pages) (chr : Z -> list Z) (g : ggfx) (x y : Z) (res : list Z) (ch pal size : Z) : ggfx * fin :=
  match int_range ch 0 255, int_range pal 0 15 with
  | Some ch, Some pal =>
    let size := FP_TO_INT size in
    if (size =? 1) || (size =? 2) || (size =? 4) || (size =? 8) then
      match get_resource_ptr pg (palette_name res), get_resource_ptr pg (zs "COL2") with
      | Ok (Col s), Ok (Col d) =>
        let g := mkGG (gg g) (upd2 (g_col g) d (copy16 (g_col g d) (g_col g s) pal)) true in
        match get_verified_resource_type pg (SBc res) with
        | Ok i => match i_data i with
                  | Chr b => (mkGG (set_canvas (gg g) (put_chr (firstn 32 (skipn (Z.to_nat (32 * ch)) (chr b))) (FP_TO_INT x) (FP_TO_INT y) size pal (drawmode (gg g)) (canvas (gg g))))
                                   (g_col g) (g_regen g), Done)
                  | _ => (g, Crash)
                  end
        | Err e => (g, Raised e)
        | UB => (g, Crash)
        end
      | _, _ => (g, Crash)
      end
    else (g, Raised ERR_ILLEGAL_FUNCTION_CALL)
  | _, _ => (g, Raised ERR_OUT_OF_RANGE)
  end.
