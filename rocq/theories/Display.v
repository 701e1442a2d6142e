(** The picture on the two screens (PC build): source/graphics/pc/display_pc.c, tilemap.c, sprite.c, graphic.c,
    the shader resources/bgsp.frag, and VISIBLE (source/system.c:113-139).

    The graphics card is not code of this repository.  What is assumed of it is in [inside], [texel_at], [colour_texel] and [over]:
    a pixel belongs to a rectangle when its centre lies inside, its place in the texture is interpolated linearly between the corners,
    textures are read at the nearest texel and clamped at their edges, and a pixel with alpha 0 leaves what is below, one with 255 hides it. *)
From Verif Require Import Base Strs Memory Resources Background Console Graphics Sprites ChrCol.
Open Scope Z_scope.

(** SFML sfVertex: a position, the palette in the red channel, a place in the texture *)
Record vertex := mkV { vx : Z; vy : Z; vred : Z; tu : Z; tv : Z }.
(** four consecutive vertices of an array of sfQuads, in the order of sprite.c:39-43 *)
Record quad := mkQ { q1 : vertex; q2 : vertex; q3 : vertex; q4 : vertex }.
Record rgb := mkRGB { red : Z; green : Z; blue : Z }.
Definition black : rgb := mkRGB 0 0 0.

(** the graphics card: is the centre X + 1/2 between the edges a and b? *)
Definition inside (a b X : Z) : bool :=
  (2 * a <? 2 * X + 1) && (2 * X + 1 <? 2 * b) || (2 * b <? 2 * X + 1) && (2 * X + 1 <? 2 * a).
(** the texture place at the centre X + 1/2, from s at edge a to t at edge b, rounded down to a texel *)
Definition texel_at (a b s t X : Z) : Z := (2 * s * (b - a) + (t - s) * (2 * X + 1 - 2 * a)) / (2 * (b - a)).
(** only rectangles with their sides along the axes are drawn by the modelled code *)
Definition covers (q : quad) (X Y : Z) : bool := inside (vx (q1 q)) (vx (q2 q)) X && inside (vy (q1 q)) (vy (q4 q)) Y.

(** resources.h:144, resources.c: the character banks of both screens lie one after the other, 8192 bytes each;
    the byte [k] after the start of bank [b] *)
Definition chr_byte (r : banks) (b k : Z) : Z := nth (Z.to_nat (k mod 8192)) (chr r (b + k / 8192)) 0.
(** display_pc.c:41-60 gen_chr_texture: the texture has 32 characters in a row; character i is at column i mod 32 of row i / 32.
    The loop writes every texel once; this is the value it writes at (u,v), read by the card with clamping. *)
Definition chr_texture (r : banks) (b size u v : Z) : Z :=
  let u := Z.max 0 (Z.min 255 u) in let v := Z.max 0 (Z.min (size / 4 - 1) v) in
  let i := u / 8 + 32 * (v / 8) in let cx := u mod 8 in let cy := v mod 8 in
  let c := chr_byte r b (32 * i + cx / 2 + 4 * cy) in
  if cx mod 2 =? 1 then c / 16 mod 16 else c mod 16.
(** display_pc.c:12-39 gen_col_texture: colour [i] of palette bank [row]; None when its alpha is 0 *)
Definition col_texture (r : banks) (row i : Z) : option rgb :=
  let s := nth (Z.to_nat i) (ChrCol.col r row) 0 in
  if (if row mod 3 =? 2 then i =? 0 else i mod 16 =? 0) then None else
  Some (mkRGB (Z.shiftl (Z.land s 31) 3)
              (Z.lor (Z.shiftr (Z.land s 992) 2) (Z.shiftr (Z.land s 32768) 13))
              (Z.shiftr (Z.land s 31744) 7)).
(** resources/bgsp.frag: channels are n/255, the palette row is bank/5; the colour texture is 256 by 6 *)
Definition colour_texel (r : banks) (colbank n : Z) : option rgb :=
  col_texture r (Z.min 5 (6 * colbank / 5)) (Z.min 255 (256 * n / 255)).
Definition shade (r : banks) (colbank : Z) (grp_mode : bool) (index vred : Z) : option rgb :=
  if grp_mode then colour_texel r colbank index
  else colour_texel r colbank ((if index =? 0 then 0 else vred) + index).
(** alpha blending of the card (sfBlendAlpha with alpha 0 or 255) *)
Definition over (below : rgb) (c : option rgb) : rgb := match c with Some c => c | None => below end.

(** display_pc.c:267-273 draw_va: the quads in order, each over what is there *)
Definition draw_quad (r : banks) (tex size colbank : Z) (X Y : Z) (below : rgb) (q : quad) : rgb :=
  if covers q X Y then
    over below (shade r colbank false
      (chr_texture r tex size (texel_at (vx (q1 q)) (vx (q2 q)) (tu (q1 q)) (tu (q2 q)) X)
                              (texel_at (vy (q1 q)) (vy (q4 q)) (tv (q1 q)) (tv (q4 q)) Y)) (vred (q1 q)))
  else below.
Definition draw_va (r : banks) (tex size colbank : Z) (va : list quad) (X Y : Z) (below : rgb) : rgb :=
  fold_left (draw_quad r tex size colbank X Y) va below.

(** tilemap.c:33-37 chr_texCoords and sprite.c:20-24 chr_texCoords2 (chr is not negative in the modelled calls) *)
Definition tex_coord (chr xofs yofs : Z) : Z * Z := (8 * (chr mod 32 + xofs), 8 * (chr / 32 + yofs)).
(** what tile and palette (tilemap.c:40-57) store for one cell *)
Record cell := mkC { c_chr : Z; c_h : bool; c_v : bool; c_pal : Z }.
(** tilemap.c:12-18 and :40-57: the four vertices of the cell (x,y), moved by (-ax,-ay) (display_pc.c:346) *)
Definition cell_quad (x y ax ay : Z) (c : cell) : quad :=
  let h := b2z (c_h c) in let v := b2z (c_v c) in let nh := 1 - h in let nv := 1 - v in
  let vtx dx dy t := mkV (8 * x + dx - ax) (8 * y + dy - ay) (u8 (16 * c_pal c)) (fst t) (snd t) in
  mkQ (vtx 0 0 (tex_coord (c_chr c) h v)) (vtx 8 0 (tex_coord (c_chr c) nh v))
      (vtx 8 8 (tex_coord (c_chr c) nh nv)) (vtx 0 8 (tex_coord (c_chr c) h nv)).
(** a tilemap of w by h cells as its vertex array: cell (x,y) at 4*(x+w*y) *)
Definition map_quads (w h ax ay : Z) (f : Z -> Z -> cell) : list quad :=
  map (fun k => let k := Z.of_nat k in cell_quad (k mod w) (k / w) ax ay (f (k mod w) (k / w))) (seq 0 (Z.to_nat (w * h))).

(** common.h/panel.h: the panel types used here *)
Definition PNL_OFF : Z := 0. Definition PNL_PNL : Z := 1.
(** what the screens are drawn from; [stale] is what the cells of background_map hold from earlier frames *)
Record scene := mkScene { sc_con : console; sc_cursor : bool; sc_bg : bg; sc_grp : gfx; sc_spr : sprites; sc_res : banks;
                          sc_visible : Z; sc_panel : Z; sc_stale : Z -> Z -> cell }.

(** console.c: con_text_getc and con_col_get: row y, column x *)
Definition con_text (c : console) (x y : Z) : Z := nth (Z.to_nat (CW * y + x)) (Console.text c) 0.
Definition con_color (c : console) (x y : Z) : Z := nth (Z.to_nat (CW * y + x)) (Console.color c) 0.
(** display_pc.c:275-299 display_console *)
Definition text_cell (c : console) (x y : Z) : cell := mkC (to_char (con_text c x y)) false false (Z.land (con_color c x y) 15).
Definition text_bg_cell (c : console) (x y : Z) : cell :=
  let k := Z.shiftr (Z.land (con_color c x y) 240) 4 in mkC (if k =? 0 then 0 else 15) false false k.
Definition display_console (s : scene) (X Y : Z) (below : rgb) : rgb :=
  let below := draw_va (sc_res s) 4 1024 0 (map_quads CW CH 0 0 (text_bg_cell (sc_con s))) X Y below in
  if Z.testbit (sc_visible s) 0 then draw_va (sc_res s) 0 512 0 (map_quads CW CH 0 0 (text_cell (sc_con s))) X Y below else below.

(** the cell for one word of a SCR resource (display_pc.c:340-341) *)
Definition word_cell (td : Z) : cell :=
  mkC (Z.land td 1023) (negb (Z.shiftr (Z.land td 1024) 10 =? 0)) (negb (Z.shiftr (Z.land td 2048) 11 =? 0)) (Z.shiftr (Z.land td 61440) 12).
(** background.c:56-58 bg_tile *)
Definition bg_word (b : bg) (screen layer x y : Z) : Z :=
  nth (Z.to_nat (bg_index x y)) (nth (Z.to_nat (SCR_BANKS * screen + 2 + layer)) (scr b) []) 0.
Definition bg_ofs (b : bg) (screen layer : Z) : bg_offset :=
  nth (Z.to_nat (2 * screen + layer)) (ofs b) {| ox := 0; oy := 0; step_x := 0; step_y := 0; time := 0 |}.
(** display_pc.c:319-356 display_background; BG_WIDTH tiles wide map, of which 33 by 25 are set *)
Definition display_background (s : scene) (screen layer X Y : Z) (below : rgb) : rgb :=
  if negb (Z.testbit (sc_visible s) 2) && (layer =? 0) then below
  else if negb (Z.testbit (sc_visible s) 3) && (layer =? 1) then below else
  let o := bg_ofs (sc_bg s) screen layer in
  let start_x := u32 (Z.quot (FP_TO_INT (ox o)) 8) mod 64 in
  let start_y := u32 (Z.quot (FP_TO_INT (oy o)) 8) mod 64 in
  let ofs_x := u32 (FP_TO_INT (ox o)) mod 8 in
  let ofs_y := u32 (FP_TO_INT (oy o)) mod 8 in
  let f x y := if (x <? 33) && (y <? 25)
               then word_cell (bg_word (sc_bg s) screen layer ((x + start_x) mod 64) ((y + start_y) mod 64))
               else sc_stale s x y in
  draw_va (sc_res s) (8 + 22 * screen) 1024 (3 * screen) (map_quads 64 64 ofs_x ofs_y f) X Y below.

(** graphic.c:29-39 draw_graphic and display_pc.c:469-483 display_graphics: a 256 by 192 picture whose texel (x,y) is
    the byte of that pixel, drawn at (0,0) *)
Definition display_graphics (s : scene) (screen p X Y : Z) (below : rgb) : rgb :=
  if (screen =? 1) && negb ((sc_panel s =? PNL_OFF) || (sc_panel s =? PNL_PNL)) then below
  else if (screen =? 1) && negb (Z.testbit (sc_visible s) 1) then below
  else if negb (Z.testbit (sc_visible s) 5) then below
  else if negb (p =? prio (sc_grp s) screen) then below
  else if inside 0 256 X && inside 0 192 Y then
    over below (shade (sc_res s) (2 + 3 * screen) true
      (u8 (pages (sc_grp s) (displaypage (sc_grp s) screen) (grp_index (texel_at 0 256 0 256 X) (texel_at 0 192 0 192 Y)))) 255)
  else below.

(** sprite.c:33-133 add_sprite, sprites that are not rotated ([None] otherwise: sine and cosine are not modelled).
    The 32-bit sums are not wrapped: positions more than 2^30 (a quarter of a million pixels) away are [None] too. *)
Fixpoint piece_row (n : nat) (xc yc sx sy : Z) (chr red : Z) : list quad :=
  match n with
  | O => []
  | S n =>
      let vtx x y t := mkV (FP_TO_INT x) (FP_TO_INT y) red (fst t) (snd t) in
      mkQ (vtx xc yc (tex_coord chr 0 0)) (vtx (xc + sx) yc (tex_coord chr 1 0))
          (vtx (xc + sx) (yc + sy) (tex_coord chr 1 1)) (vtx xc (yc + sy) (tex_coord chr 0 1))
      :: piece_row n (xc + sx) yc sx sy (chr + 1) red
  end.
Fixpoint piece_rows (m n : nat) (xc yc sx sy : Z) (chr red : Z) : list quad :=
  match m with
  | O => []
  | S m => piece_row n xc yc sx sy chr red ++ piece_rows m n xc (yc + sy) sx sy (chr + Z.of_nat n) red
  end.
Definition add_sprite (s : sprite) : option (list quad) :=
  if negb (cv (angle s) =? 0) then None
  else if (Z.abs (px_ (pos s)) >? 2 ^ 30) || (Z.abs (py_ (pos s)) >? 2 ^ 30) then None else
  let sc := cv (scale s) in
  let w := s_w s * sc in let h := s_h s * sc in
  let '(x1, x2) := (- sc * s_homex s, - sc * s_homex s + w) in
  let '(y1, y4) := (- sc * s_homey s, - sc * s_homey s + h) in
  let '(x1, x2) := if s_flipx s then (x2, x1) else (x1, x2) in
  let '(y1, y4) := if s_flipy s then (y4, y1) else (y1, y4) in
  let x1 := x1 + px_ (pos s) in let x2 := x2 + px_ (pos s) in
  let y1 := y1 + py_ (pos s) in let y4 := y4 + py_ (pos s) in
  let sx := Z.quot (x2 - x1) (s_w s) * 8 in let sy := Z.quot (y4 - y1) (s_h s) * 8 in
  Some (piece_rows (Z.to_nat (s_h s / 8)) (Z.to_nat (s_w s / 8)) x1 y1 sx sy (4 * get_sprite_chr s) (u8 (16 * s_pal s))).
(** display_pc.c:374-396 display_sprite *)
Fixpoint sprite_quads (l : list sprite) (p : Z) : option (list quad) :=
  match l with
  | [] => Some []
  | s :: t =>
      match sprite_quads t p with
      | None => None
      | Some qs => if active s && (s_prio s =? p)
                   then match add_sprite s with Some q => Some (q ++ qs) | None => None end
                   else Some qs
      end
  end.
Definition sprite_list (S : sprites) (screen : Z) : list sprite := map (fun i => info S screen (Z.of_nat i)) (seq 0 100).
Definition display_sprite (s : scene) (screen p X Y : Z) (below : rgb) : option rgb :=
  if (screen =? 1) && (negb (sc_panel s =? PNL_OFF) || negb (Z.testbit (sc_visible s) 1)) then Some below
  else if negb (Z.testbit (sc_visible s) 4) then Some below
  else match sprite_quads (sprite_list (sc_spr s) screen) p with
       | None => None
       | Some qs => Some (if screen =? 1 then draw_va (sc_res s) 42 512 4 qs X Y below else draw_va (sc_res s) 12 2048 1 qs X Y below)
       end.
(** display_pc.c:453-467 display_cursor *)
Definition display_cursor (s : scene) (X Y : Z) (below : rgb) : option rgb :=
  if negb (sc_cursor s) then Some below else
  let c := set_pos (mkMotion (INT_TO_FP (cx (sc_con s) * 8)) (INT_TO_FP (cy (sc_con s) * 8)) 0 0 (-1)) (init_sprite_info 100 108 0 false false 0 8 8) in
  match add_sprite c with Some qs => Some (draw_va (sc_res s) 20 512 1 qs X Y below) | None => None end.

Definition and_then (m : option rgb) (f : rgb -> option rgb) : option rgb := match m with Some c => f c | None => None end.
(** display_pc.c:212-232 of display_draw_all, upper screen: the colour of the pixel (X,Y); the window is cleared to black first.
    The textures are those of the present resources (the regen flags are set by every command that changes them, POKE excepted). *)
Definition draw_upper (s : scene) (X Y : Z) : option rgb :=
  let g p c := Some (display_graphics s 0 p X Y c) in
  let sp p c := display_sprite s 0 p X Y c in
  let b l c := Some (display_background s 0 l X Y c) in
  and_then (and_then (and_then (and_then (and_then (and_then (and_then (and_then (and_then (and_then (and_then (and_then (Some black)
    (g 3)) (sp 3)) (b 1)) (g 2)) (sp 2)) (b 0)) (g 1)) (sp 1)) (fun c => Some (display_console s X Y c))) (g 0)) (sp 0)) (display_cursor s X Y).

(** system.c:113-139 cmd_visible; the entries of the value stack; [bits] after the first [i] arguments *)
Inductive vis_arg := VNum (n : Z) | VOmitted | VStr | VOther.
Fixpoint visible_loop (args : list vis_arg) (i : Z) (old flags : Z) : Z * option err :=
  match args with
  | [] => (flags, None)
  | VNum n :: t =>
      match int_range n 0 1 with
      | None => (old, Some ERR_OUT_OF_RANGE)
      | Some bit => visible_loop t (i + 1) old
                      (if bit =? 0 then Z.land flags (Z.land (Z.lnot (Z.shiftl 1 i)) 63) else Z.lor flags (Z.shiftl bit i))
      end
  | VOmitted :: t => visible_loop t (i + 1) old (Z.lor flags (Z.land old (Z.shiftl 1 i)))
  | VStr :: _ => (old, Some ERR_TYPE_MISMATCH)
  | VOther :: _ => (old, Some ERR_SYNTAX)
  end.
Definition cmd_visible (old : Z) (args : list vis_arg) : Z * option err :=
  if negb (Z.of_nat (length args) =? 6) then (old, Some ERR_SYNTAX) else visible_loop args 0 old 0.
