(** What the upper screen shows, said without vertices, textures and shaders: the characters, colours and pixels stored in the
    resources, where each of them is seen, and which one is in front. *)
From Verif Require Import Base Strs Background Console Graphics Sprites ChrCol Display.
Open Scope Z_scope.

(** pixel (i,j) of character [n], counted from the start of character bank [b]: 256 characters in a bank, 32 bytes each,
    four bytes a row, the left pixel of a byte in its low half *)
Definition chr_pixel (r : banks) (b n i j : Z) : Z :=
  let byte := nth (Z.to_nat (32 * (n mod 256) + 4 * j + i / 2)) (chr r (b + n / 256)) 0 in
  if Z.even i then byte mod 16 else byte / 16 mod 16.
(** a stored colour is GBBBBBGG GGGRRRRR *)
Definition shown_colour (s : Z) : rgb :=
  mkRGB (8 * (s mod 32)) (8 * (s / 32 mod 32) + 4 * (s / 32768 mod 2)) (8 * (s / 1024 mod 32)).
(** colour [c] of palette [pal] of a bank of sixteen palettes; colour 0 is see-through *)
Definition palette_colour (r : banks) (bank pal c : Z) : option rgb :=
  if c =? 0 then None else Some (shown_colour (nth (Z.to_nat (16 * pal + c)) (ChrCol.col r bank) 0)).
(** a character of 8 by 8 pixels, mirrored left to right and upside down if asked for *)
Definition chr_colour (r : banks) (b bank n pal : Z) (h v : bool) (i j : Z) : option rgb :=
  palette_colour r bank pal (chr_pixel r b n (if h then 7 - i else i) (if v then 7 - j else j)).

(** background layer [l] of [screen]: the layer is 512 by 512 pixels and repeats; its pixel (ox,oy) is at the upper left corner *)
Definition bg_picture (s : scene) (screen l X Y : Z) : option rgb :=
  let o := bg_ofs (sc_bg s) screen l in
  let wx := (X + FP_TO_INT (ox o)) mod 512 in let wy := (Y + FP_TO_INT (oy o)) mod 512 in
  let t := bg_word (sc_bg s) screen l (wx / 8) (wy / 8) in
  chr_colour (sc_res s) (8 + 22 * screen) (3 * screen) (t mod 1024) (t / 4096 mod 16)
    (Z.odd (t / 1024)) (Z.odd (t / 2048)) (wx mod 8) (wy mod 8).
(** the text: the character of the cell in its colour; and the cell's background colour (character 15 of BGD0) *)
Definition text_picture (s : scene) (X Y : Z) : option rgb :=
  let x := X / 8 in let y := Y / 8 in
  chr_colour (sc_res s) 0 0 (to_char (con_text (sc_con s) x y)) (con_color (sc_con s) x y mod 16) false false (X mod 8) (Y mod 8).
Definition text_back_picture (s : scene) (X Y : Z) : option rgb :=
  let k := con_color (sc_con s) (X / 8) (Y / 8) / 16 mod 16 in
  chr_colour (sc_res s) 4 0 (if k =? 0 then 0 else 15) k false false (X mod 8) (Y mod 8).
(** the graphics page that is shown: a byte for each pixel, 256 colours of which 0 is see-through *)
Definition grp_picture (s : scene) (screen X Y : Z) : option rgb :=
  let c := pages (sc_grp s) (displaypage (sc_grp s) screen) (grp_index X Y) mod 256 in
  if c =? 0 then None else Some (shown_colour (nth (Z.to_nat c) (ChrCol.col (sc_res s) (2 + 3 * screen)) 0)).
(** a sprite enlarged by a whole number (1 or 2: SPSCALE 100 or 200): a picture of w by h pixels made of characters, row by row,
    whose pixel (home x, home y) is at the sprite's position; [b], [bank]: its character and colour banks *)
Definition zoom (s : sprite) : Z := cv (scale s) / 4096.
Definition sprite_picture (r : banks) (b bank : Z) (s : sprite) (X Y : Z) : option rgb :=
  let i := (X - (FP_TO_INT (px_ (pos s)) - zoom s * s_homex s)) / zoom s in
  let j := (Y - (FP_TO_INT (py_ (pos s)) - zoom s * s_homey s)) / zoom s in
  if (0 <=? i) && (i <? s_w s) && (0 <=? j) && (j <? s_h s) then
    let i := if s_flipx s then s_w s - 1 - i else i in let j := if s_flipy s then s_h s - 1 - j else j in
    palette_colour r bank (s_pal s) (chr_pixel r b (4 * get_sprite_chr s + s_w s / 8 * (j / 8) + i / 8) (i mod 8) (j mod 8))
  else None.

(** the picture in front *)
Fixpoint first_shown (l : list (option rgb)) : option rgb :=
  match l with [] => None | Some c :: _ => Some c | None :: t => first_shown t end.
(** the sprites of a screen with priority p: of two that meet, the one with the larger number is in front *)
Definition sprites_picture (s : scene) (screen p X Y : Z) : option rgb :=
  first_shown (map (fun q => if active q && (s_prio q =? p)
                             then sprite_picture (sc_res s) (if screen =? 1 then 42 else 12) (if screen =? 1 then 4 else 1) q X Y else None)
                   (rev (sprite_list (sc_spr s) screen))).
(** the text cursor: character 432 of SPS0, at the cell of the cursor *)
Definition cursor_picture (s : scene) (X Y : Z) : option rgb :=
  let i := X - 8 * cx (sc_con s) in let j := Y - 8 * cy (sc_con s) in
  if (0 <=? i) && (i <? 8) && (0 <=? j) && (j <? 8) then palette_colour (sc_res s) 1 0 (chr_pixel (sc_res s) 20 432 i j) else None.

Definition when (b : bool) (c : option rgb) : option rgb := if b then c else None.
(** VISIBLE console, panel, BG0, BG1, sprites, graphics: bits 0 to 5 *)
Definition vis (s : scene) (i : Z) : bool := Z.testbit (sc_visible s) i.
(** the graphics page and the sprites of priority p *)
Definition at_prio (s : scene) (p X Y : Z) : list (option rgb) :=
  [ when (vis s 4) (sprites_picture s 0 p X Y); when (vis s 5 && (prio (sc_grp s) 0 =? p)) (grp_picture s 0 X Y) ].
(** the upper screen from front to back *)
Definition upper_layers (s : scene) (X Y : Z) : list (option rgb) :=
  [ when (sc_cursor s) (cursor_picture s X Y) ]
  ++ at_prio s 0 X Y ++ [ when (vis s 0) (text_picture s X Y); text_back_picture s X Y ]
  ++ at_prio s 1 X Y ++ [ when (vis s 2) (bg_picture s 0 0 X Y) ]
  ++ at_prio s 2 X Y ++ [ when (vis s 3) (bg_picture s 0 1 X Y) ]
  ++ at_prio s 3 X Y.
Definition upper_pixel (s : scene) (X Y : Z) : rgb := match first_shown (upper_layers s X Y) with Some c => c | None => black end.

(** sprites that are not turned and are enlarged by a whole number (as SPSET makes them: by 1), near the screen, with characters that exist *)
Definition natural (size : Z) (s : sprite) : Prop :=
  cv (angle s) = 0 /\ cv (scale s) = 4096 * zoom s /\ 0 < zoom s /\ Z.abs (px_ (pos s)) <= 2 ^ 30 /\ Z.abs (py_ (pos s)) <= 2 ^ 30 /\
  0 < s_w s /\ s_w s mod 8 = 0 /\ 0 < s_h s /\ s_h s mod 8 = 0 /\ 0 <= s_pal s <= 15 /\
  0 <= get_sprite_chr s /\ 4 * get_sprite_chr s + s_w s / 8 * (s_h s / 8) <= size.
(** an offset the picture is right for: not negative, or a whole number of characters *)
Definition offset_ok (o : Z) : Prop := (0 <= FP_TO_INT o < 2 ^ 31) \/ FP_TO_INT o mod 8 = 0 /\ - 2 ^ 31 <= FP_TO_INT o < 2 ^ 31.
Definition scene_ok (s : scene) : Prop :=
  (forall i, (i < 768)%nat -> 0 <= to_char (nth i (Console.text (sc_con s)) 0) < 512) /\
  0 <= cx (sc_con s) <= 31 /\ 0 <= cy (sc_con s) <= 23 /\
  (forall l, 0 <= l <= 1 -> offset_ok (ox (bg_ofs (sc_bg s) 0 l)) /\ offset_ok (oy (bg_ofs (sc_bg s) 0 l))) /\
  (forall q, In q (sprite_list (sc_spr s) 0) -> active q = true -> natural 2048 q).
Definition on_screen (X Y : Z) : Prop := 0 <= X < 256 /\ 0 <= Y < 192.
