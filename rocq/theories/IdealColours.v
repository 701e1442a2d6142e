(** The ideal computer with palettes: for the background, the sprites and the graphics, on either screen, 256 colours of red, green and blue from 0 to 255.
    [UB] is what is left unspecified.

    Independent of the code: of the models only the entries of the argument stack are used. *)
From Coq Require Import String Ascii.
From Verif Require Import Base Tokens Runner NumTextSpec ProgSpec LexSpec Ideal HostData IdealData IdealAsk IdealDraw IdealTiles.
From Verif Require ChrCol Resources Strs.

(** the places of the names in the list of commands *)
Definition CMD_COLREAD := 49. Definition CMD_COLSET := 50.
Definition colours (c : Z) : bool := within 49 c 50.
(** palette (0 background, 1 sprites, 2 graphics), screen, colour: red, green, blue *)
Definition paint := Z -> Z -> Z -> Z * Z * Z.
Definition palette_names : list (list Z) := map letters ["BG"; "SP"; "GRP"]%string.
Definition palette_name (k : Z) : list Z := nth (Z.to_nat k) palette_names [].
Definition text_eq (a b : list Z) : bool := if list_eq_dec Z.eq_dec a b then true else false.
(** the palette of a name and the screen it belongs to: the one chosen by BGPAGE, by GPAGE *)
Definition palette_of (b : board) (w : wall) (t : list Z) : outcome (Z * Z) :=
  if text_eq t (palette_name 0) then Ok (0, w_page w) else if text_eq t (palette_name 1) then Ok (1, 0) else if text_eq t (palette_name 2) then Ok (2, b_screen b) else Err ERR_INVALID_RESOURCE_TYPE.
(** red and blue are kept to 5 bits, green to 6; told again from 0 to 255 *)
Definition fifth (v : Z) : Z := 8 * (v / 8) + v / 32.
Definition sixth (v : Z) : Z := 4 * (v / 4) + v / 64.
(** six hexadecimal digits *)
Definition mixed (t : list Z) : option (Z * Z * Z) :=
  match hexits t with Some [r1; r0; g1; g0; b1; b0] => Some (fifth (16 * r1 + r0), sixth (16 * g1 + g0), fifth (16 * b1 + b0)) | _ => None end.
Definition dip (h : paint) (k s n : Z) (v : Z * Z * Z) : paint := fun k' s' n' => if (k' =? k) && (s' =? s) && (n' =? n) then v else h k' s' n'.
Definition colour_ido (c : Z) (i : istate) (es : list ient) (b : board) (w : wall) (h : paint) : outcome (istate * paint) :=
  if c =? CMD_COLSET then
    match es with
    | [t; n; s] =>
        let* t := txt i t in let* n := int i n in let* s := txt i s in
        if within 0 n 255 then
          let* q := palette_of b w t in
          match mixed s with Some v => Ok (i, dip h (fst q) (snd q) n v) | None => Err ERR_ILLEGAL_FUNCTION_CALL end
        else Err ERR_OUT_OF_RANGE
    | _ => UB
    end
  else
    match es with
    | [t; n; x; y; z] =>
        let* ls := places [x; y; z] in
        match map fst ls with
        | [false; false; false] =>
            let* t := txt i t in let* n := int i n in
            if within 0 n 255 then
              let* q := palette_of b w t in
              let '(r, g, bl) := h (fst q) (snd q) n in Ok (fill i ls [Number (4096 * r); Number (4096 * g); Number (4096 * bl)], h)
            else Err ERR_OUT_OF_RANGE
        | _ => UB
        end
    | _ => UB
    end.
Notation tile_istate := (draw_istate * wall)%type.
Definition colour_icmd (c : Z) (args : list ient) (st : tile_istate * paint) : option (outcome (tile_istate * paint)) :=
  let '(((((i, d), todo), b), w), h) := st in
  if colours c then Some (let* q := colour_ido c i args b w h in Ok (((((fst q, d), todo), b), w), snd q)) else None.
Definition ideal_colours (us : list statement) (its : list (list (list Z))) (max cells : Z) : host := attach (ideal_tiles us its max cells) paint colour_icmd.
Definition ideal_colours_text (st : tile_istate * paint) (l : iloc) : list Z := ideal_tiles_text (fst st) l.
Definition ideal_colours_start (its : list (list (list Z))) (todo : list (option (list Z))) (b : board) (w : wall) (h : paint) : tile_istate * paint := (ideal_tiles_start its todo b w, h).

(** the palettes are what COLREAD reports (ChrCol.v) with each of the screens chosen *)
Definition dyed (h : paint) (r : ChrCol.banks) : Prop :=
  (forall j, 0 <= j < 6 -> length (ChrCol.col r j) = 256%nat) /\
  forall k s n, 0 <= k <= 2 -> 0 <= s <= 1 -> 0 <= n <= 255 ->
    ChrCol.cmd_colread (Resources.mkPages s s s) r (Strs.SChar (palette_name k)) (4096 * n) = Ok (let '(x, y, z) := h k s n in (4096 * x, 4096 * y, 4096 * z)).
