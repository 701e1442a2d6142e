(** The ideal computer with background layers: two pages of two layers of 64 x 64 tiles; a tile is a number from 0 to 65535, character + 1024 * flip across + 2048 * flip over + 4096 * palette.
    [UB] is what is left unspecified.

    Independent of the code: of the models only the entries of the argument stack are used. *)
From Verif Require Import Base Tokens Runner NumTextSpec ProgSpec Ideal HostData IdealData IdealAsk IdealDraw.
From Verif Require Background BackgroundProofs.

(** the places of the names in the list of commands *)
Definition CMD_BGCLR := 28. Definition CMD_BGCOPY := 29. Definition CMD_BGFILL := 30. Definition CMD_BGPAGE := 40. Definition CMD_BGPUT := 41. Definition CMD_BGREAD := 42.
Definition tiles (c : Z) : bool := within 28 c 30 || within 40 c 42.
Record wall := mkW { w_page : Z; w_tile : Z -> Z -> Z -> Z -> Z (* page, layer, column, row *) }.
(** the cells [S] of a layer of the page chosen *)
Definition stick (w : wall) (l : Z) (S : Z -> Z -> bool) (k : Z -> Z -> Z) : wall :=
  mkW (w_page w) (fun p m x y => if (p =? w_page w) && (m =? l) && S x y then k x y else w_tile w p m x y).
(** BGPUT counts from 0 to 63 and round again *)
Definition place_at (x y a b : Z) : bool := (a =? x mod 64) && (b =? y mod 64).
(** BGFILL and BGCOPY take the nearest cell instead *)
Definition near (v : Z) : Z := Z.max 0 (Z.min v 63).
Definition patch (x1 y1 x2 y2 a b : Z) : bool := within (Z.min x1 x2) a (Z.max x1 x2) && within (Z.min y1 y2) b (Z.max y1 y2).
Definition layer_in (v : Z) (k : Z -> outcome wall) : outcome wall := if within 0 v 1 then k v else Err ERR_OUT_OF_RANGE.
Definition int (s : istate) (e : ient) : outcome Z := let* v := num s e in Ok (v / 4096).
(** hexadecimal digits *)
Definition hexit (c : Z) : option Z := if within 48 c 57 then Some (c - 48) else if within 65 c 70 then Some (c - 55) else None.
Fixpoint hexits (t : list Z) : option (list Z) :=
  match t with [] => Some [] | c :: t => match hexit c, hexits t with Some d, Some ds => Some (d :: ds) | _, _ => None end end.
Definition hex_tile (t : list Z) : outcome Z := match hexits t with Some ds => if (length t <=? 4)%nat then Ok (numeral 16 ds) else UB | None => UB end.
(** a tile: its number, up to four hexadecimal digits, or its parts *)
Definition tile_word (s : istate) (es : list ient) : outcome Z :=
  match es with
  | [e] => match e with ES _ _ | ER true _ => let* t := txt s e in hex_tile t | _ => let* v := int s e in Ok (v mod 65536) end
  | [c; p; h; v] =>
      let* c := int s c in let* p := int s p in let* h := int s h in let* v := int s v in
      if within 0 c 1023 && within 0 p 15 && within 0 h 1 && within 0 v 1 then Ok (c + 1024 * h + 2048 * v + 4096 * p) else Err ERR_OUT_OF_RANGE
  | _ => UB
  end.
Definition hex_text (w : Z) : list Z := map digit_char [w / 4096; w / 256 mod 16; w / 16 mod 16; w mod 16].
(** BGREAD: the number, the four digits or the parts, by the variables given *)
Definition told (w : Z) (ks : list bool) : outcome (list thing) :=
  match ks with
  | [false] => Ok [Number (4096 * w)]
  | [true] => Ok [Words (hex_text w)]
  | [false; false; false; false] => Ok [Number (4096 * (w mod 1024)); Number (4096 * (w / 4096)); Number (4096 * (w / 1024 mod 2)); Number (4096 * (w / 2048 mod 2))]
  | _ => UB
  end.
Definition tile_ido (c : Z) (s : istate) (es : list ient) (w : wall) : outcome (istate * wall) :=
  if c =? CMD_BGPAGE then match es with [p] => let* p := int s p in if within 0 p 1 then Ok (s, mkW p (w_tile w)) else Err ERR_OUT_OF_RANGE | _ => UB end
  else if c =? CMD_BGCLR then
    match es with
    | [] => Ok (s, stick (stick w 0 (fun _ _ => true) (fun _ _ => 0)) 1 (fun _ _ => true) (fun _ _ => 0))
    | [l] => let* l := int s l in let* w := layer_in l (fun l => Ok (stick w l (fun _ _ => true) (fun _ _ => 0))) in Ok (s, w)
    | _ => UB
    end
  else if c =? CMD_BGPUT then
    match es with
    | l :: x :: y :: t =>
        let* l := int s l in let* x := int s x in let* y := int s y in let* k := tile_word s t in
        let* w := layer_in l (fun l => Ok (stick w l (place_at x y) (fun _ _ => k))) in Ok (s, w)
    | _ => UB
    end
  else if c =? CMD_BGFILL then
    match es with
    | l :: x :: y :: u :: v :: t =>
        let* l := int s l in let* x := int s x in let* y := int s y in let* u := int s u in let* v := int s v in let* k := tile_word s t in
        let* w := layer_in l (fun l => Ok (stick w l (patch (near x) (near y) (near u) (near v)) (fun _ _ => k))) in Ok (s, w)
    | _ => UB
    end
  else if c =? CMD_BGCOPY then
    match es with
    | [l; x; y; u; v; a; b] =>
        let* l := int s l in let* x := int s x in let* y := int s y in let* u := int s u in let* v := int s v in let* a := int s a in let* b := int s b in
        let* w := layer_in l (fun l =>
          let x0 := Z.min (near x) (near u) in let y0 := Z.min (near y) (near v) in let x1 := near a + Z.abs (near u - near x) in let y1 := near b + Z.abs (near v - near y) in
          (* the copy must fit into the layer *)
          if (x1 <=? 63) && (y1 <=? 63) then Ok (stick w l (patch (near a) (near b) x1 y1) (fun c d => w_tile w (w_page w) l (c - near a + x0) (d - near b + y0))) else UB) in Ok (s, w)
    | _ => UB
    end
  else
    match es with
    | l :: x :: y :: r =>
        let* l := int s l in let* x := int s x in let* y := int s y in let* ls := places r in
        let* xs := (if within 0 l 1 then told (w_tile w (w_page w) l (x mod 64) (y mod 64)) (map fst ls) else match told 0 (map fst ls) with Ok _ => Err ERR_OUT_OF_RANGE | o => o end) in
        Ok (fill s ls xs, w)
    | _ => UB
    end.
Notation draw_istate := (((istate * list (list Z)) * list (option (list Z))) * board)%type.
Definition tile_icmd (c : Z) (args : list ient) (st : draw_istate * wall) : option (outcome (draw_istate * wall)) :=
  let '((((s, d), todo), b), w) := st in
  if tiles c then Some (let* q := tile_ido c s args w in Ok ((((fst q, d), todo), b), snd q)) else None.
Definition ideal_tiles (us : list statement) (its : list (list (list Z))) (max cells : Z) : host := attach (ideal_draw us its max cells) wall tile_icmd.
Definition ideal_tiles_text (st : draw_istate * wall) (l : iloc) : list Z := ideal_draw_text (fst st) l.
Definition ideal_tiles_start (its : list (list (list Z))) (todo : list (option (list Z))) (b : board) (w : wall) : draw_istate * wall := (ideal_draw_start its todo b, w).
Definition blank_wall : wall := mkW 0 (fun _ _ _ _ => 0).

(** the tiles are what BGREAD reports (Background.v) with each of the pages chosen *)
Definition turned (s : Background.bg) (p : Z) : Background.bg := Background.Build_bg p (Background.scr s) (Background.ofs s).
Definition pinned (w : wall) (s : Background.bg) : Prop :=
  BackgroundProofs.wf s /\ BackgroundProofs.words s /\ w_page w = Background.page s /\
  forall p l x y, 0 <= p <= 1 -> 0 <= l <= 1 -> 0 <= x < 64 -> 0 <= y < 64 -> Background.bgread_word (turned s p) l x y = Ok (w_tile w p l x y).
