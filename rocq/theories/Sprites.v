(** Sprites (source/subsystem/sprites.c, sprites.h).  Signed 32-bit overflow is modelled as wrapping around;
    the frame and character counters of the animation are not bounded (they take 2^31 frames to overflow). *)
From Verif Require Import Base Memory Graphics.
Open Scope Z_scope.

Definition MAX_SPRITES : Z := 100.
(** sprites.h:53-64 *)
Record motion := mkMotion { px_ : Z; py_ : Z; pdx : Z; pdy : Z; ptime : Z }.
(** sprites.h:67-87: scale and angle: the value, its change, the time left *)
Record change := mkChange { cv : Z; cd : Z; ctime : Z }.
(** sprites.h:90-107 *)
Record hitbox := mkHit { hdx : Z; hdy : Z; hx : Z; hy : Z; hw : Z; hh : Z; hadjust : bool; hmask : Z }.
(** sprites.h:110-125 *)
Record anim := mkAnim { a_chrs : Z; a_fpc : Z; a_loop : Z; a_forever : bool; a_frame : Z; a_chr : Z }.
(** sprites.h:20-129 *)
Record sprite := mkSprite { active : bool; s_id : Z; s_chr : Z; s_pal : Z; s_w : Z; s_h : Z; s_prio : Z; s_flipx : bool; s_flipy : bool;
  s_homex : Z; s_homey : Z; pos : motion; scale : change; angle : change; hit : hitbox; anim_ : anim; vars : Z -> Z }.
(** sprites.h:16-145: the sprites by screen and control number *)
Record sprites := mkS { page_ : Z; info : Z -> Z -> sprite; sphitno : Z; sphitx : Z; sphity : Z; sphitt : Z }.

Definition set_active v s := mkSprite v (s_id s) (s_chr s) (s_pal s) (s_w s) (s_h s) (s_prio s) (s_flipx s) (s_flipy s) (s_homex s) (s_homey s) (pos s) (scale s) (angle s) (hit s) (anim_ s) (vars s).
Definition set_look c pa fx fy pr s := mkSprite (active s) (s_id s) c pa (s_w s) (s_h s) pr fx fy (s_homex s) (s_homey s) (pos s) (scale s) (angle s) (hit s) (anim_ s) (vars s).
Definition set_home x y s := mkSprite (active s) (s_id s) (s_chr s) (s_pal s) (s_w s) (s_h s) (s_prio s) (s_flipx s) (s_flipy s) x y (pos s) (scale s) (angle s) (hit s) (anim_ s) (vars s).
Definition set_pos v s := mkSprite (active s) (s_id s) (s_chr s) (s_pal s) (s_w s) (s_h s) (s_prio s) (s_flipx s) (s_flipy s) (s_homex s) (s_homey s) v (scale s) (angle s) (hit s) (anim_ s) (vars s).
Definition set_scale v s := mkSprite (active s) (s_id s) (s_chr s) (s_pal s) (s_w s) (s_h s) (s_prio s) (s_flipx s) (s_flipy s) (s_homex s) (s_homey s) (pos s) v (angle s) (hit s) (anim_ s) (vars s).
Definition set_angle v s := mkSprite (active s) (s_id s) (s_chr s) (s_pal s) (s_w s) (s_h s) (s_prio s) (s_flipx s) (s_flipy s) (s_homex s) (s_homey s) (pos s) (scale s) v (hit s) (anim_ s) (vars s).
Definition set_hit v s := mkSprite (active s) (s_id s) (s_chr s) (s_pal s) (s_w s) (s_h s) (s_prio s) (s_flipx s) (s_flipy s) (s_homex s) (s_homey s) (pos s) (scale s) (angle s) v (anim_ s) (vars s).
Definition set_anim v s := mkSprite (active s) (s_id s) (s_chr s) (s_pal s) (s_w s) (s_h s) (s_prio s) (s_flipx s) (s_flipy s) (s_homex s) (s_homey s) (pos s) (scale s) (angle s) (hit s) v (vars s).
Definition set_vars v s := mkSprite (active s) (s_id s) (s_chr s) (s_pal s) (s_w s) (s_h s) (s_prio s) (s_flipx s) (s_flipy s) (s_homex s) (s_homey s) (pos s) (scale s) (angle s) (hit s) (anim_ s) v.

(** sprites.c:10-12 init_sprites: everything zero *)
Definition no_sprite : sprite :=
  mkSprite false 0 0 0 0 0 0 false false 0 0 (mkMotion 0 0 0 0 0) (mkChange 0 0 0) (mkChange 0 0 0) (mkHit 0 0 0 0 0 0 false 0) (mkAnim 0 0 0 false 0 0) (fun _ => 0).
Definition init_sprites : sprites := mkS 0 (fun _ _ => no_sprite) 0 0 0 0.
(** sprites.c:14-33 init_sprite_info; the fields are 8 bits wide, chr 16, but not the hit box *)
Definition init_sprite_info (id chr pal : Z) (horiz vert : bool) (prio w h : Z) : sprite :=
  mkSprite true (u8 id) (u16 chr) (u8 pal) (u8 w) (u8 h) (u8 prio) horiz vert 0 0
    (mkMotion 0 0 0 0 (-1)) (mkChange (INT_TO_FP 1) 0 0) (mkChange 0 0 0)
    (mkHit 0 0 0 0 (INT_TO_FP w) (INT_TO_FP h) false 255) (mkAnim 1 0 0 false 0 (-1)) (fun _ => 0).

(** ** One frame: sprites.c:35-83 step_sprites *)
(** :43-46 *)
Definition step_scale (s : sprite) : sprite :=
  if ctime (scale s) >=? 0 then set_scale (mkChange (s32 (cv (scale s) + cd (scale s))) (cd (scale s)) (ctime (scale s) - 1)) s else s.
(** :47-51 *)
Definition step_angle (s : sprite) : sprite :=
  if ctime (angle s) >=? 0 then set_angle (mkChange (s32 (cv (angle s) + Z.rem (cd (angle s)) (INT_TO_FP 360))) (cd (angle s)) (ctime (angle s) - 1)) s else s.
(** :52-56 *)
Definition step_pos (s : sprite) : sprite :=
  let m := pos s in
  if ptime m >=? 0 then set_pos (mkMotion (s32 (px_ m + pdx m)) (s32 (py_ m + pdy m)) (pdx m) (pdy m) (ptime m - 1)) s else s.
(** :62-63 *)
Definition chr_step (s : sprite) : Z := let k := s_w s * s_h s / 256 in if k <? 1 then 1 else k.
(** :58-79; true: the [break] *)
Definition step_anim (s : sprite) : sprite * bool :=
  let a := anim_ s in
  if a_forever a || (a_loop a >? 0) then
    let f := a_frame a + 1 in
    if f =? a_fpc a then
      let k := chr_step s in
      let c := a_chr a + k in
      if Z.quot (c - s_chr s) k =? a_chrs a then
        let l := if a_forever a then a_loop a else a_loop a - 1 in
        if negb (a_forever a) && (l =? 0) then (set_anim (mkAnim (a_chrs a) (a_fpc a) l (a_forever a) 0 (c - k)) s, true)
        else (set_anim (mkAnim (a_chrs a) (a_fpc a) l (a_forever a) 0 (s_chr s)) s, false)
      else (set_anim (mkAnim (a_chrs a) (a_fpc a) (a_loop a) (a_forever a) 0 c) s, false)
    else (set_anim (mkAnim (a_chrs a) (a_fpc a) (a_loop a) (a_forever a) f (a_chr a)) s, false)
  else (s, false).
(** :41-80: one sprite *)
Definition step_sprite (s : sprite) : sprite * bool :=
  if active s then step_anim (step_pos (step_angle (step_scale s))) else (s, false).
(** :39-81: the sprites i, i+1, .. of a screen, until a [break] *)
Fixpoint step_row (n : nat) (i : Z) (r : Z -> sprite) : Z -> sprite :=
  match n with
  | O => r
  | S n => let '(s, stop) := step_sprite (r i) in let r := upd2 r i s in if stop then r else step_row n (i + 1) r
  end.
Definition step_sprites (S : sprites) : sprites :=
  mkS (page_ S) (upd2 (upd2 (info S) 0 (step_row 100 0 (info S 0))) 1 (step_row 100 0 (info S 1))) (sphitno S) (sphitx S) (sphity S) (sphitt S).

(** ** Collision: sprites.c:88-188 is_hit *)
Record box := mkBox { bx1 : Z; by1 : Z; bx2 : Z; by2 : Z }.
(** :124-134 and :142-153: the scaled hit box at the sprite's position *)
Definition hit_box (s : sprite) : box :=
  let h := hit s in let k := cv (scale s) in let m := pos s in
  mkBox (s32 (px_ m + s32 (hx h * k / 4096))) (s32 (py_ m + s32 (hy h * k / 4096)))
        (s32 (px_ m + s32 ((hx h + hw h) * k / 4096))) (s32 (py_ m + s32 ((hy h + hh h) * k / 4096))).
(** :105-119: the vector of a sprite: SPCOLVEC's, or else its motion *)
Definition hit_vec (s : sprite) : Z * Z :=
  if (hdx (hit s) =? 0) && (hdy (hit s) =? 0) then (pdx (pos s), pdy (pos s)) else (hdx (hit s), hdy (hit s)).
Definition corners (b : box) : list (Z * Z) := [(bx1 b, by1 b); (bx2 b, by1 b); (bx2 b, by2 b); (bx1 b, by2 b)].
(** :155-184: one axis; the products are 64-bit, here unbounded *)
Definition axis_ok (n : Z * Z) (va vb : list (Z * Z)) : bool :=
  if (fst n =? 0) && (snd n =? 0) then true else
  let d q := fst n * fst q + snd n * snd q in
  let lo := fold_left (fun m q => if d q <? m then d q else m) vb (2 ^ 63 - 1) in
  let hi := fold_left (fun m q => if d q >? m then d q else m) vb (- 2 ^ 63) in
  let '(ok, _, _) := fold_left (fun '(ok, l, r) q =>
      let l := l || (d q <? lo) in let r := r || (d q >? hi) in
      (ok || ((lo <=? d q) && (d q <=? hi)) || (l && r), l, r)) va (false, false, false) in
  ok.
Definition is_hit (a b : sprite) : bool :=
  if negb (active a) || negb (active b) then false else
  if Z.land (hmask (hit a)) (hmask (hit b)) =? 0 then false else
  let '(ax, ay) := hit_vec a in let '(bx, by_) := hit_vec b in
  let n := (s32 (s32 (- ay) - s32 (- by_)), s32 (ax - bx)) in
  let va := corners (hit_box a) in
  let va := va ++ map (fun q => (s32 (fst q + snd n), s32 (snd q - fst n))) va in
  let vb := corners (hit_box b) in
  axis_ok (INT_TO_FP 1, 0) va vb && axis_ok (0, INT_TO_FP 1) va vb && axis_ok n va vb.

(** sprites.c:191-197 get_sprite_chr: the character shown *)
Definition get_sprite_chr (s : sprite) : Z := if a_chr (anim_ s) >=? 0 then a_chr (anim_ s) else s_chr s.

(** ** Commands *)
Definition range (S : sprites) (v lo hi : Z) (k : Z -> sprites * fin) : sprites * fin :=
  match int_range v lo hi with None => (S, Raised ERR_OUT_OF_RANGE) | Some n => k n end.
(** stack.h:29 STACK_INT_MIN *)
Definition at_least (S : sprites) (v lo : Z) (k : Z -> sprites * fin) : sprites * fin :=
  if FP_TO_INT v <? lo then (S, Raised ERR_OUT_OF_RANGE) else k (FP_TO_INT v).
(** info[page][id]: outside the table is undefined *)
Definition in_table (S : sprites) (id : Z) : bool := (0 <=? page_ S) && (page_ S <=? 1) && (0 <=? id) && (id <? MAX_SPRITES).
Definition slot (S : sprites) (id : Z) (k : sprite -> sprites * fin) : sprites * fin :=
  if in_table S id then k (info S (page_ S) id) else (S, Crash).
Definition put (S : sprites) (id : Z) (s : sprite) : sprites :=
  mkS (page_ S) (upd2 (info S) (page_ S) (upd2 (info S (page_ S)) id s)) (sphitno S) (sphitx S) (sphity S) (sphitt S).
Definition live (S : sprites) (s : sprite) (k : sprites * fin) : sprites * fin :=
  if active s then k else (S, Raised ERR_ILLEGAL_FUNCTION_CALL).

(** :199-203 *)
Definition cmd_sppage (S : sprites) (v : Z) : sprites * fin :=
  (mkS (FP_TO_INT v) (info S) (sphitno S) (sphitx S) (sphity S) (sphitt S), Done).
(** :205-217; without an argument every sprite of the screen *)
Definition cmd_spclr (S : sprites) (id : option Z) : sprites * fin :=
  match id with
  | Some id => slot S (FP_TO_INT id) (fun s => (put S (FP_TO_INT id) (set_active false s), Done))
  | None => if (0 <=? page_ S) && (page_ S <=? 1)
            then (mkS (page_ S) (upd2 (info S) (page_ S) (fun i => if (0 <=? i) && (i <? MAX_SPRITES) then set_active false (info S (page_ S) i) else info S (page_ S) i))
                    (sphitno S) (sphitx S) (sphity S) (sphitt S), Done)
            else (S, Crash)
  end.
(** :219-240; [wh]: the size given *)
Definition cmd_spset (S : sprites) (id chr pal h v prio : Z) (wh : option (Z * Z)) : sprites * fin :=
  range S id 0 99 (fun id => range S chr 0 (if page_ S =? 0 then 512 else 117) (fun chr => range S pal 0 15 (fun pal => range S prio 0 3 (fun prio =>
  let '(w, hh) := match wh with Some (w, hh) => (FP_TO_INT w, FP_TO_INT hh) | None => (16, 16) end in
  slot S id (fun _ => (put S id (init_sprite_info id chr pal (negb (FP_TO_INT h =? 0)) (negb (FP_TO_INT v =? 0)) prio w hh), Done)))))).
(** :242-272; [& -FIXP_1] rounds down *)
Definition cmd_spofs (S : sprites) (id x y : Z) (t : option Z) : sprites * fin :=
  range S id 0 99 (fun id =>
  let x := Z.land x (- 4096) in let y := Z.land y (- 4096) in
  slot S id (fun s => live S s (
  let jump := (put S id (set_pos (mkMotion x y (pdx (pos s)) (pdy (pos s)) (-1)) s), Done) in
  match t with
  | None => jump
  | Some t => at_least S t 0 (fun t => if t =? 0 then jump else
      (put S id (set_pos (mkMotion (px_ (pos s)) (py_ (pos s)) (Z.quot (s32 (x - px_ (pos s))) t) (Z.quot (s32 (y - py_ (pos s))) t) (t - 1)) s), Done))
  end))).
(** :274-286 *)
Definition cmd_spsetv (S : sprites) (id ix v : Z) : sprites * fin :=
  range S id 0 99 (fun id => range S ix 0 7 (fun ix => slot S id (fun s => live S s (put S id (set_vars (upd2 (vars s) ix v) s), Done)))).
(** :288-300 *)
Definition func_spgetv (S : sprites) (id ix : Z) : outcome Z :=
  match int_range id 0 99, int_range ix 0 7 with
  | Some id, Some ix => if in_table S id then if active (info S (page_ S) id) then Ok (vars (info S (page_ S) id) ix) else Err ERR_ILLEGAL_FUNCTION_CALL else UB
  | _, _ => Err ERR_OUT_OF_RANGE
  end.
(** :318-346 *)
Definition cmd_spcol (S : sprites) (id x y w h sc : Z) (group : option Z) : sprites * fin :=
  range S id 0 99 (fun id => range S x (-128) 127 (fun x => range S y (-128) 127 (fun y => range S w 0 255 (fun w => range S h 0 255 (fun h => range S sc 0 1 (fun sc =>
  let go g := slot S id (fun s => live S s
     (put S id (set_hit (mkHit (hdx (hit s)) (hdy (hit s)) (INT_TO_FP x) (INT_TO_FP y) (INT_TO_FP w) (INT_TO_FP h) (negb (sc =? 0)) g) s), Done)) in
  match group with None => go 255 | Some g => range S g 0 255 go end)))))).
(** :348-363 *)
Definition cmd_spcolvec (S : sprites) (id dx dy : Z) : sprites * fin :=
  range S id 0 99 (fun id => range S dx (-128) 127 (fun dx => range S dy (-128) 127 (fun dy => slot S id (fun s => live S s
    (put S id (set_hit (mkHit (INT_TO_FP dx) (INT_TO_FP dy) (hx (hit s)) (hy (hit s)) (hw (hit s)) (hh (hit s)) (hadjust (hit s)) (hmask (hit s))) s), Done))))).
(** :365-377; the fields are 8 bits wide, signed *)
Definition cmd_sphome (S : sprites) (id x y : Z) : sprites * fin :=
  range S id 0 99 (fun id => slot S id (fun s => live S s (put S id (set_home (s8 (Z.land (FP_TO_INT x) 255)) (s8 (Z.land (FP_TO_INT y) 255)) s), Done))).
(** :379-399 *)
Definition cmd_spscale (S : sprites) (id sc : Z) (t : option Z) : sprites * fin :=
  range S id 0 31 (fun id => range S sc 0 200 (fun sc =>
  if (match t with Some t => t | None => 0 end) <? 0 then (S, Raised ERR_OUT_OF_RANGE) else
  slot S id (fun s => live S s (
  match t with
  | None => (put S id (set_scale (mkChange (Z.quot (INT_TO_FP sc) 100) (cd (scale s)) (-1)) s), Done)
  | Some t => at_least S t 0 (fun t => if t =? 0 then (S, Crash) else
      (put S id (set_scale (mkChange (cv (scale s)) (Z.quot (s32 (Z.quot (INT_TO_FP sc) 100 - cv (scale s))) t) t) s), Done))
  end)))).
(** :401-432 func_sphit; the first hit from [start] on *)
Definition first_hit (S : sprites) (id start : Z) : option Z :=
  find (fun i => negb (i =? id) && is_hit (info S (page_ S) id) (info S (page_ S) i)) (zrange start 99).
Definition func_sphit (S : sprites) (id : Z) (start : option Z) : sprites * outcome Z :=
  match int_range id 0 99, (match start with None => Some 0 | Some v => int_range v 0 99 end) with
  | Some id, Some start =>
      if in_table S id then
        match first_hit S id start with
        | Some i => (mkS (page_ S) (info S) i (px_ (pos (info S (page_ S) id))) (py_ (pos (info S (page_ S) id))) 0, Ok (INT_TO_FP 1))
        | None => (S, Ok (INT_TO_FP 0))
        end
      else (S, UB)
  | _, _ => (S, Err ERR_OUT_OF_RANGE)
  end.
(** :434-454 func_sphitsp: the second argument is "this" sprite *)
Definition func_sphitsp (S : sprites) (other id : Z) : sprites * outcome Z :=
  match int_range id 0 99, int_range other 0 99 with
  | Some id, Some other =>
      if in_table S id then
        if is_hit (info S (page_ S) id) (info S (page_ S) other)
        then (mkS (page_ S) (info S) (sphitno S) (px_ (pos (info S (page_ S) id))) (py_ (pos (info S (page_ S) id))) 0, Ok (INT_TO_FP 1))
        else (S, Ok (INT_TO_FP 0))
      else (S, UB)
  | _, _ => (S, Err ERR_OUT_OF_RANGE)
  end.
(** :456-497 *)
Definition cmd_spangle (S : sprites) (id an : Z) (t dir : option Z) : sprites * fin :=
  range S id 0 99 (fun id => slot S id (fun s => live S s (
  let an := INT_TO_FP (Z.rem (FP_TO_INT an) 360) in
  match t with
  | None => (put S id (set_angle (mkChange an (cd (angle s)) (-1)) s), Done)
  | Some t => at_least S t 0 (fun t =>
      let go d := (put S id (set_angle (if t =? 0 then mkChange an (cd (angle s)) (-1)
                   else mkChange (cv (angle s)) (Z.quot (s32 (if d <? 0 then an - cv (angle s) else cv (angle s) - an)) t) t) s), Done) in
      match dir with
      | None => go 1
      | Some d => let d := FP_TO_INT d in if (d =? 1) || (d =? -1) then go d else (S, Raised ERR_OUT_OF_RANGE)
      end)
  end))).
(** :499-522 *)
Definition cmd_spchr (S : sprites) (id chr : Z) (more : option (Z * Z * Z * Z)) : sprites * fin :=
  range S id 0 99 (fun id => range S chr 0 (if page_ S =? 0 then 511 else 117) (fun chr =>
  match more with
  | None => slot S id (fun s => (put S id (set_look chr (s_pal s) (s_flipx s) (s_flipy s) (s_prio s) s), Done))
  | Some (pal, h, v, prio) =>
      range S pal 0 15 (fun pal => range S h 0 1 (fun h => range S v 0 1 (fun v => range S prio 0 3 (fun prio =>
      slot S id (fun s => (put S id (set_look chr pal (negb (h =? 0)) (negb (v =? 0)) prio s), Done))))))
  end)).
(** :524-535 *)
Definition func_spchk (S : sprites) (id : Z) : outcome Z :=
  match int_range id 0 99 with
  | Some id => if in_table S id then
      let s := info S (page_ S) id in
      Ok (INT_TO_FP (b2z (ptime (pos s) >=? 0) + 2 * b2z (ctime (angle s) >=? 0) + 4 * b2z (ctime (scale s) >=? 0) + 8 * b2z (a_forever (anim_ s) || (a_loop (anim_ s) >? 0))))
      else UB
  | None => Err ERR_OUT_OF_RANGE
  end.
(** :537-563 cmd_spread: x, y, angle, scale, character *)
Definition cmd_spread (S : sprites) (id : Z) : outcome (Z * Z * Z * Z * Z) :=
  match int_range id 0 99 with
  | Some id => if in_table S id then
      let s := info S (page_ S) id in
      Ok (INT_TO_FP (FP_TO_INT (px_ (pos s))), INT_TO_FP (FP_TO_INT (py_ (pos s))), cv (angle s), cv (scale s), s_chr s)
      else UB
  | None => Err ERR_OUT_OF_RANGE
  end.
(** :565-588 *)
Definition cmd_spanim (S : sprites) (id chrs t : Z) (loop : option Z) : sprites * fin :=
  range S id 0 99 (fun id => at_least S chrs 0 (fun chrs => at_least S t 0 (fun t => slot S id (fun s =>
  let a l f := set_anim (mkAnim chrs t l f 0 (s_chr s)) s in
  match loop with
  | None => (put S id (a 0 true), Done)
  | Some l => at_least (put S id (a (a_loop (anim_ s)) (a_forever (anim_ s)))) l 0 (fun l => (put S id (a l (l =? 0)), Done))
  end)))).
(** :590-592 *)
Definition sys_sphitno (S : sprites) : Z := INT_TO_FP (sphitno S).
