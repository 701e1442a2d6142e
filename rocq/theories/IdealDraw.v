(** The ideal computer with drawing: four boards of 256 x 192 coloured dots, one of them drawn on.  [UB] is what is left unspecified.

    Independent of the code: of the models only the entries of the argument stack are used. *)
From Verif Require Import Base Tokens Runner Ideal HostData Codes BytecodeSpec FlowSpec ProgSpec StmtSpec IdealData IdealAsk.
From Verif Require Draw Graphics GraphicsSpec.

(** the places of the names in the lists of commands and functions *)
Definition CMD_GBOX := 57. Definition CMD_GCLS := 59. Definition CMD_GCOLOR := 60. Definition CMD_GCOPY := 61. Definition CMD_GDRAWMD := 62. Definition CMD_GFILL := 63. Definition CMD_GLINE := 64.
Definition CMD_GPAGE := 65. Definition CMD_GPSET := 67. Definition CMD_GPRIO := 68. Definition FUNC_GSPOIT := 14.
Definition draws (c : Z) : bool :=
  (c =? CMD_GBOX) || ((57 <? c) && (c <? 66) && negb (c =? 58)) || (c =? CMD_GPSET) || (c =? CMD_GPRIO).
Record board := mkB { b_screen : Z; b_colour : Z; b_xor : bool; b_draw : Z -> Z; b_show : Z -> Z; b_prio : Z -> Z; b_dot : Z -> Z -> Z -> Z }.
Definition at_place {A} (f : Z -> A) (i : Z) (v : A) : Z -> A := fun j => if j =? i then v else f j.
Definition choose (b : board) (s : Z) : board := mkB s (b_colour b) (b_xor b) (b_draw b) (b_show b) (b_prio b) (b_dot b).
(** the boards drawn on and shown, of the screen chosen *)
Definition turn (b : board) (d v : Z) : board :=
  mkB (b_screen b) (b_colour b) (b_xor b) (at_place (b_draw b) (b_screen b) d) (at_place (b_show b) (b_screen b) v) (b_prio b) (b_dot b).
Definition take_ink (b : board) (k : Z) : board := mkB (b_screen b) k (b_xor b) (b_draw b) (b_show b) (b_prio b) (b_dot b).
Definition take_mode (b : board) (x : bool) : board := mkB (b_screen b) (b_colour b) x (b_draw b) (b_show b) (b_prio b) (b_dot b).
Definition lay (b : board) (v : Z) : board := mkB (b_screen b) (b_colour b) (b_xor b) (b_draw b) (b_show b) (at_place (b_prio b) (b_screen b) v) (b_dot b).
Definition drawn_on (b : board) : Z := b_draw b (b_screen b).
Definition dots (b : board) (f : Z -> Z -> Z -> Z) : board := mkB (b_screen b) (b_colour b) (b_xor b) (b_draw b) (b_show b) (b_prio b) f.
(** every dot of the board drawn on *)
Definition wipe (b : board) (k : Z) : board := dots b (fun n x y => if n =? drawn_on b then k else b_dot b n x y).
(** the dots [S], with colour [k]: put there, or exclusive or *)
Definition paint (b : board) (k : Z) (S : Z -> Z -> bool) : board :=
  dots b (fun n x y => if (n =? drawn_on b) && S x y then if b_xor b then Z.lxor (b_dot b n x y) k else k else b_dot b n x y).
Definition within (lo x hi : Z) : bool := (lo <=? x) && (x <=? hi).
(** the whole part of an argument, which must be in a range *)
Definition ranged (lo hi v : Z) (k : Z -> outcome board) : outcome board := if within lo (v / 4096) hi then k (v / 4096) else Err ERR_OUT_OF_RANGE.
(** the colour given, or the present one *)
Definition inked (b : board) (c : option Z) (k : Z -> outcome board) : outcome board := match c with None => k (b_colour b) | Some v => ranged 0 255 v k end.
Definition dot_at (x y : Z) (a b : Z) : bool := (a =? x) && (b =? y).
Definition filled (x1 y1 x2 y2 a b : Z) : bool := within x1 a x2 && within y1 b y2.
Definition framed (x1 y1 x2 y2 a b : Z) : bool := filled x1 y1 x2 y2 a b && ((a =? x1) || (a =? x2) || (b =? y1) || (b =? y2)).
Definition lined (x1 y1 x2 y2 a b : Z) : bool :=
  within (Z.min x1 x2) a (Z.max x1 x2) && within (Z.min y1 y2) b (Z.max y1 y2) && ((a - x1) * (y2 - y1) =? (b - y1) * (x2 - x1)).
(** level, upright and diagonal lines *)
Definition straight (x1 y1 x2 y2 : Z) : bool :=
  ((x1 =? x2) || (y1 =? y2) || (Z.abs (x2 - x1) =? Z.abs (y2 - y1))) && (Z.abs (x2 - x1) <? 524288) && (Z.abs (y2 - y1) <? 524288).

(** GPSET off the board does nothing *)
Definition draw_dot (b : board) (x y : Z) (c : option Z) : outcome board :=
  if within 0 (x / 4096) 255 && within 0 (y / 4096) 191 then inked b c (fun k => Ok (paint b k (dot_at (x / 4096) (y / 4096)))) else Ok b.
(** a rectangle: the lower right corner not left of the board and not above it *)
Definition draw_fill (b : board) (x1 y1 x2 y2 : Z) (c : option Z) : outcome board :=
  inked b c (fun k => if (0 <=? x2 / 4096) && (0 <=? y2 / 4096) && (x1 / 4096 <=? x2 / 4096) && (y1 / 4096 <=? y2 / 4096)
                      then Ok (paint b k (filled (x1 / 4096) (y1 / 4096) (x2 / 4096) (y2 / 4096))) else UB).
(** a frame, not exclusive or: the upper left corner on the board *)
Definition draw_frame (b : board) (x1 y1 x2 y2 : Z) (c : option Z) : outcome board :=
  inked b c (fun k => if negb (b_xor b) && (0 <=? x1 / 4096) && (0 <=? y1 / 4096) && (x1 / 4096 <=? x2 / 4096) && (y1 / 4096 <=? y2 / 4096)
                      then Ok (paint b k (framed (x1 / 4096) (y1 / 4096) (x2 / 4096) (y2 / 4096))) else UB).
Definition draw_line (b : board) (x1 y1 x2 y2 : Z) (c : option Z) : outcome board :=
  inked b c (fun k => if straight (x1 / 4096) (y1 / 4096) (x2 / 4096) (y2 / 4096) then Ok (paint b k (lined (x1 / 4096) (y1 / 4096) (x2 / 4096) (y2 / 4096))) else UB).
(** the dots of board [n] in a rectangle (colour 0 beside the board), as they are before the command, put on the board drawn on, the first at (x3, y3); all of them, or those not of colour 0 *)
Definition copied (b : board) (n x1 y1 x2 y2 x3 y3 : Z) (all : bool) : board :=
  dots b (fun d x y => let u := x - x3 + Z.min x1 x2 in let v := y - y3 + Z.min y1 y2 in
    let k := if within 0 u 255 && within 0 v 191 then b_dot b n u v else 0 in
    if (d =? drawn_on b) && within (Z.min x1 x2) u (Z.max x1 x2) && within (Z.min y1 y2) v (Z.max y1 y2) && (all || negb (k =? 0)) then k else b_dot b d x y).
Definition draw_copy (b : board) (n x1 y1 x2 y2 x3 y3 m : Z) : outcome board :=
  Ok (copied b n (x1 / 4096) (y1 / 4096) (x2 / 4096) (y2 / 4096) (x3 / 4096) (y3 / 4096) (negb (m / 4096 =? 0))).
Definition draw_ido (c : Z) (vs : list Z) (b : board) : outcome board :=
  if c =? CMD_GPAGE then
    match vs with
    | [s] => ranged 0 1 s (fun s => Ok (choose b s))
    | [s; d; v] => ranged 0 1 s (fun s => ranged 0 3 d (fun d => ranged 0 3 v (fun v => Ok (turn (choose b s) d v))))
    | _ => UB
    end
  else if c =? CMD_GCOLOR then match vs with [k] => ranged 0 255 k (fun k => Ok (take_ink b k)) | _ => UB end
  else if c =? CMD_GDRAWMD then match vs with [k] => ranged 0 1 k (fun k => Ok (take_mode b (k =? 1))) | _ => UB end
  else if c =? CMD_GPRIO then match vs with [k] => ranged 0 3 k (fun k => Ok (lay b k)) | _ => UB end
  else if c =? CMD_GCLS then match vs with [] => inked b None (fun k => Ok (wipe b k)) | [k] => inked b (Some k) (fun k => Ok (wipe b k)) | _ => UB end
  else if c =? CMD_GPSET then match vs with [x; y] => draw_dot b x y None | [x; y; k] => draw_dot b x y (Some k) | _ => UB end
  else if c =? CMD_GFILL then match vs with [x; y; u; v] => draw_fill b x y u v None | [x; y; u; v; k] => draw_fill b x y u v (Some k) | _ => UB end
  else if c =? CMD_GBOX then match vs with [x; y; u; v] => draw_frame b x y u v None | [x; y; u; v; k] => draw_frame b x y u v (Some k) | _ => UB end
  else if c =? CMD_GCOPY then
    match vs with
    | [x; y; u; v; s; t; m] => draw_copy b (drawn_on b) x y u v s t m
    | [p; x; y; u; v; s; t; m] => ranged 0 3 p (fun p => draw_copy b p x y u v s t m)
    | _ => UB
    end
  else match vs with [x; y; u; v] => draw_line b x y u v None | [x; y; u; v; k] => draw_line b x y u v (Some k) | _ => UB end.
(** GSPOIT: the colour of a dot, -1 beside the board *)
Definition seen (b : board) (n x y : Z) : Z := if within 0 (x / 4096) 255 && within 0 (y / 4096) 191 then 4096 * b_dot b n (x / 4096) (y / 4096) else -4096.
Definition look_ido (vs : list Z) (b : board) : outcome Z :=
  match vs with
  | [x; y] => Ok (seen b (drawn_on b) x y)
  | [p; x; y] => if within 0 (p / 4096) 3 then Ok (seen b (p / 4096) x y) else Err ERR_OUT_OF_RANGE
  | _ => UB
  end.
Fixpoint inums (s : istate) (es : list (entry iloc)) : outcome (list Z) := match es with [] => Ok [] | e :: es => let* v := num s e in let* vs := inums s es in Ok (v :: vs) end.
Section Draw.
Variable S : Type.
Variable is_ : S -> istate.
Definition draw_icmd (c : Z) (args : list (entry iloc)) (st : S * board) : option (outcome (S * board)) :=
  if draws c then Some (let* vs := inums (is_ (fst st)) args in let* b := draw_ido c vs (snd st) in Ok (fst st, b)) else None.
Definition draw_ifun (c : Z) (args : list (entry iloc)) (st : S * board) : option (outcome Z) :=
  if c =? FUNC_GSPOIT then Some (let* vs := inums (is_ (fst st)) args in look_ido vs (snd st)) else None.
End Draw.
Notation ask_istate := ((istate * list (list Z)) * list (option (list Z)))%type.
Definition ideal_draw (us : list statement) (its : list (list (list Z))) (max cells : Z) : host :=
  Draw.with_fun (attach (ideal_ask us its max cells) board (draw_icmd ask_istate (fun s => fst (fst s)))) (draw_ifun ask_istate (fun s => fst (fst s))).
Definition ideal_draw_text (st : ask_istate * board) (l : iloc) : list Z := ideal_ask_text (fst st) l.
Definition ideal_draw_start (its : list (list (list Z))) (todo : list (option (list Z))) (b : board) : ask_istate * board := (ideal_ask_start its todo, b).
(** a blank board as after switching on *)
Definition blank_board : board := mkB 0 0 false (fun s => s) (fun s => s) (fun _ => 3) (fun _ _ _ => 0).

(** ** A board and the graphics memory *)
(** the boards are what GSPOIT reports (GraphicsSpec.v), the settings are the same, and all is in range *)
Definition pictured (b : board) (g : Graphics.gfx) : Prop :=
  GraphicsSpec.well g /\ b_screen b = Graphics.screen g /\ b_colour b = Graphics.color g /\ b_xor b = Graphics.drawmode g /\
  (forall s, 0 <= s <= 1 -> b_draw b s = Graphics.drawpage g s /\ b_show b s = Graphics.displaypage g s /\ b_prio b s = Graphics.prio g s) /\
  (forall n x y, 0 <= n <= 3 -> 0 <= x < 256 -> 0 <= y < 192 -> b_dot b n x y = GraphicsSpec.colour_at g n x y).
