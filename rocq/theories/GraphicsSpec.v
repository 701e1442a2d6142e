(** What a program sees of the graphics pages: GSPOIT, and the settings. *)
From Verif Require Import Base Memory Graphics.
Open Scope Z_scope.

(** the whole part of a fixed-point number, rounded down *)
Definition whole (v : Z) : Z := v / 4096.
(** the colour GSPOIT(n, x, y) reports; -2 stands for an error *)
Definition colour_at (g : gfx) (n x y : Z) : Z :=
  match func_gspoit g (Some (n * 4096)) (x * 4096) (y * 4096) with Ok v => whole v | _ => -2 end.
(** the page drawn on *)
Definition target (g : gfx) : Z := drawpage g (screen g).
(** everything but the pages *)
Definition same_settings (g h : gfx) : Prop :=
  screen h = screen g /\ color h = color g /\ drawmode h = drawmode g /\
  (forall s, drawpage h s = drawpage g s) /\ (forall s, displaypage h s = displaypage g s) /\ (forall s, prio h s = prio g s).
(** colour [c] put on colour [old], in the normal or the xor mode *)
Definition blend (xor : bool) (old c : Z) : Z := if xor then Z.lxor old c else c.
(** exactly the points of [S] on the page drawn on have got colour [c], once *)
Definition drawn (g h : gfx) (c : Z) (S : Z -> Z -> Prop) : Prop :=
  same_settings g h /\
  forall n x y, 0 <= n <= 3 -> 0 <= x < 256 -> 0 <= y < 192 ->
    (n = target g /\ S x y -> colour_at h n x y = blend (drawmode g) (colour_at g n x y) c) /\
    (~ (n = target g /\ S x y) -> colour_at h n x y = colour_at g n x y).
(** every pixel as before *)
Definition same_pixels (g h : gfx) : Prop := forall n x y, colour_at h n x y = colour_at g n x y.
(** the states a program can be in: see C60_reachable *)
Definition well (g : gfx) : Prop :=
  0 <= screen g <= 1 /\ 0 <= color g <= 255 /\
  (forall s, 0 <= s <= 1 -> 0 <= drawpage g s <= 3 /\ 0 <= displaypage g s <= 3 /\ 0 <= prio g s <= 3) /\
  (forall n i, 0 <= n <= 3 -> 0 <= i < 49152 -> 0 <= pages g n i <= 255).
(** the colour a drawing command uses: its argument, or the current one *)
Definition colour_arg (g : gfx) (c : option Z) (k : Z) : Prop :=
  match c with None => k = color g | Some v => k = whole v end.

(** ** lines *)
(** the next point of a line that is wider than high: one to the right, at most one up or down *)
Definition step_right (p q : Z * Z) : Prop := fst q = fst p + 1 /\ Z.abs (snd q - snd p) <= 1.
Definition step_down (p q : Z * Z) : Prop := snd q = snd p + 1 /\ Z.abs (fst q - fst p) <= 1.
(** a path: first point, further points, last point *)
Inductive path (step : Z * Z -> Z * Z -> Prop) : Z * Z -> list (Z * Z) -> Z * Z -> Prop :=
| path_one p : path step p [p] p
| path_more p q l r : step p q -> path step q l r -> path step p (p :: l) r.

(** ** areas *)
(** 4-connected by points of [S] *)
Inductive linked (S : Z -> Z -> Prop) (x0 y0 : Z) : Z -> Z -> Prop :=
| linked_start : S x0 y0 -> linked S x0 y0 x0 y0
| linked_next x y x' y' : linked S x0 y0 x y -> Z.abs (x' - x) + Z.abs (y' - y) = 1 -> S x' y' -> linked S x0 y0 x' y'.
