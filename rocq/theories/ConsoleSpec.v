(** Reference console: one endless page of 32-column lines, of which the last 24
    lines are visible.  Text is put at consecutive positions; lines are added at
    the bottom when the cursor needs them. *)
From Verif Require Import Base Strs Console.

Definition cell : Type := Z * Z.   (* character, colour *)
Record paper := { cells : list cell; pos : Z; colr : Z; tab : Z }.
Definition lines (p : paper) : Z := Z.of_nat (length (cells p)) / 32.
Definition with_pos (p : paper) (n : Z) : paper := {| cells := cells p; pos := n; colr := colr p; tab := tab p |}.
(** add empty lines until the line of position n exists *)
Fixpoint grow (k : nat) (l : list cell) (c : Z) : list cell :=
  match k with O => l | S k => grow k (l ++ repeat (0, c) 32) c end.
Definition need (p : paper) : paper :=
  {| cells := grow (Z.to_nat (pos p / 32 + 1 - lines p)) (cells p) (colr p); pos := pos p; colr := colr p; tab := tab p |}.
Definition put (p : paper) (w : Z) : paper :=
  let p := need p in
  {| cells := upd (cells p) (Z.to_nat (pos p)) (w, colr p); pos := pos p + 1; colr := colr p; tab := tab p |}.
Fixpoint puts (p : paper) (ws : list Z) : paper := match ws with [] => p | w :: t => puts (put p w) t end.
(** a tab fills with spaces up to the next multiple of the tab width, at most to the end of the line *)
Definition tab_width (p : paper) : Z := let x := pos p mod 32 in Z.min (tab p - x mod tab p) (32 - x).
Definition newline (p : paper) : paper := need (with_pos p (32 * (pos p / 32 + 1))).
Definition print1 (p : paper) (i : item) : paper :=
  match i with
  | Text ws => puts (need p) ws
  | Comma => puts p (repeat 32 (Z.to_nat (tab_width p)))
  | Semicolon => p
  end.
Definition print (p : paper) (l : list item) : paper :=
  let p := fold_left print1 l p in
  match last l (Text []) with Text _ => newline p | _ => p end.
(** top-left visible position *)
Definition top (p : paper) : Z := 32 * (lines p - 24).

Inductive op := Print (l : list item) | Locate (x y : Z) | Cls | Color (fg : Z) (bg : option Z) | Tabstep (v : Z).
Definition page_step (p : paper) (o : op) : paper :=
  match o with
  | Print l => print p l
  | Locate x y => if (0 <=? x) && (x <? 32) && (0 <=? y) && (y <? 24) then with_pos p (top p + 32 * y + x) else p
  | Cls => {| cells := repeat (0, colr p) 768; pos := 0; colr := colr p; tab := tab p |}
  | Color fg (Some bg) => {| cells := cells p; pos := pos p; colr := Z.lor fg (bg * 16) mod 256; tab := tab p |}
  | Color fg None => {| cells := cells p; pos := pos p; colr := Z.lor (colr p / 16 * 16) fg mod 256; tab := tab p |}
  | Tabstep v => {| cells := cells p; pos := pos p; colr := colr p; tab := Z.max 1 (Z.min 16 (v / 4096)) |}
  end.
Definition blank : paper := {| cells := repeat (0, 0) 768; pos := 0; colr := 0; tab := 4 |}.
Definition page_run (l : list op) : paper := fold_left page_step l blank.

(** the screen shows the last 24 lines of the page *)
Definition visible (p : paper) : list cell := skipn (Z.to_nat (top p)) (cells p).

(** the same operations on the code *)
Definition step (c : console) (o : op) : outcome console :=
  match o with
  | Print l => cmd_print c l
  | Locate x y => Ok (cmd_locate c x y)
  | Cls => Ok (cmd_cls c)
  | Color fg bg => Ok (cmd_color c fg bg)
  | Tabstep v => Ok (set_tabstep c v)
  end.
Fixpoint run (c : console) (l : list op) : outcome console :=
  match l with [] => Ok c | o :: t => let* c := step c o in run c t end.
