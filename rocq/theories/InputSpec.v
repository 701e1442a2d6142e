(** What a program sees of keys and buttons. *)
From Verif Require Import Base Input.

(** key events and reads, in the order in which they happen *)
Inductive key_event := Typed (k : Z) | Read.
(** ideal queue of 256 keys: answers of the typed/read events *)
Fixpoint queue_run (q : list Z) (l : list key_event) : list Z * list (bool + Z) :=
  match l with
  | [] => (q, [])
  | Typed k :: t =>
      if Z.of_nat (length q) <? 256
      then let (q', r) := queue_run (q ++ [k]) t in (q', inl true :: r)
      else let (q', r) := queue_run q t in (q', inl false :: r)
  | Read :: t =>
      match q with
      | [] => let (q', r) := queue_run [] t in (q', inr 0 :: r)
      | k :: q0 => let (q', r) := queue_run q0 t in (q', inr k :: r)
      end
  end.

(** button events: one frame with the set of held buttons (12 bits), or BREPEAT *)
Inductive button_event := Frame (b : Z) | Brepeat (id start repeat : Z).
(** for how many consecutive last frames button j was held (most recent event first) *)
Fixpoint held (j : Z) (l : list button_event) : Z :=
  match l with
  | [] => 0
  | Frame b :: t => if Z.testbit b j then 1 + held j t else 0
  | Brepeat _ _ _ :: t => held j t
  end.
(** repeat setting of button j *)
Fixpoint setting (j : Z) (l : list button_event) : Z * Z :=
  match l with
  | [] => (0, 0)
  | Frame _ :: t => setting j t
  | Brepeat id s r :: t => if id =? j then (s, r) else setting j t
  end.
(** last and previous frame's buttons *)
Fixpoint frames (l : list button_event) : list Z :=
  match l with [] => [] | Frame b :: t => b :: frames t | Brepeat _ _ _ :: t => frames t end.
Definition now (l : list button_event) : Z := nth 0 (frames l) 0.
Definition before (l : list button_event) : Z := nth 1 (frames l) 0.
(** a button counts as pressed in its first frame and, with repeat r > 0, in the frames
    start+1, start+1+(r+1), start+1+2(r+1), ... of being held *)
Definition fires (h s r : Z) : Prop :=
  h = 1 \/ 0 < r /\ exists n, 0 <= n /\ h = s + 1 + n * (r + 1).
Definition valid_event (e : button_event) : Prop :=
  match e with
  | Frame b => 0 <= b < 4096
  | Brepeat id s r => 0 <= id < 12 /\ 0 <= s /\ 0 <= r
  end.

(** what BUTTON(mode) must show at button j *)
Definition shows (mode : Z) (l : list button_event) (j : Z) : Prop :=
  let on b := Z.testbit b j = true in
  (mode = 0 /\ on (now l)) \/
  (mode = 1 /\ fires (held j l) (fst (setting j l)) (snd (setting j l))) \/
  (mode = 2 /\ on (now l) /\ ~ on (before l)) \/
  (mode = 3 /\ ~ on (now l) /\ on (before l)).


(** the queue itself is a FIFO: what was read, then what is left, is what was accepted *)
Fixpoint accepted (l : list key_event) (r : list (bool + Z)) : list Z :=
  match l, r with
  | Typed k :: t, inl true :: r => k :: accepted t r
  | _ :: t, _ :: r => accepted t r
  | _, _ => []
  end.
Fixpoint returned (r : list (bool + Z)) : list Z :=
  match r with [] => [] | inr 0 :: r => returned r | inr k :: r => k :: returned r | inl _ :: r => returned r end.

(** * Histories run on the modelled code *)
(** running key events on the code *)
Fixpoint key_run (i : inkey) (l : list key_event) : outcome (inkey * list (bool + Z)) :=
  match l with
  | [] => Ok (i, [])
  | Typed k :: t => let* (b, i) := set_inkey i k in let* (i, r) := key_run i t in Ok (i, inl b :: r)
  | Read :: t => let* (k, i) := get_inkey i in let* (i, r) := key_run i t in Ok (i, inr k :: r)
  end.

Definition button_step (s : buttons) (e : button_event) : outcome buttons :=
  match e with
  | Frame b => let* (_, s) := set_input s b in Ok s
  | Brepeat id st rp => match cmd_brepeat s [id; st; rp] with (s, None) => Ok s | (_, Some e) => Err e end
  end.
(** history, most recent event first *)
Fixpoint button_run (l : list button_event) : outcome buttons :=
  match l with [] => Ok init_buttons | e :: t => let* s := button_run t in button_step s e end.

