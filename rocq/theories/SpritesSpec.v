(** What a program sees of the sprites: SPREAD, SPCHK, SPGETV, the character shown; and the passing of frames. *)
From Verif Require Import Base Memory Sprites.
Open Scope Z_scope.

(** [n] frames later *)
Fixpoint frames (n : nat) (S : sprites) : sprites := match n with O => S | S n => step_sprites (frames n S) end.
(** the whole part of a fixed-point number, rounded down *)
Definition whole (v : Z) : Z := v / 4096.
(** a sprite of screen [q]: the position in 1/4096 pixels, the scale (4096 = 100 %), the angle in 1/4096 degrees *)
Definition x_of (S : sprites) (q id : Z) : Z := px_ (pos (info S q id)).
Definition y_of (S : sprites) (q id : Z) : Z := py_ (pos (info S q id)).
Definition scale_of (S : sprites) (q id : Z) : Z := cv (scale (info S q id)).
Definition angle_of (S : sprites) (q id : Z) : Z := cv (angle (info S q id)).
(** the screen selected *)
Definition screen_ok (S : sprites) : Prop := 0 <= page_ S <= 1.
Definition exists_sprite (S : sprites) (id : Z) : Prop := active (info S (page_ S) id) = true.
(** no sprite of the screen with a lower number is about to finish an animation: one that runs a limited number of times *)
Definition undisturbed (S : sprites) (q id : Z) : Prop :=
  forall j, 0 <= j < id -> active (info S q j) = true -> a_forever (anim_ (info S q j)) = true \/ a_loop (anim_ (info S q j)) <= 0.
(** everything but sprite [id] of screen [q] *)
Definition same_but (q id : Z) (S T : sprites) : Prop :=
  page_ T = page_ S /\ sphitno T = sphitno S /\ sphitx T = sphitx S /\ sphity T = sphity S /\ sphitt T = sphitt S /\
  (forall p j, ~ (p = q /\ j = id) -> info T p j = info S p j).
(** positions that can be subtracted without overflow *)
Definition near (v : Z) : Prop := - 2 ^ 30 <= v < 2 ^ 30.
