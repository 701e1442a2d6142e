(** Specification vocabulary for strings. *)
From Coq Require Import List ZArith.
From Verif Require Import Base Strs.
Import ListNotations.
Open Scope Z_scope.

(** a PTC text: at most 256 character codes 0..255 *)
Definition ptc_text (cs : list Z) : Prop :=
  Forall (fun c => 0 <= c < 256) cs /\ (length cs <= 256)%nat.

(** [spells s cs]: the stored string [s], whatever its format, is the text [cs].
    Wide strings hold the display code of each character. *)
Definition spells (s : str) (cs : list Z) : Prop :=
  ptc_text cs /\
  match s with
  | SChar b => b = cs
  | SBc b => b = cs /\ (length b <= 255)%nat
  | SWide w => w = map to_wide cs
  end.

(** dictionary order on code lists *)
Inductive lex_lt : list Z -> list Z -> Prop :=
| lex_nil : forall b t, lex_lt [] (b :: t)
| lex_head : forall a b s t, a < b -> lex_lt (a :: s) (b :: t)
| lex_tail : forall a s t, lex_lt s t -> lex_lt (a :: s) (a :: t).

(** [t] occurs in [s] at position [i] *)
Definition occurs_at (t s : list Z) (i : nat) : Prop :=
  exists pre post, s = pre ++ t ++ post /\ length pre = i.

Fixpoint copies (n : nat) (cs : list Z) : list Z :=
  match n with O => [] | S k => cs ++ copies k cs end.
