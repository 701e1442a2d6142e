(** Name hashing and comparison shared by the variable and label tables. *)
From Verif Require Import Base.

(** strs.c:68-75 name_hash.  [char] values of names are non-negative (letters,
    digits, '_').  All arithmetic is u32; hmax is a power of two. *)
Fixpoint hash_loop (cs : list Z) (i hash : Z) : Z :=
  match cs with
  | [] => hash
  | c :: t => hash_loop t (i + 1) (u32 (hash + u32 (u32 (c * i) * 179)))
  end.
Definition name_hash (name : list Z) (hmax : Z) : Z :=
  match name with
  | [] => 0     (* not reached: names are never empty (the C code would read name[0]) *)
  | c :: t => Z.land (hash_loop t 1 (u32 c)) (hmax - 1)
  end.

(** strs.c:77-89 namecmp; [b] is the 16-byte name field.  Only defined for
    len <= 16 (assert in C). *)
Fixpoint namecmp (a b : list Z) (room : nat) : bool :=
  match a with
  | [] => match room with O => true | S _ => nth 0 b 0 =? 0 end
  | x :: a' => match room, b with
               | S r, y :: b' => if x =? y then namecmp a' b' r else false
               | _, _ => false
               end
  end.
Definition NAME_MAX : nat := 16.    (* vars.h:55, label.h:16 *)

(** vars.c:100-105, :131-136, label.c:37-43: storing a name of at most 16
    characters into the 16-byte field; a NUL is added when there is room and
    the bytes after it keep their old content. *)
Definition set_name (cells name : list Z) : list Z :=
  name ++ (if Nat.eqb (length name) NAME_MAX then [] else 0 :: skipn (S (length name)) cells).
