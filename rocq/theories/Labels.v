(** Label table (source/interpreter/label.c) and its sizing (program.c). *)
From Verif Require Import Base Hash Strs.

(** label.h:22-40 struct label_line, struct labels.  calloc gives empty names. *)
Record label_line := mkLabel { l_name : list Z; l_index : Z }.
Record labels := mkLabels { label_count : Z; l_entry : list label_line }.
Definition no_label : label_line := mkLabel (repeat 0 16) 0.
Definition LABEL_NOT_FOUND : Z := 4294967295.    (* label.h:18 *)

(** label.c:11-21 init_labels (label_count a power of two or 0) *)
Definition init_labels (count : Z) : labels := mkLabels count (repeat no_label (Z.to_nat count)).

Definition entry (l : labels) (i : Z) : label_line := nth (Z.to_nat i) (l_entry l) no_label.
Definition first_char (x : label_line) : Z := nth 0 (l_name x) 0.

(** The probing loop shared by label.c:55-74 find_label and label.c:77-94
    find_label_slot, which differ only in what they return: the loop ends at an
    empty slot, at the name, or after label_count + 1 rounds. *)
Inductive probe := Empty (p : Z) | Found (p : Z) | Nothing.
Fixpoint probe_loop (fuel : nat) (l : labels) (name : list Z) (hash step : Z) : probe :=
  match fuel with
  | O => Nothing
  | S f =>
      let hash := Z.land (hash + step) (label_count l - 1) in
      if first_char (entry l hash) =? 0 then Empty hash
      else if step >=? label_count l then Nothing
      else if namecmp name (l_name (entry l hash)) NAME_MAX then Found hash
      else probe_loop f l name hash (step + 1)
  end.
Definition probe_label (l : labels) (name : list Z) : probe :=
  probe_loop (S (Z.to_nat (label_count l))) l name (name_hash name (label_count l)) 0.

(** label.c:55-74 find_label: -1 is None *)
Definition find_label (l : labels) (name : list Z) : option Z :=
  match probe_label l name with Found p => Some p | _ => None end.
(** label.c:77-94 find_label_slot *)
Definition find_label_slot (l : labels) (name : list Z) : option Z :=
  match probe_label l name with Empty p => Some p | _ => None end.

(** label.c:27-45 add_label; None is failure (tokens.c:310 reports Label add failure) *)
Definition add_label (l : labels) (name : list Z) (index : Z) : option labels :=
  match find_label_slot l name with
  | None => None
  | Some p => Some (mkLabels (label_count l)
      (upd (l_entry l) (Z.to_nat p) (mkLabel (set_name (l_name (entry l p)) name) index)))
  end.

(** label.c:47-52 reset_label *)
Definition reset_label (l : labels) : labels :=
  mkLabels (label_count l) (map (fun x => mkLabel (upd (l_name x) 0%nat 0) (l_index x)) (l_entry l)).

(** label.c:96-102 label_index *)
Definition label_index (l : labels) (name : list Z) : Z :=
  match find_label l name with None => LABEL_NOT_FOUND | Some p => l_index (entry l p) end.

(** label.c:104-134 search_label.  [Lit cs] is a label in the compiled program
    (BC_LABEL, BC_LABEL_STRING: stored without '@'), [Text cs] any other string,
    whose first character is dropped unseen.  Lengths that fail the assertions,
    and the empty string (length -1 becomes 255), are UB.  A table of size 0 has
    a NULL entry pointer. *)
Inductive target := Lit (cs : list Z) | Text (cs : list Z).
Definition search_label (l : labels) (x : target) : outcome Z :=
  let go name := if label_count l =? 0 then UB else
    let i := label_index l name in
    if i =? LABEL_NOT_FOUND then Err ERR_LABEL_NOT_FOUND else Ok i in
  match x with
  | Lit cs => if (length cs <=? 16)%nat then go cs else UB
  | Text cs => match cs with
               | [] => UB
               | _ :: name => if (length name <=? 16)%nat then go name else UB
               end
  end.

(** tokens.c:301-321: defining the labels of a program, in order *)
Fixpoint load (l : labels) (defs : list (list Z * Z)) : option labels :=
  match defs with
  | [] => Some l
  | (name, i) :: t => match add_label l name i with None => None | Some l => load l t end
  end.

(** program.c:57-82 calc_min_bytecode, label part.  [labels] is an int; negative
    shifts are arithmetic (gcc). *)
Fixpoint count_loop (data : list Z) (first : bool) (n : Z) : Z :=
  match data with
  | [] => n
  | c :: t => if c =? 13 then count_loop t true n
              else if first && (c =? 64) then count_loop t first (n + 1)
              else if negb (c =? 32) then count_loop t false n
              else count_loop t first n
  end.
Definition round_labels (n : Z) : Z :=
  let x := n - 1 in
  let x := Z.lor x (Z.shiftr x 16) in
  let x := Z.lor x (Z.shiftr x 8) in
  let x := Z.lor x (Z.shiftr x 4) in
  let x := Z.lor x (Z.shiftr x 2) in
  let x := Z.lor x (Z.shiftr x 1) in
  x + 1.
Definition calc_min_labels (data : list Z) : Z := round_labels (count_loop data true 0).
