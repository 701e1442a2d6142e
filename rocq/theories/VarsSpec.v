(** Reference behaviour of BASIC variables and arrays: maps from names to
    values.  [max] variables, [cells] cells of array memory; [ids] is the mode in
    which CLEAR keeps the names. *)
From Coq Require Import List ZArith Bool.
From Verif Require Import Base Vars.
Import ListNotations.
Open Scope Z_scope.

(** name and type: 1 number, 2 string, +8 array *)
Definition key : Type := list Z * Z.
Definition key_eq (a b : key) : {a = b} + {a <> b}.
Proof. decide equality; [apply Z.eq_dec|apply list_eq_dec, Z.eq_dec]. Defined.
Definition mem (k : key) (l : list key) : bool := if in_dec key_eq k l then true else false.

Record arr := mkA { d1 : Z; d2 : option Z; elem : Z -> Z -> value }.
Definition rows (d : option Z) : Z := match d with None => 1 | Some n => n end.
Definition size (a : arr) : Z := d1 a * rows (d2 a).
(** an element type's initial value: 0 or the empty string *)
Definition zero (t : Z) : value := if t =? VAR_NUMBER then VNum 0 else VStr empty_handle.

Record sstate := mkS { known : list key; sc : key -> value; ar : key -> option arr; used : Z }.
Definition sinit : sstate := mkS [] (fun k => zero (snd k)) (fun _ => None) 0.

Definition set {A} (f : key -> A) (k : key) (x : A) : key -> A :=
  fun k' => if key_eq k' k then x else f k'.
Definition set_elem (f : Z -> Z -> value) (i j : Z) (x : value) : Z -> Z -> value :=
  fun i' j' => if (i' =? i) && (j' =? j) then x else f i' j'.

Section Spec.
Context (max cells : Z) (ids : bool).

(** make a name known; [None] when there is no room for another variable *)
Definition touch (s : sstate) (k : key) : option sstate :=
  if mem k (known s) then Some s
  else if Z.of_nat (length (known s)) >=? max then None
  else Some (mkS (k :: known s) (sc s) (ar s) (used s)).

(** the array a subscripted access refers to: the declared one, or an implicit
    DIM of 10 or 10x10 *)
Definition the_array (s : sstate) (k : key) (t : Z) (j : option Z) : option (sstate * arr) :=
  match ar s k with
  | Some a => Some (s, a)
  | None =>
      let a := mkA 10 (match j with None => None | Some _ => Some 10 end) (fun _ _ => zero t) in
      if used s + size a + 2 >=? cells then None
      else Some (mkS (known s) (sc s) (set (ar s) k (Some a)) (used s + size a + 2), a)
  end.

Definition subscript (a : arr) (i : Z) (j : option Z) : outcome (Z * Z) :=
  if (i <? 0) || (i >=? d1 a) then Err ERR_SUBSCRIPT_OUT_OF_RANGE_X
  else match j with
       | None => Ok (i, 0)
       | Some j => if (j <? 0) || (j >=? rows (d2 a)) then Err ERR_SUBSCRIPT_OUT_OF_RANGE_Y else Ok (i, j)
       end.

Definition access (s : sstate) (n : list Z) (t i : Z) (j : option Z) : outcome (sstate * arr * (Z * Z)) :=
  let k := (n, t + VAR_ARRAY) in
  match touch s k with
  | None => Err ERR_OUT_OF_MEMORY
  | Some s => match the_array s k t j with
              | None => Err ERR_OUT_OF_MEMORY
              | Some (s, a) => let* p := subscript a i j in Ok (s, a, p)
              end
  end.

Definition sstep (s : sstate) (o : op) : sstate * result :=
  match o with
  | Read n t => match touch s (n, t) with None => (s, RErr ERR_OUT_OF_MEMORY)
                | Some s => (s, RVal (sc s (n, t))) end
  | Write n t x => match touch s (n, t) with None => (s, RErr ERR_OUT_OF_MEMORY)
                | Some s => (mkS (known s) (set (sc s) (n, t) x) (ar s) (used s), RUnit) end
  | Dim n t a b =>
      let k := (n, t + VAR_ARRAY) in
      if mem k (known s) && negb (ids && match ar s k with None => true | _ => false end)
      then (s, RErr ERR_DUPLICATE_DIM)
      else match touch s k with
           | None => (s, RErr ERR_OUT_OF_MEMORY)
           | Some s =>
               let x := mkA a b (fun _ _ => zero t) in
               (* a DIM that does not fit is ignored without an error *)
               if used s + size x + 2 >=? cells then (s, RUnit)
               else (mkS (known s) (sc s) (set (ar s) k (Some x)) (used s + size x + 2), RUnit)
           end
  | ARead n t i j =>
      match access s n t i j with
      | Ok (s, a, (i, j)) => (s, RVal (elem a i j))
      | Err e => (s, RErr e) | UB => (s, RUB)
      end
  | AWrite n t i j x =>
      match access s n t i j with
      | Ok (s, a, (i, j)) =>
          (mkS (known s) (sc s)
             (set (ar s) (n, t + VAR_ARRAY) (Some (mkA (d1 a) (d2 a) (set_elem (elem a) i j x)))) (used s), RUnit)
      | Err e => (s, RErr e) | UB => (s, RUB)
      end
  | Clear => (mkS (if ids then known s else []) (fun k => zero (snd k)) (fun _ => None) 0, RUnit)
  | FreeVar => (s, RVal (VNum (max - Z.of_nat (length (known s)))))
  end.

Fixpoint srun (s : sstate) (ops : list op) : list result :=
  match ops with
  | [] => []
  | o :: t => let '(s, r) := sstep s o in
              match r with RErr _ | RUB => [r] | _ => r :: srun s t end
  end.

(** The operations covered: legal names, the two element types, subscripts that
    are BASIC integers, declared sizes not negative and of representable
    product, no single subscript on an array declared with zero rows, two
    subscripts only on two-dimensional arrays, the second one not -1, and FREEVAR
    only where CLEAR forgets the names. *)
Definition legal_name (n : list Z) : Prop := (1 <= length n <= 16)%nat /\ Forall (fun c => 0 < c < 256) n.
Definition basic_int (i : Z) : Prop := -524288 <= i < 524288.
Definition allowed (s : sstate) (o : op) : Prop :=
  match o with
  | Read n t | Write n t _ => legal_name n /\ (t = 1 \/ t = 2)
  | Dim n t a b => legal_name n /\ (t = 1 \/ t = 2) /\ 0 <= a < 524288 /\
      match b with None => True | Some b => 0 <= b < 524288 /\ a * b < 2147483648 end
  | ARead n t i j | AWrite n t i j _ => legal_name n /\ (t = 1 \/ t = 2) /\ basic_int i /\
      match j with
      | None => match ar s (n, t + VAR_ARRAY) with Some a => 0 < rows (d2 a) | None => True end
      | Some j => basic_int j /\ j <> -1 /\
                  match ar s (n, t + VAR_ARRAY) with Some a => d2 a <> None | None => True end
      end
  | Clear => True
  | FreeVar => ids = false
  end.
Fixpoint all_allowed (s : sstate) (ops : list op) : Prop :=
  match ops with
  | [] => True
  | o :: t => allowed s o /\ let '(s, r) := sstep s o in
              match r with RErr _ | RUB => True | _ => all_allowed s t end
  end.
End Spec.
