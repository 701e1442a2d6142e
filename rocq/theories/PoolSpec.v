(** Strings as values: variables hold texts, the stack holds texts and names of variables. *)
From Verif Require Import Base Pool.
Open Scope Z_scope.

Inductive aentry := AText (t : text_) | AVar (v : nat).
Record store := mkStore { avars : list text_; astack : list aentry }.
Definition aread (a : store) (e : aentry) : outcome text_ :=
  match e with AText t => Ok t | AVar v => match nth_error (avars a) v with Some t => Ok t | None => UB end end.
Fixpoint aargs (k : nat) (a : store) : outcome (store * list text_) :=
  match k with
  | O => Ok (a, [])
  | S k => match astack a with
           | [] => UB
           | e :: s => let* t := aread a e in
                       let* rest := aargs k (mkStore (avars a) s) in Ok (fst rest, snd rest ++ [t])
           end
  end.
Definition agive (a : store) (r : fres) : outcome store :=
  match r with
  | Fresh t | Shared t => Ok (mkStore (avars a) (AText t :: astack a))
  | Number => Ok a
  | Fails e => Err e
  end.
Definition aset (a : store) (v : nat) (t : text_) : store := mkStore (update (avars a) v t) (astack a).
Definition astep (o : op) (a : store) : outcome store :=
  match o with
  | PushConst t => Ok (mkStore (avars a) (AText t :: astack a))
  | PushVar v => match nth_error (avars a) v with Some _ => Ok (mkStore (avars a) (AVar v :: astack a)) | None => UB end
  | Func k _ f => let* q := aargs k a in agive (fst q) (f (snd q))
  | Look k f => let* q := aargs k a in match f (snd q) with Fresh _ => UB | r => agive (fst q) r end
  | Assign => match astack a with
              | b :: AVar v :: s => let* t := aread a b in match nth_error (avars a) v with Some _ => Ok (mkStore (update (avars a) v t) s) | None => UB end
              | _ => UB
              end
  | StoreLeak v t | StoreInput v _ t => match nth_error (avars a) v with Some _ => Ok (aset a v t) | None => UB end
  | Swap v w => match nth_error (avars a) v, nth_error (avars a) w with Some x, Some y => Ok (aset (aset a v y) w x) | _, _ => UB end
  | CheckMem => match avars a with [] => UB | _ => Ok a end
  | Clear => Ok (mkStore (match avars a with t :: vs => t :: map (fun _ => []) vs | [] => [] end) (astack a))
  | Failed _ _ => Ok (mkStore (avars a) []) (* an error changes no variable *)
  end.
Fixpoint arun (l : list op) (a : store) : outcome store :=
  match l with [] => Ok a | o :: r => let* a := astep o a in arun r a end.
Definition astart (m : nat) : store := mkStore (repeat [] (S m)) [].

(** the values a program sees in a pool *)
Definition text_at (p : pool) (r : ref_) : text_ :=
  match r with RConst t => t | RMem => mem_ p | RDyn i => match slot_at p i with Some s => chars_ s | None => [] end end.
Definition seen_entry (p : pool) (e : entry_) : aentry := match e with ETemp r => AText (text_at p r) | EVar v => AVar v end.
Definition seen (p : pool) : store := mkStore (map (text_at p) (vars_ p)) (map (seen_entry p) (stack_ p)).
(** no string is free *)
Definition full (p : pool) : Prop := forall i s, slot_at p i = Some s -> 0 < uses s.
(** number of references to string [i] *)
Definition is_ref (i : nat) (r : ref_) : nat := match r with RDyn j => if Nat.eqb i j then 1 else 0 | _ => 0 end.
Definition refs_entry (i : nat) (e : entry_) : nat := match e with ETemp r => is_ref i r | EVar _ => 0 end.
Definition sum_of {A} (f : A -> nat) (l : list A) : nat := fold_right (fun x n => (f x + n)%nat) 0%nat l.
Definition refs (p : pool) (i : nat) : nat := (sum_of (is_ref i) (vars_ p) + sum_of (refs_entry i) (stack_ p))%nat.
(** Not covered: SWAP with MEM$ (C22_swap_mem_refuted), going on after an assignment has failed (C22_failed_assignment_refuted), and CLEAR while values wait on the stack or between an assignment to MEM$ and its check (never: both happen within one statement). *)
Fixpoint fair (o : op) (p : pool) : Prop :=
  match o with
  | Swap v w => v <> 0%nat /\ w <> 0%nat
  | Clear => stack_ p = [] /\ nth_error (vars_ p) 0 = Some RMem
  | Failed o _ => (exists e, step o p = Err e) /\ match o with Assign => False | _ => fair o p end
  | _ => True
  end.
Fixpoint fair_run (l : list op) (p : pool) : Prop :=
  match l with [] => True | o :: r => fair o p /\ match step o p with Ok p => fair_run r p | _ => True end end.
(** at some point of the history no string is free *)
Definition gets_full (l : list op) (p : pool) : Prop := exists l1 l2 q, l = l1 ++ l2 /\ run_pool l1 p = Ok q /\ full q.
(** the operations that forget a string: READ, CHRREAD and BGREAD into a variable that holds a string of the pool, INPUT and LINPUT into one that holds a wide string, an error (the values on the stack) *)
Definition forgets (o : op) (p : pool) : Prop :=
  match o with
  | StoreLeak v _ => exists i, nth_error (vars_ p) v = Some (RDyn i)
  | StoreInput v _ _ => exists i s, nth_error (vars_ p) v = Some (RDyn i) /\ slot_at p i = Some s /\ wide s = true
  | Failed _ _ => True
  | _ => False
  end.
Fixpoint tidy_run (l : list op) (p : pool) : Prop :=
  match l with [] => True | o :: r => ~ forgets o p /\ match step o p with Ok p => tidy_run r p | _ => True end end.
(** string [i] is referred to by a variable or a value on the stack *)
Definition referenced (p : pool) (i : nat) : Prop := In (RDyn i) (vars_ p) \/ In (ETemp (RDyn i)) (stack_ p).
