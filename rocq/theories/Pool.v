(** The pool of strings with use counts (source/interpreter/strs.c:118-154, stack.h:56-71, operators.c:134-185).
    The texts themselves (which of the storage formats, which function) are the subject of Strs, StrFuncs; here a text is its list of characters.
    Simplification: use counts are unbounded (uint_fast16_t, 64 bits on the PC). *)
From Verif Require Import Base.
Open Scope Z_scope.

Definition text_ := list Z.
(** strs.h:32-46 struct string, in the pool *)
Record slot_ := mkSlot { uses : Z; wide : bool; chars_ : text_ }.
(** what a string pointer points to: a string in the code or a constant (BC_STRING), a string of the pool, MEM$ (resources.c:522-528) *)
Inductive ref_ := RConst (t : text_) | RDyn (i : nat) | RMem.
(** stack.h:50-54: VAR_STRING, or VAR_STRING|VAR_VARIABLE with a pointer to a variable *)
Inductive entry_ := ETemp (r : ref_) | EVar (v : nat).
(** [vars_]: string variables and elements of string arrays; number 0 is mem_ptr (resources.h:164) *)
Record pool := mkPool { slots : list slot_; vars_ : list ref_; stack_ : list entry_; mem_ : text_ }.
Definition set_stack (p : pool) (s : list entry_) : pool := mkPool (slots p) (vars_ p) s (mem_ p).
Definition set_slots (p : pool) (s : list slot_) : pool := mkPool s (vars_ p) (stack_ p) (mem_ p).
Definition set_vars (p : pool) (v : list ref_) : pool := mkPool (slots p) v (stack_ p) (mem_ p).
Fixpoint update {A} (l : list A) (i : nat) (x : A) : list A :=
  match l, i with [], _ => [] | _ :: r, O => x :: r | y :: r, S i => y :: update r i x end.
Definition slot_at (p : pool) (i : nat) : option slot_ := nth_error (slots p) i.
Definition with_uses (p : pool) (i : nat) (f : Z -> Z) : pool :=
  match slot_at p i with Some s => set_slots p (update (slots p) i (mkSlot (f (uses s)) (wide s) (chars_ s))) | None => p end.

(** strs.c:132-154 get_new_str: the first slot with no uses *)
Fixpoint find_free (l : list slot_) (i : nat) : option nat :=
  match l with [] => None | s :: r => if 0 <? uses s then find_free r (S i) else Some i end.
Definition get_new_str (p : pool) : option nat := find_free (slots p) 0.
(** the new string is filled in: text, type, use count 1 *)
Definition fill (p : pool) (i : nat) (w : bool) (t : text_) : pool := set_slots p (update (slots p) i (mkSlot 1 w t)).
Definition read_ref (p : pool) (r : ref_) : outcome text_ :=
  match r with
  | RConst t => Ok t
  | RMem => Ok (mem_ p)
  | RDyn i => match slot_at p i with Some s => Ok (chars_ s) | None => UB end
  end.
Definition ref_of_entry (p : pool) (e : entry_) : outcome ref_ :=
  match e with ETemp r => Ok r | EVar v => match nth_error (vars_ p) v with Some r => Ok r | None => UB end end.
(** stack.h:58-71 value_str: a temporary is given back *)
Definition value_str (p : pool) (e : entry_) : outcome (pool * ref_) :=
  let* r := ref_of_entry p e in
  match e, r with
  | ETemp _, RDyn i => match slot_at p i with
                       | Some s => if 0 <? uses s then Ok (with_uses p i (fun u => u - 1), r) else UB (* assert *)
                       | None => UB
                       end
  | _, _ => Ok (p, r)
  end.
(** the [k] topmost entries, the last argument on top: all are given back, their texts read.  (The C functions read the texts later, but before anything else is stored.) *)
Fixpoint take_args (k : nat) (p : pool) : outcome (pool * list text_) :=
  match k with
  | O => Ok (p, [])
  | S k => match stack_ p with
           | [] => UB
           | e :: s => let* pr := value_str (set_stack p s) e in
                       let* t := read_ref (fst pr) (snd pr) in
                       let* rest := take_args k (fst pr) in Ok (fst rest, snd rest ++ [t])
           end
  end.
(** what a function does with its texts: a new string, a constant (CHR$, INKEY$, "": strfuncs.c:38, :151, :215, input.c:203-205), a number, an error *)
Inductive fres := Fresh (t : text_) | Shared (t : text_) | Number | Fails (e : err).
Inductive op :=
| PushConst (t : text_)                       (* runner.c:204-212 *)
| PushVar (v : nat)                           (* a variable, an array element, MEM$ *)
| Func (k : nat) (late : bool) (f : list text_ -> fres)
      (* functions and operators that make strings: operators.c:31-47 (+), :78-96 ( * ), strfuncs.c:20-50 (MID$), :83-94 (STR$), :156-189 (SUBST$), :201-231 (LEFT$, RIGHT$), :242-275 (HEX$),
         sysvars.c:48-98 (TIME$, DATE$), resources.c:1217-1250 (PACKAGE$, PRGNAME$), sbc_memory.c:301-316 (PTR$).  [late]: an error comes after the new string has been marked as used (+, *, SUBST$) *)
| Look (k : nat) (f : list text_ -> fres)     (* no new string: comparisons, LEN, ASC, VAL, INSTR, CHR$, PRINT, labels, resource names *)
| Assign                                      (* operators.c:134-185 *)
| StoreLeak (v : nat) (t : text_)             (* READ (data.c:16-33), CHRREAD (resources.c:896-923), BGREAD (background.c:229-239) *)
| StoreInput (v : nat) (w : bool) (t : text_) (* INPUT (console.c:379-404), LINPUT (:441-458) *)
| Swap (v w : nat)                            (* variables.c:9-18 *)
| CheckMem                                    (* resources.c:1196-1209 syschk_mem *)
| Clear                                       (* variables.c:3-7, strs.c:118-122 reset_str *)
| Failed (o : op) (back : bool).              (* the operation reports an error, the user goes on with a direct command; [back]: the arguments were given back before the error (not so in functions that test a number first) *)
Definition push (p : pool) (e : entry_) : pool := set_stack p (e :: stack_ p).
Definition give (p : pool) (new : option nat) (late : bool) (r : fres) : outcome pool :=
  match r with
  | Fresh t => match new with Some i => Ok (push (fill p i false t) (ETemp (RDyn i))) | None => UB (* NULL pointer *) end
  | Shared t => Ok (push p (ETemp (RConst t)))
  | Number => Ok p
  | Fails e => if late then match new with Some _ => Err e | None => UB end else Err e
  end.
Definition is_dyn (r : ref_) : bool := match r with RConst _ => false | _ => true end.
Definition drop (p : pool) (r : ref_) : pool := match r with RDyn i => with_uses p i (fun u => u - 1) | _ => p end.
Definition set_var (p : pool) (v : nat) (r : ref_) : pool := set_vars p (update (vars_ p) v r).
(** what an operation leaves behind when it reports an error: operators.c:35-40, :86-92, strfuncs.c:173-175 have marked the new string, operators.c:149-161 has given back the old text of the variable *)
Definition left_by (o : op) (back : bool) (p : pool) : pool :=
  match o with
  | Func k late f => match (if back then take_args k p else Ok (p, [])) with
                     | Ok q => match late, get_new_str p with true, Some j => fill (fst q) j false [] | _, _ => fst q end
                     | _ => p
                     end
  | Look k f => match (if back then take_args k p else Ok (p, [])) with Ok q => fst q | _ => p end
  | Assign => match stack_ p with
              | b :: EVar v :: s => match value_str (set_stack p s) b with
                                    | Ok q => match nth_error (vars_ p) v with Some old => drop (fst q) old | None => p end
                                    | _ => p
                                    end
              | _ => p
              end
  | _ => p
  end.
Fixpoint step (o : op) (p : pool) : outcome pool :=
  match o with
  | PushConst t => Ok (push p (ETemp (RConst t)))
  | PushVar v => match nth_error (vars_ p) v with Some _ => Ok (push p (EVar v)) | None => UB end
  | Func k late f => let new := get_new_str p in let* q := take_args k p in give (fst q) new late (f (snd q))
  | Look k f => let* q := take_args k p in match f (snd q) with Fresh _ => UB | r => give (fst q) None false r end
  | Assign =>
      match stack_ p with
      | b :: EVar v :: s =>
          let new := get_new_str p in
          let* q := value_str (set_stack p s) b in
          let p := fst q in let src := snd q in
          match nth_error (vars_ p) v with
          | None => UB
          | Some old =>
              let p := drop p old in
              match src with
              | RDyn i => Ok (set_var (with_uses p i (fun u => u + 1)) v src)
              | RConst t => match new with Some j => Ok (set_var (fill p j false t) v (RDyn j)) | None => Err ERR_OUT_OF_MEMORY end
              | RMem => match new with Some j => Ok (set_var (fill p j false (mem_ p)) v (RDyn j)) | None => UB end
              end
          end
      | _ => UB
      end
  | StoreLeak v t =>
      match nth_error (vars_ p) v, get_new_str p with Some _, Some j => Ok (set_var (fill p j false t) v (RDyn j)) | _, _ => UB end
  | StoreInput v w t =>
      match nth_error (vars_ p) v, get_new_str p with
      | Some old, Some j =>
          let p := match old with RDyn i => match slot_at p i with Some s => if wide s then p else drop p old | None => p end | _ => p end in
          Ok (set_var (fill p j w t) v (RDyn j))
      | _, _ => UB
      end
  | Swap v w => match nth_error (vars_ p) v, nth_error (vars_ p) w with
                | Some a, Some b => Ok (set_var (set_var p v b) w a)
                | _, _ => UB
                end
  | CheckMem =>
      match vars_ p with
      | r :: _ => let* t := read_ref p r in
                  Ok (mkPool (slots (drop p r)) (update (vars_ p) 0 RMem) (stack_ p) t)
      | [] => UB
      end
  | Clear => Ok (mkPool (map (fun s => mkSlot 0 (wide s) (chars_ s)) (slots p)) (match vars_ p with r :: vs => r :: map (fun _ => RConst []) vs | [] => [] end) (stack_ p) (mem_ p))
  | Failed o back => match step o p with
                     | Err _ => Ok (set_stack (left_by o back p) []) (* runner.c:182: the next run starts with an empty stack *)
                     | _ => UB
                     end
  end.
Fixpoint run_pool (l : list op) (p : pool) : outcome pool :=
  match l with [] => Ok p | o :: r => let* p := step o p in run_pool r p end.
(** strs.c:91-116: [n] strings; [m] string variables, empty (vars.c:142-144), and MEM$ *)
Definition start_pool (n m : nat) : pool := mkPool (repeat (mkSlot 0 false []) n) (RMem :: repeat (RConst []) m) [] [].
