(** Variable table and array memory (source/interpreter/vars.c, arrays.c). *)
From Verif Require Import Base Hash.

(** vars.h:15-33 enum types, exact tags stored in table slots *)
Definition VAR_EMPTY : Z := 0.
Definition VAR_NUMBER : Z := 1.
Definition VAR_STRING : Z := 2.
Definition VAR_ARRAY : Z := 8.

(** vars.h:48-51 union value.  Strings are represented by a handle (their
    memory is modelled in StrPool.v), arrays by their offset in the array memory. *)
Inductive value := VNum (n : Z) | VStr (h : Z) | VNull | VArr (off : Z).
Definition empty_handle : Z := 0.     (* strs.c:31 empty_str *)

(** arrays.h:26-33 struct arrays.  The memory is a list of union values; an
    array at offset o has its sizes in cells o, o+1 and its elements from o+2. *)
Record arrays := mkArr { arr_data_size : Z; arr_data_next : Z; arr_data : list value }.
Definition ARR_DIM2_UNUSED : Z := 4294967295.   (* arrays.h:12 *)

(** vars.h:58-65 struct named_var *)
Record named_var := mkVar { v_type : Z; v_name : list Z; v_value : value }.
(** vars.h:70-82 struct variables *)
Record variables := mkVars {
  vars_max : Z; var_count : Z; vars : list named_var; v_error : option err;
  clear_values : bool; arrs : arrays }.

Definition set_vars (v : variables) (l : list named_var) : variables :=
  mkVars (vars_max v) (var_count v) l (v_error v) (clear_values v) (arrs v).
Definition set_arrs (v : variables) (a : arrays) : variables :=
  mkVars (vars_max v) (var_count v) (vars v) (v_error v) (clear_values v) a.
Definition set_error (v : variables) (e : err) : variables :=
  mkVars (vars_max v) (var_count v) (vars v) (Some e) (clear_values v) (arrs v).
Definition inc_count (v : variables) : variables :=
  mkVars (vars_max v) (var_count v + 1) (vars v) (v_error v) (clear_values v) (arrs v).

Definition no_var : named_var := mkVar VAR_EMPTY (repeat 0 16) VNull.
Definition slot (v : variables) (i : Z) : named_var := nth (Z.to_nat i) (vars v) no_var.
Definition set_slot (v : variables) (i : Z) (x : named_var) : variables :=
  set_vars v (upd (vars v) (Z.to_nat i) x).

(** arrays.c:12-16 init_mem_arr; vars.c:12-25 init_mem_var (count is a power of
    two, asserted); system.c:33-43.  calloc gives zeroed memory. *)
Definition init_arrays (array_count element_count : Z) : arrays :=
  let n := element_count + 2 * array_count in mkArr n 0 (repeat (VNum 0) (Z.to_nat n)).
Definition init_vars (max elements : Z) (ids : bool) : variables :=
  mkVars max 0 (repeat no_var (Z.to_nat max)) None ids (init_arrays max elements).

(** vars.c:27-48 reset_var *)
Definition reset_value (x : named_var) : named_var :=
  mkVar (v_type x) (v_name x)
    (if v_type x =? VAR_NUMBER then VNum 0
     else if v_type x =? VAR_STRING then VStr empty_handle else VNull).
Definition reset_var (v : variables) : variables :=
  if clear_values v then set_vars v (map reset_value (vars v))
  else mkVars (vars_max v) 0 (map (fun x => mkVar VAR_EMPTY (v_name x) (v_value x)) (vars v))
         (v_error v) (clear_values v) (arrs v).

(** arrays.c:18-22 reset_arr *)
Definition reset_arr (a : arrays) : arrays :=
  mkArr (arr_data_size a) 0 (repeat (VNum 0) (Z.to_nat (arr_data_size a))).

(** subsystem/variables.c:3-7 cmd_clear (strings are in StrPool.v) *)
Definition cmd_clear (v : variables) : variables :=
  let v := reset_var v in set_arrs v (reset_arr (arrs v)).

(** vars.c:66-83 search_name_type: [fuel] bounds the do-while loop, which makes
    at most vars_max + 1 rounds. *)
Fixpoint search_loop (fuel : nat) (v : variables) (name : list Z) (type hash step : Z) : option Z :=
  match fuel with
  | O => None
  | S f =>
      let hash := (hash + step) mod vars_max v in
      let var := slot v hash in
      if step >=? vars_max v then None
      else if negb (v_type var =? VAR_EMPTY) &&
              (negb (namecmp name (v_name var) NAME_MAX) || negb (v_type var =? type))
      then search_loop f v name type hash (step + 1)
      else Some hash
  end.
Definition search_name_type (v : variables) (name : list Z) (type : Z) : option Z :=
  search_loop (S (Z.to_nat (vars_max v))) v name type (name_hash name (vars_max v)) 0.

(** vars.c:143-153 default values; array types start with a NULL pointer *)
Definition default_value (type : Z) : value :=
  if type =? VAR_NUMBER then VNum 0
  else if type =? VAR_STRING then VStr empty_handle else VNull.

(** vars.c:119-157 get_var: the slot index (a pointer in C), or Out of memory *)
Definition get_var (v : variables) (name : list Z) (type : Z) : variables * outcome Z :=
  match search_name_type v name type with
  | None => (set_error v ERR_OUT_OF_MEMORY, Err ERR_OUT_OF_MEMORY)
  | Some i =>
      let var := slot v i in
      if v_type var =? VAR_EMPTY
      then (set_slot (inc_count v) i (mkVar type (set_name (v_name var) name) (default_value type)), Ok i)
      else (v, Ok i)
  end.

(** arrays.c:28-53 get_init_new_arr.  Sizes are u32; [size] is an int, the test
    is in u32.  Result [Ok None] is a NULL pointer.  Stores outside the memory
    are UB. *)
Fixpoint fill (l : list value) (pos count : nat) (x : value) : list value :=
  match count with O => l | S k => fill (upd l pos x) (S pos) k x end.
Definition get_init_new_arr (a : arrays) (size1 size2 type : Z) : outcome (option (arrays * Z)) :=
  let size := s32 (if size2 =? ARR_DIM2_UNUSED then size1 else u32 (size1 * size2)) in
  let next := arr_data_next a in
  if u32 (u32 (next + u32 size) + 2) >=? arr_data_size a then Ok None else
  if next + 2 + Z.max 0 size >? arr_data_size a then UB else
  let l := upd (upd (arr_data a) (Z.to_nat next) (VNum size1)) (Z.to_nat (next + 1)) (VNum size2) in
  let x := if Z.odd type then VNum 0 else VStr empty_handle in       (* type & VAR_NUMBER *)
  Ok (Some (mkArr (arr_data_size a) (u32 (next + u32 (size + 2)))
              (fill l (Z.to_nat (next + 2)) (Z.to_nat size) x), next)).

(** vars.c:86-117 get_new_arr_var, then runner.c:390-420 BC_DIM reports
    [vars.error]; a NULL from get_init_new_arr is stored without an error. *)
Definition dim_result (v : variables) : outcome unit :=
  match v_error v with None => Ok tt | Some e => Err e end.
Definition dim (v : variables) (name : list Z) (type dim1 dim2 : Z) : variables * outcome unit :=
  match search_name_type v name type with
  | None => let v := set_error v ERR_OUT_OF_MEMORY in (v, dim_result v)
  | Some i =>
      let var := slot v i in
      if (v_type var =? VAR_EMPTY) || (clear_values v && match v_value var with VNull => true | _ => false end) then
        let v := inc_count v in
        let nm := set_name (v_name var) name in
        match get_init_new_arr (arrs v) dim1 dim2 type with
        | Ok (Some (a, off)) =>
            let v := set_arrs (set_slot v i (mkVar type nm (VArr off))) a in (v, dim_result v)
        | Ok None => let v := set_slot v i (mkVar type nm VNull) in (v, dim_result v)
        | _ => (v, UB)
        end
      else let v := set_error v ERR_DUPLICATE_DIM in (v, dim_result v)
  end.

Definition arr_cell (a : arrays) (i : Z) : value := nth (Z.to_nat i) (arr_data a) VNull.
(** arrays.c:55-57 arr_size *)
Definition arr_size (a : arrays) (off dim : Z) : Z :=
  match arr_cell a (off + dim) with VNum n => n | _ => 0 end.
(** arrays.c:63-65 arr_entry, as a cell index *)
Definition arr_entry (a : arrays) (off ix1 ix2 : Z) : Z := off + 2 + ix1 + ix2 * arr_size a off 0.

(** vars.c:159-187 get_arr_entry_via_ptr on the array variable in slot [i]: the
    index of the addressed cell.  Addressing a cell outside the memory is UB
    (it is dereferenced by the caller). *)
Definition get_arr_entry_via_ptr (v : variables) (i ix iy type : Z) : variables * outcome Z :=
  let '(v, off) :=
    match v_value (slot v i) with
    | VArr off => (v, Ok off)
    | _ =>
        match get_init_new_arr (arrs v) 10 (if iy =? ARR_DIM2_UNUSED then ARR_DIM2_UNUSED else 10) type with
        | Ok (Some (a, off)) =>
            let x := slot v i in
            (set_arrs (set_slot v i (mkVar (v_type x) (v_name x) (VArr off))) a, Ok off)
        | Ok None => (set_error v ERR_OUT_OF_MEMORY, Err ERR_OUT_OF_MEMORY)
        | _ => (v, UB)
        end
    end in
  match off with
  | Ok off =>
      if ix <? arr_size (arrs v) off 0 then
        let at_ c := if (0 <=? c) && (c <? arr_data_size (arrs v)) then (v, Ok c) else (v, UB) in
        if iy =? ARR_DIM2_UNUSED then at_ (arr_entry (arrs v) off ix 0)
        else if iy <? arr_size (arrs v) off 1 then at_ (arr_entry (arrs v) off ix iy)
        else (set_error v ERR_SUBSCRIPT_OUT_OF_RANGE_Y, Err ERR_SUBSCRIPT_OUT_OF_RANGE_Y)
      else (set_error v ERR_SUBSCRIPT_OUT_OF_RANGE_X, Err ERR_SUBSCRIPT_OUT_OF_RANGE_X)
  | Err e => (v, Err e)
  | UB => (v, UB)
  end.

(** vars.c:189-197 get_arr_entry *)
Definition get_arr_entry (v : variables) (name : list Z) (type ix iy : Z) : variables * outcome Z :=
  match get_var v name type with
  | (v, Ok i) => get_arr_entry_via_ptr v i ix iy type
  | (v, Err e) => (v, Err e)
  | (v, UB) => (v, UB)
  end.

(** What a BASIC program does with these functions (runner.c:345-420 and
    op_assign's store through the pointer): the numbers are the BASIC integers,
    converted to u32 as in [idx a = STACK_REL_INT(..)].  FreeVar is the FREEVAR
    system variable (subsystem/sysvars.c), as a plain integer. *)
Inductive op :=
| Read (name : list Z) (type : Z)
| Write (name : list Z) (type : Z) (x : value)
| Dim (name : list Z) (type d1 : Z) (d2 : option Z)
| ARead (name : list Z) (type i : Z) (j : option Z)
| AWrite (name : list Z) (type i : Z) (j : option Z) (x : value)
| Clear
| FreeVar.
Inductive result := RVal (x : value) | RUnit | RErr (e : err) | RUB.
Definition idx2 (j : option Z) : Z := match j with None => ARR_DIM2_UNUSED | Some j => u32 j end.

Definition step (v : variables) (o : op) : variables * result :=
  match o with
  | Read n t =>
      match get_var v n t with
      | (v, Ok i) => (v, RVal (v_value (slot v i)))
      | (v, Err e) => (v, RErr e) | (v, UB) => (v, RUB)
      end
  | Write n t x =>
      match get_var v n t with
      | (v, Ok i) => let s := slot v i in (set_slot v i (mkVar (v_type s) (v_name s) x), RUnit)
      | (v, Err e) => (v, RErr e) | (v, UB) => (v, RUB)
      end
  | Dim n t d1 d2 =>
      match dim v n (t + VAR_ARRAY) (u32 d1) (idx2 d2) with
      | (v, Ok _) => (v, RUnit) | (v, Err e) => (v, RErr e) | (v, UB) => (v, RUB)
      end
  | ARead n t i j =>
      match get_arr_entry v n (t + VAR_ARRAY) (u32 i) (idx2 j) with
      | (v, Ok c) => (v, RVal (arr_cell (arrs v) c))
      | (v, Err e) => (v, RErr e) | (v, UB) => (v, RUB)
      end
  | AWrite n t i j x =>
      match get_arr_entry v n (t + VAR_ARRAY) (u32 i) (idx2 j) with
      | (v, Ok c) => (set_arrs v (mkArr (arr_data_size (arrs v)) (arr_data_next (arrs v))
                                        (upd (arr_data (arrs v)) (Z.to_nat c) x)), RUnit)
      | (v, Err e) => (v, RErr e) | (v, UB) => (v, RUB)
      end
  | Clear => (cmd_clear v, RUnit)
  | FreeVar => (v, RVal (VNum (vars_max v - var_count v)))
  end.

(** a run stops at the first error *)
Fixpoint run (v : variables) (ops : list op) : list result :=
  match ops with
  | [] => []
  | o :: t => let '(v, r) := step v o in
              match r with RErr _ | RUB => [r] | _ => r :: run v t end
  end.
