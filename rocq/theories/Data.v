(** READ and RESTORE (source/interpreter/data.c).  The DATA statement is compiled by Bytecode.tok_data. *)
From Verif Require Import Base Strs NumText Memory Bytecode.

(** what a READ argument can be: data.c:16, :35, :58 *)
Inductive kind := KNum | KStr | KOther.
Inductive value := RNum (v : Z) | RStr (s : list Z).

(** data.c:35-57, the number branch.  [src] are the [len] characters left in the block.  The buffer is
    filled with zeros, and leading spaces are counted into its index, so they leave zeros in front. *)
Fixpoint spaces (src : list Z) : nat := match src with c :: r => if c =? 32 then S (spaces r) else O | [] => O end.
Definition is_number (c : Z) : bool := (48 <=? c) && (c <=? 57).   (* strs.c:37-39 *)
Fixpoint read_digits (room : nat) (src : list Z) : outcome (list Z) :=
  match room, src with
  | S n, c :: r =>
      if is_number c || (c =? 45) || (c =? 46) then let* t := read_digits n r in Ok (c :: t)
      else if c =? BC_DATA_DELIM then Ok []
      else Err ERR_READ_FAILURE
  | _, _ => Ok []
  end.
Definition read_number (src : list Z) : outcome (Z * value) :=
  let sp := spaces src in
  if (length src <=? sp)%nat then Err ERR_READ_FAILURE else
  let* t := read_digits (16 - sp) (skipn sp src) in
  let* v := u8_to_num (repeat 0 sp ++ t) in
  Ok (Z.of_nat (sp + length t), RNum (s32 v)).
(** data.c:16-34, the string branch: None is BC_DATA_ERROR.  [free] is the number of strings of the pool
    not in use (get_new_str returns NULL when there is none, which is dereferenced). *)
Fixpoint read_chars (src : list Z) : option (list Z) :=
  match src with
  | [] => Some []
  | c :: r => if c =? BC_DATA_DELIM then Some [] else if c =? BC_DATA_ERROR then None else option_map (cons c) (read_chars r)
  end.
Definition read_string (free : Z) (src : list Z) : outcome (Z * value) :=
  match read_chars src with
  | None => Err ERR_READ_FAILURE
  | Some s => if free <=? 0 then UB else Ok (zlen s, RStr s)
  end.
(** data.c:13-62 read_one_u8: characters consumed and the value stored.  READ_ONE_ERR is reported as the
    error cmd_read makes of it. *)
Definition read_one (free : Z) (k : kind) (src : list Z) : outcome (Z * value) :=
  match k with KNum => read_number src | KStr => read_string free src | KOther => Err ERR_READ_FAILURE end.

(** runner.h:19-20 data_index (None: BC_SCAN_NOT_FOUND), data_offset; the free strings of the pool.  The
    string a variable held before is not given back, so each string read takes one. *)
Record reader := mkReader { d_index : option Z; d_ofs : Z; d_free : Z }.
Definition block (code : list Z) (i n : Z) : list Z := map (fun k => byte code (i + Z.of_nat k)) (seq 0 (Z.to_nat n)).
(** data.c:65-72 find_data *)
Definition find_data (code : list Z) (i ofs : Z) : option Z := bc_scan code (i + 2 + ofs + Z.land ofs 1) BC_DATA.
(** data.c:97-119, the loop over the variables; [i] is data_index.  [acc]: the values stored, last first.
    When no block is left, data_block points nowhere: the next turn reads through it. *)
Fixpoint read_vars (code : list Z) (i ofs free : Z) (ks : list kind) (acc : list value) : list value * reader * fin :=
  match ks with
  | [] => (rev acc, mkReader (Some i) ofs free, Done)
  | k :: r =>
      let size := byte code (i + 1) in
      match read_one free k (block code (i + 2 + ofs) (size - ofs)) with
      | UB => (rev acc, mkReader (Some i) ofs free, Crash)
      | Err e => (rev acc, mkReader (Some i) ofs free, Raised e)
      | Ok (n, v) =>
          let free := match v with RStr _ => free - 1 | RNum _ => free end in
          let ofs := ofs + n in
          let ofs := if byte code (i + 2 + ofs) =? BC_DATA_DELIM then ofs + 1 else ofs in
          if ofs >=? size then
            match find_data code i ofs with
            | Some j => read_vars code j 0 free r (v :: acc)
            | None => (rev (v :: acc), mkReader None 0 free, match r with [] => Done | _ => Crash end)
            end
          else read_vars code i ofs free r (v :: acc)
      end
  end.
(** data.c:77-122 cmd_read: the values stored in the variables, in order *)
Definition cmd_read (code : list Z) (s : reader) (ks : list kind) : list value * reader * fin :=
  match d_index s with
  | None => ([], s, Raised ERR_OUT_OF_DATA)
  | Some i =>
      if negb (byte code i =? BC_DATA) then
        match bc_scan code i BC_DATA with
        | None => ([], mkReader None 0 (d_free s), Raised ERR_OUT_OF_DATA)
        | Some j => read_vars code j 0 (d_free s) ks []
        end
      else read_vars code i (d_ofs s) (d_free s) ks []
  end.
(** data.c:124-130 cmd_restore; [lab] is what search_label (Labels.v) gives: on failure it sets the error
    and returns the size of the code *)
Definition cmd_restore (code : list Z) (s : reader) (lab : outcome Z) : reader * fin :=
  match lab with
  | UB => (s, Crash)
  | Err e => (mkReader (bc_scan code (zlen code) BC_DATA) 0 (d_free s), Raised e)
  | Ok i => (mkReader (bc_scan code i BC_DATA) 0 (d_free s), Done)
  end.
(** runner.c:180-181: before the program starts *)
Definition reader_start (free : Z) : reader := mkReader (Some 0) 0 free.
