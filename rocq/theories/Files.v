(** Files: SAVE, LOAD, APPEND, EXEC's loader, CHRINIT, COLINIT, MEM$, PACKAGE$, PRGNAME$
    (source/subsystem/resources.c, source/header.h). *)
From Coq Require Import String Ascii.
From Verif Require Import Base Strs Memory Compress Resources.
Open Scope Z_scope.

(** The file system: contents of each path, and which paths can be opened for writing.  Reads and writes
    of an opened file do not fail (the ferror branches are not modelled). *)
Record fs := mkFs { file : list Z -> option (list Z); can_write : list Z -> bool }.
Definition path_eqb (a b : list Z) : bool := if list_eq_dec Z.eq_dec a b then true else false.
Definition write_file (f : fs) (path c : list Z) : fs :=
  mkFs (fun q => if path_eqb q path then Some c else file f q) (can_write f).

(** resources.h:140-185, program.h:19-24, the part the file commands touch.  [bufs Prg] is the program
    buffer prg.data, [bufs Mem] the MEM_SIZE bytes of the union [mem] (256 characters of 16 bits, then the
    32-bit size), little endian. *)
Record st := mkSt {
  disk : fs; search_path : list Z;
  bufs : buf -> list Z;
  prg_len : Z;                      (* exec.prg.size *)
  mem_len : Z;                      (* res.mem_str.len *)
  result : Z;
  prgname : list Z;                 (* the characters before the terminator *)
  package : list Z;
  regen_chr : Z -> bool; regen_col : bool }.

Definition buf_eq_dec (a b : buf) : {a = b} + {a <> b}.
Proof. decide equality; apply Z.eq_dec. Defined.
Definition set_disk s v := mkSt v (search_path s) (bufs s) (prg_len s) (mem_len s) (result s) (prgname s) (package s) (regen_chr s) (regen_col s).
Definition set_buf s b v := mkSt (disk s) (search_path s) (fun c => if buf_eq_dec c b then v else bufs s c) (prg_len s) (mem_len s) (result s) (prgname s) (package s) (regen_chr s) (regen_col s).
Definition set_prg_len s v := mkSt (disk s) (search_path s) (bufs s) v (mem_len s) (result s) (prgname s) (package s) (regen_chr s) (regen_col s).
Definition set_mem_len s v := mkSt (disk s) (search_path s) (bufs s) (prg_len s) v (result s) (prgname s) (package s) (regen_chr s) (regen_col s).
Definition set_result s v := mkSt (disk s) (search_path s) (bufs s) (prg_len s) (mem_len s) v (prgname s) (package s) (regen_chr s) (regen_col s).
Definition set_names s n k := mkSt (disk s) (search_path s) (bufs s) (prg_len s) (mem_len s) (result s) n k (regen_chr s) (regen_col s).
Definition set_regen_col s := mkSt (disk s) (search_path s) (bufs s) (prg_len s) (mem_len s) (result s) (prgname s) (package s) (regen_chr s) true.
Definition set_regen_chr s i := mkSt (disk s) (search_path s) (bufs s) (prg_len s) (mem_len s) (result s) (prgname s) (package s) (fun j => if j =? i then true else regen_chr s j) (regen_col s).

Definition MAX_SOURCE_SIZE : Z := 524288.              (* program.h:11 *)
(** resources.h:48-57, resources.c:252-254 *)
Definition resource_size (t : rtype) : Z :=
  match t with TYPE_CHR => 8192 | TYPE_SCR => 8192 | TYPE_GRP => 49152 | TYPE_MEM => 516 | TYPE_COL => 512 | _ => 0 end.
(** resources.c:43-50 *)
Definition internal_type_str (t : rtype) : list Z :=
  match t with
  | TYPE_PRG => zs "PETC0300RPRG" | TYPE_CHR => zs "PETC0100RCHR" | TYPE_SCR => zs "PETC0100RSCR"
  | TYPE_GRP => zs "PETC0100RGRP" | TYPE_MEM => zs "PETC0200RMEM" | TYPE_COL => zs "PETC0100RCOL" | TYPE_INVALID => []
  end.
(** memory that held [b] after [d] was read to its start *)
Definition overlay (d b : list Z) : list Z := d ++ skipn (length d) b.
Definition u32le (l : list Z) (i : nat) : Z :=
  nth i l 0 + 256 * (nth (i + 1) l 0 + 256 * (nth (i + 2) l 0 + 256 * nth (i + 3) l 0)).
Definition is4 (c lit : list Z) : bool := path_eqb (firstn 4 c) lit.

(** resources.c:181-190 create_path; MAX_FILEPATH_LENGTH is 255 *)
Definition create_path (base name ext : list Z) : option (list Z) :=
  if zlen base + zlen name + zlen ext >? 255 then None else Some (base ++ name ++ ext).
Definition PTC : list Z := zs ".PTC".

(** resources.c:335-398 check_load_file, once the path is known: bytes read, and the destination of
    [length dest] bytes afterwards.  A compressed file is read to the end of the destination and unpacked
    in place; with fewer than 8 bytes its header is uninitialised, with the wrong size the assertion
    fails.  [header] is an array of u8, so the expected size has 24 bits. *)
Definition check_load_file (f : fs) (dest base name : list Z) : outcome (Z * list Z) :=
  match create_path base name PTC with
  | None => Ok (0, dest)
  | Some path =>
    match file f path with
    | None => Ok (0, dest)
    | Some c =>
      if is4 c (zs "PX01") then let d := firstn (length dest) (skipn 48 c) in Ok (zlen d, overlay d dest)
      else if is4 c (zs "PETC") then let d := firstn (length dest) (skipn 12 c) in Ok (zlen d, overlay d dest)
      else if is4 c (zs "SBCC") then
        if zlen c <? 8 then UB
        else if negb (nth 5 c 0 + 256 * nth 6 c 0 + 65536 * nth 7 c 0 =? zlen dest) then UB
        else let* d := load_compressed dest c (nth 4 c 0) in Ok (zlen c, d)
      else Ok (0, dest)
    end
  end.

(** resources.c:55-77 package_resources: bit number i of the package word *)
Definition package_resources : list (list Z) :=
  map zs ["SPU0"; "SPU1"; "SPU2"; "SPU3"; "SPU4"; "SPU5"; "SPU6"; "SPU7";
          "BGU0U"; "BGU1U"; "BGU2U"; "BGU3U"; "BGF0U"; "COL0U"; "COL1U"; "COL2U";
          "SCU0U"; "SCU1U"; "GRP0"; "GRP1"; "GRP2"; "GRP3"; "MEM"; "SPD0"; "SPD1"; "SPD2"; "SPD3";
          "BGU0L"; "BGU1L"; "BGU2L"; "BGU3L"; "BGF0L"; "COL0L"; "COL1L"; "COL2L"; "SCU0L"; "SCU1L";
          "SPS0U"; "SPS1U"; "BGD0U"; "BGD1U"; "SPS0L"; "SPS1L"; "BGD0L"; "BGD1L"]%string.

(** marking a character bank for redrawing; the flags are an array of CHR_BANKS*2 *)
Definition mark_chr (p : pages) (s : st) (type : list Z) : outcome st :=
  let* i := get_chr_index p type in
  if (0 <=? i) && (i <? 44) then Ok (set_regen_chr s i) else UB.

(** resources.c:145-175, the loop over the package bits; [n] bits from number [i] on remain, [rest] is
    the unread part of the file.  false: FILE_CLOSE. *)
Fixpoint load_packages (p : pages) (word : Z) (n i : nat) (rest : list Z) (s : st) : outcome (bool * st) :=
  match n with
  | O => Ok (true, s)
  | S n =>
    if negb (Z.testbit word (Z.of_nat i)) then load_packages p word n (S i) rest s else
    let* info := get_verified_resource_type p (SBc (nth i package_resources [])) in
    let ty := firstn 12 rest in
    if negb (zlen ty =? 12) then Ok (false, s)
    else if negb (path_eqb ty (internal_type_str (i_id info))) then Ok (false, s)
    else
      let size := Z.to_nat (resource_size (i_id info)) in
      let d := firstn size (skipn 12 rest) in
      let s := set_buf s (i_data info) (overlay d (bufs s (i_data info))) in
      if negb (zlen d =? resource_size (i_id info)) then Ok (false, s)
      else
        let* s := match i_id info with
                  | TYPE_CHR => mark_chr p s (i_type info)
                  | TYPE_COL => Ok (set_regen_col s)
                  | _ => Ok s
                  end in
        load_packages p word n (S i) (skipn size (skipn 12 rest)) s
  end.

Definition hex_digits : list Z := zs "0123456789ABCDEF".
(** resources.c:134-139: 12 digits *)
Definition package_text (word : Z) : list Z :=
  map (fun i => nth (Z.to_nat (Z.land (Z.shiftr word (4 * Z.of_nat (11 - i))) 15)) hex_digits 0) (seq 0 12).

(** resources.c:111-177 of load_program: [h] are the 60 bytes of the header, [rest] the file after it.  A
    program longer than the buffer is written behind it. *)
Definition load_body (p : pages) (s : st) (h rest : list Z) : outcome (Z * st) :=
  let size := u32le h 56 in
  let d := firstn (Z.to_nat size) rest in
  if zlen d >? MAX_SOURCE_SIZE then UB else
  let s := set_buf s Prg (overlay d (bufs s Prg)) in
  if zlen d <? s32 size then Ok (0, s) else
  let s := set_prg_len s (zlen d) in
  let rest := skipn (Z.to_nat (nth (Z.to_nat (Z.land size 3)) [0; 3; 2; 1] 0)) (skipn (Z.to_nat size) rest) in
  let word := Z.lor (Z.shiftl (u32le h 48) 32) (u32le h 52) in
  let s := set_names s (cstr (firstn 8 (skipn 12 h))) (package_text word) in
  let* (ok, s) := load_packages p word 45 0 rest s in
  Ok (if ok then zlen d else 0, s).
(** resources.c:78-178 load_program; [junk]: the 60 uninitialised bytes of [h] *)
Definition load_program (junk : list Z) (p : pages) (s : st) (base name : list Z) : outcome (Z * st) :=
  match create_path base name PTC with
  | None => Ok (0, s)
  | Some path =>
    match file (disk s) path with
    | None => Ok (0, s)
    | Some c =>
      let magic := firstn 4 (overlay (firstn 4 c) junk) in
      if path_eqb magic (zs "PX01") then
        (if zlen c <? 60 then Ok (0, s) else load_body p s (firstn 60 c) (skipn 60 c))
      else if path_eqb magic (zs "PETC") then
        (if zlen c <? 24 then Ok (0, s) else load_body p s (overlay (firstn 4 c) (firstn 36 junk) ++ firstn 24 c) (skipn 24 c))
      else Ok (0, s)
    end
  end.

(** resources.c:828-860 cmd_load with check_load_res (316-330) *)
Definition cmd_load (junk : list Z) (p : pages) (s : st) (res : str) : st * fin :=
  match get_verified_resource p res with
  | Err e => (s, Raised e)
  | UB => (s, Crash)
  | Ok info =>
    let r :=
      match i_id info with
      | TYPE_PRG => load_program junk p s (search_path s) (i_name info)
      | TYPE_INVALID => UB
      | _ => let* (n, d) := check_load_file (disk s) (bufs s (i_data info)) (search_path s) (i_name info) in
             Ok (n, set_buf s (i_data info) d)
      end in
    match r with
    | Err e => (s, Raised e)
    | UB => (s, Crash)
    | Ok (n, s) =>
      let s := set_result s (b2z (negb (n =? 0))) in
      match i_id info with
      | TYPE_CHR => match mark_chr p s (i_type info) with Ok s => (s, Done) | _ => (s, Crash) end
      | TYPE_COL => (set_regen_col s, Done)
      | TYPE_MEM => (set_mem_len s (u32le (bufs s Mem) 512), Done)
      | _ => (s, Done)
      end
    end
  end.

(** resources.c:276-313 check_save_res: bytes written.  For a program [src] is the text, but it is used
    as a struct program: its first 4 bytes as the size, bytes 8 to 15 as the address of the data; unless
    the size is 0 that address is garbage. *)
Definition check_save_res (f : fs) (src : list Z) (base name : list Z) (t : rtype) : outcome (Z * fs) :=
  match create_path base name PTC with
  | None => Ok (0, f)
  | Some path =>
    if negb (can_write f path) then Ok (0, f) else
    match t with
    | TYPE_INVALID => Ok (0, f)
    | TYPE_PRG => if u32le src 0 =? 0 then Ok (0, write_file f path (internal_type_str t ++ repeat 0 12)) else UB
    | _ => let d := firstn (Z.to_nat (resource_size t)) src in
           Ok (zlen d, write_file f path (internal_type_str t ++ d))
    end
  end.
(** resources.c:862-872 cmd_save *)
Definition cmd_save (p : pages) (s : st) (res : str) : st * fin :=
  match get_verified_resource p res with
  | Err e => (s, Raised e)
  | UB => (s, Crash)
  | Ok info =>
    match check_save_res (disk s) (bufs s (i_data info)) (search_path s) (i_name info) (i_id info) with
    | Ok (n, f) => (set_result (set_disk s f) (b2z (negb (n =? 0))), Done)
    | Err e => (s, Raised e)
    | UB => (s, Crash)
    end
  end.

(** resources.c:201-241 verify_file_type.  (In a file of fewer than 4 bytes the magic is partly
    uninitialised; whatever it is, the header is then incomplete.) *)
Definition verify_file_type (f : fs) (path : list Z) (t : rtype) : bool :=
  match file f path with
  | None => false
  | Some c =>
    if is4 c (zs "PX01") then (if zlen c <? 60 then false else path_eqb (firstn 12 (skipn 36 c)) (internal_type_str t))
    else if is4 c (zs "PETC") then (if zlen c <? 12 then false else path_eqb (firstn 12 c) (internal_type_str t))
    else false
  end.

(** resources.c:1098-1180 cmd_append (the second look at the magic sees the same file) *)
Definition cmd_append (p : pages) (s : st) (res : str) : st * fin :=
  let s := set_result s 0 in
  match get_verified_resource p res with
  | Err e => (s, Raised e)
  | UB => (s, Crash)
  | Ok info =>
    match i_id info with
    | TYPE_PRG =>
      match create_path (search_path s) (i_name info) PTC with
      | None => (s, Done)
      | Some path =>
        if negb (verify_file_type (disk s) path TYPE_PRG) then (s, Done) else
        match file (disk s) path with
        | None => (s, Done)
        | Some c =>
          let skip := if is4 c (zs "PETC") then 20%nat else 56%nat in
          if zlen (firstn 4 (skipn skip c)) <? 4 then (s, Raised ERR_FILE_INTERAL) else
          let size := u32le (skipn skip c) 0 in
          let remaining := u32 (MAX_SOURCE_SIZE - prg_len s) in
          let n := if remaining <? size then remaining else size in
          let d := firstn (Z.to_nat n) (skipn 4 (skipn skip c)) in
          let s := set_buf s Prg (firstn (Z.to_nat (prg_len s)) (bufs s Prg) ++ overlay d (skipn (Z.to_nat (prg_len s)) (bufs s Prg))) in
          if zlen d <? n then (s, Raised ERR_FILE_FORMAT)
          else (set_result (set_prg_len s (prg_len s + n)) 1, Done)
        end
      end
    | _ => (s, Raised ERR_INVALID_RESOURCE_TYPE)
    end
  end.

(** resources.c:1094-1096 cmd_new *)
Definition cmd_new (s : st) : st := set_prg_len s 0.

(** resources.c:36 *)
Definition resource_path : list Z := zs "resources/".
(** resources.c:874-895 cmd_chrinit *)
Definition cmd_chrinit (p : pages) (s : st) (res : str) : st * fin :=
  match get_verified_resource_type p res with
  | Err e => (s, Raised e)
  | UB => (s, Crash)
  | Ok info =>
    match i_id info with
    | TYPE_CHR =>
      let t := i_type info in
      let name := cstr [at_ t 0; at_ t 1; at_ t 2; if at_ t 3 =? 0 then 48 else at_ t 3] in
      match check_load_file (disk s) (bufs s (i_data info)) resource_path name with
      | Ok (n, d) =>
        let s := set_buf s (i_data info) d in
        if n =? 0 then (s, Raised ERR_FILE_LOAD_FAILED)
        else match mark_chr p s t with Ok s => (s, Done) | _ => (s, Crash) end
      | _ => (s, Crash)
      end
    | _ => (s, Raised ERR_INVALID_RESOURCE_TYPE)
    end
  end.

(** resources.c:423-429 init_col: the files COL0, COL1, COL2 for both screens, failures ignored *)
Definition load_col (s : st) (b : buf) (name : list Z) : outcome st :=
  let* (_, d) := check_load_file (disk s) (bufs s b) resource_path name in Ok (set_buf s b d).
Definition init_col (s : st) : outcome st :=
  fold_left (fun s i => let* s := s in load_col s (Col i) (zs "COL" ++ [48 + i mod 3])) [0; 1; 2; 3; 4; 5] (Ok s).

(** resources.c:972-980 get_col_resource *)
Definition get_col_resource (p : pages) (name : list Z) : outcome buf :=
  if path_eqb name (zs "BG") then get_resource_ptr p (zs "COL0")
  else if path_eqb name (zs "SP") then get_resource_ptr p (zs "COL1")
  else if path_eqb name (zs "GRP") then get_resource_ptr p (zs "COL2")
  else Err ERR_INVALID_RESOURCE_TYPE.
(** resources.c:983-1016 cmd_colinit.  [name] are the characters of the first argument; an empty string
    makes str_at_char read past its end (not modelled: treated as any other unknown name).  With two
    arguments the code asks for stack slot 2 although the colour is in slot 1: the assertion of stack_get
    (stack.h:79-82) fails. *)
Definition cmd_colinit (p : pages) (s : st) (args : option (list Z * option Z)) : st * fin :=
  match args with
  | None => match init_col s with Ok s => (set_regen_col s, Done) | _ => (s, Crash) end
  | Some (name, color) =>
    let c := nth 0 name 0 in
    let id := if c =? 66 then 48 else if c =? 83 then 49 else if c =? 71 then 50 else c in
    match get_col_resource p name with
    | Err e => (s, Raised e)
    | UB => (s, Crash)
    | Ok b =>
      match color with
      | None => match load_col s b (zs "COL" ++ [id]) with Ok s => (set_regen_col s, Done) | _ => (s, Crash) end
      | Some _ => (s, Crash)
      end
    end
  end.

(** resources.c:1196-1209 syschk_mem after MEM$=text, the characters as 16-bit codes *)
Definition set_mem (s : st) (chars : list Z) : st :=
  let n := zlen chars in
  let bytes := flat_map (fun c => [c mod 256; c / 256]) chars in
  let size := [n mod 256; n / 256 mod 256; n / 65536 mod 256; n / 16777216 mod 256] in
  set_mem_len (set_buf s Mem (firstn 512 (overlay bytes (firstn 512 (bufs s Mem))) ++ size)) n.
(** MEM$: the first mem_str.len characters; beyond 256 the size field and foreign memory are read *)
Definition mem_text (s : st) : outcome (list Z) :=
  if mem_len s >? 256 then UB
  else Ok (map (fun i => nth (2 * i) (bufs s Mem) 0 + 256 * nth (2 * i + 1) (bufs s Mem) 0) (seq 0 (Z.to_nat (mem_len s)))).

(** resources.c:1217-1234 sys_package; [before]: the byte in front of the array, [pkg] its 12 characters
    and the terminator (all zero before the first load) *)
Fixpoint count_zeros (l : list Z) : nat := match l with c :: r => if c =? 48 then S (count_zeros r) else O | [] => O end.
Definition sys_package (before : Z) (pkg : list Z) : list Z :=
  let i := count_zeros pkg in
  match i with
  | O => if at_ pkg 0 =? 0 then before :: firstn 12 pkg else firstn 12 pkg
  | S j => if at_ pkg i =? 0 then firstn (12 - j) (skipn j pkg) else firstn (12 - i) (skipn i pkg)
  end.
