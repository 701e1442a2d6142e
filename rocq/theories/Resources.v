(** Resources: names, buffers, characters, palettes (source/subsystem/resources.c, resources.h). *)
From Coq Require Import String Ascii.
From Verif Require Import Base Strs.
Open Scope Z_scope.

(** a C string literal as its character codes *)
Definition zs (s : string) : list Z := map (fun c => Z.of_nat (nat_of_ascii c)) (list_ascii_of_string s).
(** character [i] of a C string; the terminator after its end *)
Definition at_ (s : list Z) (i : nat) : Z := nth i s 0.
Definition SEP : Z := 58.                                    (* resources.h:101 RESOURCE_SEPARATOR ':' *)
(** strchr(s, ':'): the number of characters before it *)
Fixpoint strchr (s : list Z) : option nat :=
  match s with [] => None | c :: r => if c =? SEP then Some O else option_map S (strchr r) end.
(** strncmp(lit, s, 3) == 0 for a literal of at least 3 characters *)
Definition same3 (lit s : list Z) : bool :=
  (at_ lit 0 =? at_ s 0) && (at_ lit 1 =? at_ s 1) && (at_ lit 2 =? at_ s 2).

(** resources.c:568-579 valid_resource_types *)
Definition valid_resource_types : list (list Z) :=
  map zs ["PRG"; "MEM"; "BGU3P"; "BGD1P"; "BGF0P"; "SPU7U"; "SPS1P"; "SPD3L"; "COL2P"; "SCU1P"; "GRP3"]%string.

(** resources.c:596-634, one turn of the loop.  Every [break] sets valid. *)
Definition type_match (v s : list Z) : bool :=
  if negb (same3 v s) then false
  else if at_ v 3 =? 0 then true
  else let index := at_ s 3 in
  if (index =? SEP) || (index =? 0) then true
  else if (48 >? index) || (index >? at_ v 3) then false
  else let page := at_ s 4 in
  if (page =? SEP) || (page =? 0) then true
  else if at_ v 4 =? 0 then true
  else if at_ v 4 =? 80 then (if negb (page =? 76) && negb (page =? 85) then false else true)
  else if negb (at_ v 4 =? page) then false else true.
Fixpoint type_loop (vs : list (list Z)) (s : list Z) : bool :=
  match vs with [] => false | v :: r => if type_match v s then true else type_loop r s end.
(** resources.c:586-637 verify_resource_type; MAX_RESOURCE_TYPE_LENGTH is 5 *)
Definition verify_resource_type (s : list Z) : bool :=
  match strchr s with
  | Some k => if (5 <? k)%nat then false else type_loop valid_resource_types s
  | None => if (5 <? length s)%nat then false else type_loop valid_resource_types s
  end.

(** strs.c:35-61 is_name *)
Definition is_name (c : Z) : bool :=
  ((65 <=? c) && (c <=? 90)) || ((97 <=? c) && (c <=? 122)) || ((48 <=? c) && (c <=? 57)) || (c =? 95).
(** resources.c:657-679 verify_resource_name; MAX_RESOURCE_NAME_LENGTH is 8 *)
Definition verify_name_part (n : list Z) : bool :=
  if (length n =? 0)%nat || (8 <? length n)%nat then false else forallb is_name n.
Definition verify_resource_name (s : list Z) : bool :=
  match strchr s with
  | Some k => if verify_resource_type s then verify_name_part (skipn (S k) s) else false
  | None => verify_name_part s
  end.

(** the buffers of resources.h:142-150 and :165-173, ptc.h exec.prg *)
Inductive buf := Chr (i : Z) | Scr (i : Z) | Col (i : Z) | Grp (i : Z) | Prg | Mem.
Definition CHR_BANKS : Z := 22.   (* resources.h:64 *)
Definition SCR_BANKS : Z := 4.    (* resources.h:66 *)
Definition COL_BANKS : Z := 3.    (* resources.h:68 *)
Definition GRP_BANKS : Z := 4.    (* resources.h:70 *)
(** reading an entry of one of the pointer tables; outside the table the C program reads foreign memory *)
Definition table (size : Z) (k : Z -> buf) (i : Z) : outcome buf :=
  if (0 <=? i) && (i <? size) then Ok (k i) else UB.
Definition chr_table := table (CHR_BANKS * 2) Chr.
Definition scr_table := table (SCR_BANKS * 2) Scr.
Definition col_table := table (COL_BANKS * 2) Col.
Definition grp_table := table GRP_BANKS Grp.

(** the pages selected by BGPAGE, SPPAGE, GPAGE *)
Record pages := mkPages { bg_page : Z; sp_page : Z; grp_screen : Z }.

(** resources.c:687-743 get_resource_ptr; abort() on an unknown type.  [char] is signed: a bank
    character of 128 or more makes a negative bank. *)
Definition schar (c : Z) : Z := s8 c.
Definition get_resource_ptr (p : pages) (t : list Z) : outcome buf :=
  let idx := at_ t 3 in
  let '(bank, screen) :=
    if (idx =? 0) || (idx =? SEP) then (0, 0)
    else (schar idx - 48,
          let s := at_ t 4 in if (s =? 0) || (s =? SEP) then -1 else b2z (s =? 76)) in
  let or_page pg := if screen <? 0 then pg else screen in
  if same3 (zs "BGU") t then chr_table (8 + CHR_BANKS * or_page (bg_page p) + bank)
  else if same3 (zs "BGF") t then chr_table (0 + CHR_BANKS * or_page (bg_page p) + bank)
  else if same3 (zs "BGD") t then chr_table (4 + CHR_BANKS * or_page (bg_page p) + bank)
  else if same3 (zs "SPD") t then chr_table (12 + CHR_BANKS + bank)
  else if same3 (zs "SPK") t then chr_table (16 + CHR_BANKS + bank)
  else if same3 (zs "SPS") t then chr_table (20 + CHR_BANKS * or_page (sp_page p) + bank)
  else if same3 (zs "SPU") t then chr_table (12 + bank)
  else if same3 (zs "SCU") t then scr_table (SCR_BANKS * or_page (bg_page p) + 2 + bank)
  else if same3 (zs "COL") t then
    let screen := if bank =? 0 then or_page (bg_page p) else if bank =? 1 then or_page (sp_page p)
                  else if bank =? 2 then or_page (grp_screen p) else screen in
    col_table (COL_BANKS * screen + bank)
  else if same3 (zs "PRG") t then Ok Prg
  else if same3 (zs "MEM") t then Ok Mem
  else if same3 (zs "GRP") t then grp_table bank
  else UB.

(** resources.c:755-776 get_chr_index, on a type string without separator; assert on its length *)
Definition get_chr_index (p : pages) (res : list Z) : outcome Z :=
  let len := zlen res in
  if negb ((3 <=? len) && (len <=? 5)) then UB else
  let index := if len <=? 3 then 0 else schar (at_ res 3) - 48 in
  if at_ res 0 =? 83 then
    let index := index + 12 in
    if at_ res 2 =? 68 then Ok (index + CHR_BANKS)
    else if at_ res 2 =? 75 then Ok (index + CHR_BANKS + 4)
    else if at_ res 2 =? 85 then Ok index
    else Ok (index + CHR_BANKS * (if len <=? 4 then sp_page p else b2z (at_ res 4 =? 76)) + 8)
  else
    Ok (index + CHR_BANKS * (if len <=? 4 then bg_page p else b2z (at_ res 4 =? 76))
        + (if at_ res 2 =? 68 then 4 else 0) + (if at_ res 2 =? 85 then 8 else 0)).

(** resources.h:123-131 *)
Inductive rtype := TYPE_PRG | TYPE_CHR | TYPE_SCR | TYPE_GRP | TYPE_MEM | TYPE_COL | TYPE_INVALID.
(** resources.h:242-263 get_resource_type; the characters are 8-bit codes (u16 of to_char) *)
Definition get_resource_type (res : str) : outcome rtype :=
  if str_len res <? 3 then Ok TYPE_INVALID else
  let* w1 := str_at_wide res 0 in let* w2 := str_at_wide res 1 in
  let c1 := u16 (to_char w1) in let c2 := u16 (to_char w2) in
  Ok (if c1 =? 71 then TYPE_GRP else if c1 =? 80 then TYPE_PRG
      else if c1 =? 83 then (if c2 =? 67 then TYPE_SCR else if c2 =? 80 then TYPE_CHR else TYPE_INVALID)
      else if c1 =? 66 then TYPE_CHR else if c1 =? 67 then TYPE_COL else if c1 =? 77 then TYPE_MEM else TYPE_INVALID).

(** the C string in a zero-filled array into which the characters of a BASIC string were copied *)
Fixpoint cstr (l : list Z) : list Z :=
  match l with [] => [] | c :: r => if c =? 0 then [] else c :: cstr r end.

Record res_info := mkInfo { i_type : list Z; i_name : list Z; i_id : rtype; i_data : buf }.

(** resources.c:795-826 get_verified_resource; MAX_RESOURCE_STR_LENGTH is 14 *)
Definition get_verified_resource (p : pages) (res : str) : outcome res_info :=
  if str_len res >? 14 then Err ERR_ILLEGAL_FUNCTION_CALL else
  let s := cstr (str_char_copy res) in
  if negb (verify_resource_name s) then Err ERR_ILLEGAL_FUNCTION_CALL else
  match strchr s with
  | Some k =>
      let* id := get_resource_type res in
      let* d := get_resource_ptr p (firstn k s) in
      Ok (mkInfo (firstn k s) (skipn (S k) s) id d)
  | None => let* d := get_resource_ptr p (zs "PRG") in Ok (mkInfo (zs "PRG") s TYPE_PRG d)
  end.

(** resources.c:778-791 get_verified_resource_type, used by CHRINIT, CHRREAD, CHRSET *)
Definition get_verified_resource_type (p : pages) (res : str) : outcome res_info :=
  if str_len res >? 5 then Err ERR_INVALID_RESOURCE_TYPE else
  let* id := get_resource_type res in
  match id with
  | TYPE_INVALID => Err ERR_INVALID_RESOURCE_TYPE
  | _ => let t := cstr (str_char_copy res) in
         let* d := get_resource_ptr p t in Ok (mkInfo t [] id d)
  end.
