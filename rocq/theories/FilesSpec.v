(** What the file commands promise. *)
From Coq Require Import String Ascii.
From Verif Require Import Base Strs Resources ResourcesSpec Files.
Open Scope Z_scope.

(** bytes in each resource *)
Definition size_of (b : buf) : Z :=
  match b with Chr _ => 8192 | Scr _ => 8192 | Col _ => 512 | Grp _ => 49152 | Mem => 516 | Prg => 524288 end.
(** the 12 characters at the start of an internal file *)
Definition type_string (b : buf) : list Z :=
  match b with
  | Chr _ => text "PETC0100RCHR" | Scr _ => text "PETC0100RSCR" | Col _ => text "PETC0100RCOL"
  | Grp _ => text "PETC0100RGRP" | Mem => text "PETC0200RMEM" | Prg => text "PETC0300RPRG"
  end.
(** two resources of one kind (character banks, screens, palettes, graphic pages, the memory string) *)
Definition same_kind (a b : buf) : Prop := size_of a = size_of b /\ type_string a = type_string b.
(** where a file of a given name is kept *)
Definition path_of (dir name : list Z) : list Z := dir ++ name ++ text ".PTC".

(** states: every buffer has its size, the program fits its buffer, the directory name is short *)
Record well_formed (s : st) : Prop := {
  wf_size : forall b, zlen (bufs s b) = size_of b;
  wf_prg : 0 <= prg_len s <= 524288;
  wf_mem : 0 <= mem_len s;
  wf_dir : zlen (search_path s) <= 200 }.
(** the program text *)
Definition program (s : st) : list Z := firstn (Z.to_nat (prg_len s)) (bufs s Prg).
(** nothing but the listed buffer differs *)
Definition other_buffers (s s' : st) (b : buf) : Prop := forall c, c <> b -> bufs s' c = bufs s c.
Definition same_files (s s' : st) : Prop := forall q, file (disk s') q = file (disk s) q.

(** the file formats that hold the plain bytes [data] of a resource: 12 bytes beginning with PETC, or 48
    bytes beginning with PX01, in front; more may follow *)
Inductive plain_file (data : list Z) : list Z -> Prop :=
| internal_format h extra : length h = 12%nat -> firstn 4 h = text "PETC" -> plain_file data (h ++ data ++ extra)
| sd_format h extra : length h = 48%nat -> firstn 4 h = text "PX01" -> plain_file data (h ++ data ++ extra).
Definition known_format (c : list Z) : Prop := In (firstn 4 c) [text "PX01"; text "PETC"; text "SBCC"].

(** a number in 4 bytes *)
Definition le4 (n : Z) : list Z := [n mod 256; n / 256 mod 256; n / 65536 mod 256; n / 16777216 mod 256].
(** zero to three bytes fill the program up to a multiple of 4 *)
Definition padding (n : nat) : list Z := repeat 0 ((4 - n mod 4) mod 4)%nat.
(** program files: header, package word (high half first), length, text, padding, packed resources *)
Definition program_body (high low : Z) (prg packs : list Z) : list Z :=
  le4 high ++ le4 low ++ le4 (zlen prg) ++ prg ++ padding (length prg) ++ packs.
(** SD card format: magic, size and type (8 bytes), name (8 bytes), checksum (16 bytes), type string *)
Definition sd_program (h1 name md5 ty body : list Z) : list Z := text "PX01" ++ h1 ++ name ++ md5 ++ ty ++ body.
Definition internal_program (body : list Z) : list Z := text "PETC0300RPRG" ++ body.
(** the resource of each package bit *)
Definition package_names : list (list Z) :=
  map text ["SPU0"; "SPU1"; "SPU2"; "SPU3"; "SPU4"; "SPU5"; "SPU6"; "SPU7";
            "BGU0U"; "BGU1U"; "BGU2U"; "BGU3U"; "BGF0U"; "COL0U"; "COL1U"; "COL2U";
            "SCU0U"; "SCU1U"; "GRP0"; "GRP1"; "GRP2"; "GRP3"; "MEM"; "SPD0"; "SPD1"; "SPD2"; "SPD3";
            "BGU0L"; "BGU1L"; "BGU2L"; "BGU3L"; "BGF0L"; "COL0L"; "COL1L"; "COL2L"; "SCU0L"; "SCU1L";
            "SPS0U"; "SPS1U"; "BGD0U"; "BGD1U"; "SPS0L"; "SPS1L"; "BGD0L"; "BGD1L"]%string.
Definition package_buf (i : nat) : buf :=
  match get_resource_ptr (mkPages 0 0 0) (nth i package_names []) with Ok b => b | _ => Prg end.
(** the packed resources, in the order of their bits *)
Definition packs (contents : nat -> option (list Z)) : list Z :=
  flat_map (fun i => match contents i with Some d => type_string (package_buf i) ++ d | None => [] end) (seq 0 45).
Definition packed_ok (contents : nat -> option (list Z)) : Prop :=
  forall i d, (i < 45)%nat -> contents i = Some d -> zlen d = size_of (package_buf i).
Definition word_for (high low : Z) (contents : nat -> option (list Z)) : Prop :=
  0 <= high < 2 ^ 32 /\ 0 <= low < 2 ^ 32 /\
  forall i, (i < 45)%nat -> Z.testbit (high * 2 ^ 32 + low) (Z.of_nat i) = match contents i with Some _ => true | None => false end.

(** [s'] is [s] after loading the program [prg] with package word [high, low] and packed resources [contents] *)
Record program_loaded (s s' : st) (high low : Z) (prg : list Z) (contents : nat -> option (list Z)) : Prop := {
  pl_program : program s' = prg;
  pl_result : result s' = if zlen prg =? 0 then 0 else 1;
  pl_packed : forall i d, (i < 45)%nat -> contents i = Some d -> bufs s' (package_buf i) = d;
  pl_other : forall b, b <> Prg -> (forall i d, (i < 45)%nat -> contents i = Some d -> b <> package_buf i) -> bufs s' b = bufs s b;
  pl_shown : forall i d k, (i < 45)%nat -> contents i = Some d ->
    (package_buf i = Chr k -> regen_chr s' k = true) /\ (package_buf i = Col k -> regen_col s' = true);
  pl_files : same_files s s' }.
(** the characters before the first NUL *)
Inductive until_nul : list Z -> list Z -> Prop :=
| un_end : until_nul [] []
| un_nul r : until_nul (0 :: r) []
| un_char c r n : c <> 0 -> until_nul r n -> until_nul (c :: r) (c :: n).
(** hexadecimal texts *)
Definition hex_char (v : Z) : Z := if v <? 10 then 48 + v else 55 + v.
