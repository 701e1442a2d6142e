(** CHRREAD, CHRSET, COLREAD, COLSET (source/subsystem/resources.c). *)
From Coq Require Import String Ascii.
From Verif Require Import Base Strs Memory Resources.
Open Scope Z_scope.

(** the tables of buffers: characters (bytes) and palettes (16-bit colours) *)
Record banks := mkBanks { chr : Z -> list Z; col : Z -> list Z }.
Definition set_bank (f : Z -> list Z) (i : Z) (v : list Z) : Z -> list Z := fun j => if j =? i then v else f j.

(** resources.c:911-919, the loop of cmd_chrread: low half of each byte first.  Reading outside the
    buffer of 8192 bytes is UB (it cannot happen: id <= 255). *)
Fixpoint chr_text (bytes : list Z) : list Z :=
  match bytes with [] => [] | u :: r => hex_digit (Z.land u 15) :: hex_digit (Z.shiftr u 4) :: chr_text r end.
(** resources.c:896-927 cmd_chrread; the string variable receives the returned text.  [id] is the numeric
    argument (STACK_INT_RANGE). *)
Definition cmd_chrread (p : pages) (r : banks) (res : str) (id : Z) : outcome (list Z) :=
  let id := FP_TO_INT id in
  if (id <? 0) || (id >? 255) then Err ERR_OUT_OF_RANGE else
  let* i := get_verified_resource_type p res in
  match i_id i, i_data i with
  | TYPE_CHR, Chr b => Ok (chr_text (firstn 32 (skipn (Z.to_nat (32 * id)) (chr r b))))
  | TYPE_CHR, _ => UB
  | _, _ => Err ERR_INVALID_RESOURCE_TYPE
  end.

(** resources.c:953-962, the loop of cmd_chrset over a string of 64 characters; digit_value's -1 becomes
    the u8 255.  None: an invalid digit. *)
Fixpoint chr_bytes (data : str) (i : Z) (n : nat) : outcome (list Z) :=
  match n with
  | O => Ok []
  | S k =>
      let* a := str_at_wide data (2 * i) in let* b := str_at_wide data (2 * i + 1) in
      let ul := u8 (digit_value a) in let uh := u8 (digit_value b) in
      if (ul >? 16) || (uh >? 16) then Err ERR_ILLEGAL_FUNCTION_CALL
      else let* r := chr_bytes data (i + 1) k in Ok (u8 (Z.lor (Z.shiftl uh 4) ul) :: r)
  end.
(** memcpy of [new] over [old] at [ofs] *)
Definition overwrite (old : list Z) (ofs : Z) (new : list Z) : list Z :=
  firstn (Z.to_nat ofs) old ++ new ++ skipn (Z.to_nat ofs + List.length new) old.
(** resources.c:929-972 cmd_chrset: the new tables and how it ends; the marking of the textures to be
    redrawn is left out (get_chr_index is in Resources.v) *)
Definition cmd_chrset (p : pages) (r : banks) (res : str) (id : Z) (data : str) : banks * fin :=
  let id := FP_TO_INT id in
  if (id <? 0) || (id >? 255) then (r, Raised ERR_OUT_OF_RANGE) else
  if negb (str_len data =? 64) then (r, Raised ERR_ILLEGAL_FUNCTION_CALL) else
  match get_verified_resource_type p res with
  | Err e => (r, Raised e)
  | UB => (r, Crash)
  | Ok i =>
      match i_id i, i_data i with
      | TYPE_CHR, Chr b =>
          match chr_bytes data 0 32 with
          | Ok l => (mkBanks (set_bank (chr r) b (overwrite (chr r b) (32 * id) l)) (col r), Done)
          | Err e => (r, Raised e)
          | UB => (r, Crash)
          end
      | TYPE_CHR, _ => (r, Crash)
      | _, _ => (r, Raised ERR_INVALID_RESOURCE_TYPE)
      end
  end.

(** resources.c:974-982 get_col_resource.  str_comp goes through the wide codes. *)
Definition get_col_resource (p : pages) (res : str) : outcome buf :=
  let* a := str_comp res (SBc (zs "BG")) in
  if a then get_resource_ptr p (zs "COL0") else
  let* b := str_comp res (SBc (zs "SP")) in
  if b then get_resource_ptr p (zs "COL1") else
  let* c := str_comp res (SBc (zs "GRP")) in
  if c then get_resource_ptr p (zs "COL2") else Err ERR_INVALID_RESOURCE_TYPE.

(** resources.c:1033-1045 of cmd_colread: the components of a stored colour GBBBBBGG GGGRRRRR *)
Definition col_r (c : Z) : Z := let r := Z.shiftl (Z.land c 31) 3 in r + Z.shiftr r 5.
Definition col_g (c : Z) : Z := let g := Z.shiftl (Z.lor (Z.land (Z.shiftr c 4) 62) (Z.shiftr c 15)) 2 in g + Z.shiftr g 6.
Definition col_b (c : Z) : Z := let b := Z.shiftl (Z.land (Z.shiftr c 10) 31) 3 in b + Z.shiftr b 5.
(** resources.c:1018-1045 cmd_colread: the values given to the three variables *)
Definition cmd_colread (p : pages) (r : banks) (res : str) (n : Z) : outcome (Z * Z * Z) :=
  let n := FP_TO_INT n in
  if (n <? 0) || (n >? 255) then Err ERR_OUT_OF_RANGE else
  let* b := get_col_resource p res in
  match b with
  | Col i => match nth_error (col r i) (Z.to_nat n) with
             | Some c => Ok (INT_TO_FP (col_r c), INT_TO_FP (col_g c), INT_TO_FP (col_b c))
             | None => UB
             end
  | _ => UB
  end.

(** resources.c:1062-1067: is_number takes a [char] *)
Definition is_number_char (c : Z) : bool := let c := s8 c in (48 <=? c) && (c <=? 57).
Fixpoint col_check (s : str) (i : Z) (n : nat) : outcome unit :=
  match n with
  | O => Ok tt
  | S k => let* c := str_at_char s i in
           if negb (is_number_char c) && negb ((c >=? 65) && (c <=? 70)) then Err ERR_ILLEGAL_FUNCTION_CALL
           else col_check s (i + 1) k
  end.
(** resources.c:1079-1081: the three components packed *)
Definition col_pack (r g b : Z) : Z :=
  u16 (Z.lor (Z.lor (Z.lor r (Z.shiftl b 10)) (Z.shiftl (Z.shiftr g 1) 5)) (Z.shiftl (Z.land g 1) 15)).
(** resources.c:1047-1091 cmd_colset *)
Definition cmd_colset (p : pages) (r : banks) (res : str) (n : Z) (s : str) : banks * fin :=
  let n := FP_TO_INT n in
  if (n <? 0) || (n >? 255) then (r, Raised ERR_OUT_OF_RANGE) else
  match get_col_resource p res with
  | Err e => (r, Raised e)
  | UB => (r, Crash)
  | Ok (Col i) =>
      if negb (str_len s =? 6) then (r, Raised ERR_ILLEGAL_FUNCTION_CALL) else
      match (let* _ := col_check s 0 6 in
             let* w0 := str_at_wide s 0 in let* w1 := str_at_wide s 1 in let* w2 := str_at_wide s 2 in
             let* w3 := str_at_wide s 3 in let* w4 := str_at_wide s 4 in let* w5 := str_at_wide s 5 in
             let d := digit_value in
             Ok (col_pack (Z.lor (Z.shiftl (d w0) 1) (Z.shiftr (d w1) 3)) (Z.lor (Z.shiftl (d w2) 2) (Z.shiftr (d w3) 2))
                          (Z.lor (Z.shiftl (d w4) 1) (Z.shiftr (d w5) 3)))) with
      | Ok c => (mkBanks (chr r) (set_bank (col r) i (upd (col r i) (Z.to_nat n) c)), Done)
      | Err e => (r, Raised e)
      | UB => (r, Crash)
      end
  | Ok _ => (r, Crash)
  end.
