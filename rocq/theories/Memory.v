(** Memory access from BASIC (source/extension/sbc_memory.c, PC build). *)
From Verif Require Import Base Strs.

(** sbc_blockalloc.h:7 MAX_MEMORY, sbc_memory.c:11-12.  On a PC the BASIC address [a] denotes the byte
    [a - ADDR_MIN] of the one malloc'ed block that holds the whole interpreter state (sbc_blockalloc.c:11-19);
    a memory is a function of the BASIC address.  An access outside the block is [Crash].  The structure
    of the block's content and the iprintf log lines are not modelled; unaligned multi-byte accesses are
    taken to work (x86; ADDR_ALIGN is false). *)
Definition ADDR_MIN : Z := 33554432.                    (* 0x02000000 *)
Definition MAX_MEMORY : Z := 8388608.                   (* 8*1024*1024 *)
Definition ADDR_MAX : Z := ADDR_MIN + MAX_MEMORY - 1.
Definition mem := Z -> Z.

Inductive fin := Done | Raised (e : err) | Crash.

(** reading and writing [n] bytes, little endian *)
Fixpoint get_bytes (m : mem) (a : Z) (n : nat) : Z :=
  match n with O => 0 | S k => m a + 256 * get_bytes m (a + 1) k end.
Fixpoint put_bytes (m : mem) (a v : Z) (n : nat) : mem :=
  match n with
  | O => m
  | S k => put_bytes (fun b => if b =? a then v mod 256 else m b) (a + 1) (v / 256) k
  end.
(** the C program may touch the bytes from [a] to [a+n-1] *)
Definition in_block (a n : Z) : bool := (ADDR_MIN <=? a) && (a + n <=? ADDR_MAX + 1).

(** sbc_memory.c:17 FIXP_TO_PTR: only the number 0 is converted to NULL.  sbc_memory.c:29-46 SBC_POKE:
    [size] is sizeof(type), [shift] the divisor of the optional shift; the conversion to the type keeps
    the low [size] bytes. *)
Definition sbc_poke (size : nat) (div : Z) (safe : Z) (m : mem) (addr val : Z) : mem * fin :=
  if addr =? 0 then (m, Raised ERR_NULL_ADDRESS)
  else if negb (safe =? 0) && ((addr <? ADDR_MIN) || (addr >? ADDR_MAX)) then (m, Raised ERR_ILLEGAL_ADDRESS)
  else if in_block addr (Z.of_nat size) then (put_bytes m addr (val / div) size, Done)
  else (m, Crash).
(** sbc_memory.c:48-58 *)
Definition cmd_poke := sbc_poke 4 1.
Definition cmd_pokeh := sbc_poke 2 4096.
Definition cmd_pokeb := sbc_poke 1 4096.

(** sbc_memory.c:118-135 SBC_PEEK: the loaded value is converted to int, shifted and stored in a fixp *)
Definition sbc_peek (size : nat) (conv : Z -> Z) (mul : Z) (safe : Z) (m : mem) (addr : Z) : outcome Z :=
  if addr =? 0 then Err ERR_NULL_ADDRESS
  else if negb (safe =? 0) && ((addr <? ADDR_MIN) || (addr >? ADDR_MAX)) then Err ERR_ILLEGAL_ADDRESS
  else if in_block addr (Z.of_nat size) then Ok (conv (get_bytes m addr size) * mul) else UB.
(** sbc_memory.c:137-147 *)
Definition func_peek := sbc_peek 4 s32 1.
Definition func_peekh := sbc_peek 2 u16 4096.
Definition func_peekb := sbc_peek 1 u8 4096.

(** memcpy between blocks that do not overlap, memset *)
Definition memcpy (m : mem) (dest src n : Z) : mem :=
  fun b => if (dest <=? b) && (b <? dest + n) then m (src + (b - dest)) else m b.
Definition memset (m : mem) (dest v n : Z) : mem :=
  fun b => if (dest <=? b) && (b <? dest + n) then v else m b.

(** sbc_memory.c:60-92 cmd_memcopy *)
Definition cmd_memcopy (safe : Z) (m : mem) (dest src size_num : Z) : mem * fin :=
  if (dest =? 0) || (src =? 0) then (m, Raised ERR_NULL_ADDRESS) else
  let size := FP_TO_INT size_num in
  if size <? 0 then (m, Raised ERR_OUT_OF_RANGE) else
  let chk := if negb (safe =? 0) then
      if (dest <? ADDR_MIN) || (dest >? ADDR_MAX) then Some ERR_ILLEGAL_ADDRESS
      else if (src <? ADDR_MIN) || (src >? ADDR_MAX) then Some ERR_ILLEGAL_ADDRESS
      else if src + size >=? ADDR_MAX then Some ERR_ILLEGAL_FUNCTION_CALL
      else if dest + size >=? ADDR_MAX then Some ERR_ILLEGAL_FUNCTION_CALL
      else None
    else None in
  match chk with
  | Some e => (m, Raised e)
  | None =>
      if (src <=? dest) && (dest <=? src + size) then (m, Raised ERR_ILLEGAL_FUNCTION_CALL)
      else if (dest <=? src) && (src <=? dest + size) then (m, Raised ERR_ILLEGAL_FUNCTION_CALL)
      else if (size =? 0) || (in_block dest size && in_block src size) then (memcpy m dest src size, Done)
      else (m, Crash)
  end.

(** sbc_memory.c:94-116 cmd_memfill *)
Definition cmd_memfill (safe : Z) (m : mem) (dest value size_num : Z) : mem * fin :=
  let v := u8 (FP_TO_INT value) in
  if dest =? 0 then (m, Raised ERR_NULL_ADDRESS) else
  let size := FP_TO_INT size_num in
  if size <? 0 then (m, Raised ERR_OUT_OF_RANGE) else
  let chk := if negb (safe =? 0) then
      if (dest <? ADDR_MIN) || (dest >? ADDR_MAX) then Some ERR_ILLEGAL_ADDRESS
      else if dest + size >=? ADDR_MAX then Some ERR_ILLEGAL_FUNCTION_CALL
      else None
    else None in
  match chk with
  | Some e => (m, Raised e)
  | None => if (size =? 0) || in_block dest size then (memset m dest v size, Done) else (m, Crash)
  end.

(** sbc_memory.c:285-303 func_ptr: digits from the low end, into places 9 down to 2.
    strs.c hex_digits = "0123456789ABCDEF" *)
Definition hex_digit (d : Z) : Z := nth (Z.to_nat d) [48;49;50;51;52;53;54;55;56;57;65;66;67;68;69;70] 0.
Fixpoint ptr_loop (n : nat) (ptr : Z) (acc : list Z) : list Z :=
  match n with
  | O => acc
  | S k => ptr_loop k (Z.shiftr ptr 4) (hex_digit (Z.land ptr 15) :: acc)
  end.
Definition func_ptr (ptr : Z) : list Z := 48 :: 120 :: ptr_loop 8 ptr [].

(** sbc_memory.c:311-313 syschk_memsafe *)
Definition syschk_memsafe (v : Z) : Z := INT_TO_FP (b2z (negb (v =? 0))).

(** sbc_memory.c:154-197 func_addr on ".NAME" / "&NAME": the name and type passed to get_var.  The whole
    text is copied into [char var_name[17]]; a longer one overruns that array.  Types: vars.h
    VAR_NUMBER 1, VAR_STRING 2, VAR_ARRAY 8. *)
Definition addr_at (s : str) (i : Z) : Z := match str_at_char s i with Ok c => c | _ => 0 end.
Definition addr_var (s : str) : outcome (list Z * Z) :=
  let len := str_len s in
  if len =? 0 then Err ERR_ILLEGAL_FUNCTION_CALL else
  let arr := (len >? 2) && (addr_at s (len - 1) =? 93) && (addr_at s (len - 2) =? 91) in
  let len := if arr then len - 2 else len in
  let st := (len >? 1) && (addr_at s (len - 1) =? 36) in
  let len := if st then len - 1 else len in
  let type := (if arr then 8 else 0) + (if st then 2 else 1) in
  if len >? 17 then Err ERR_ILLEGAL_FUNCTION_CALL else
  if str_len s >? 17 then UB else
  Ok (firstn (Z.to_nat (len - 1)) (skipn 1 (str_char_copy s)), type).
