(** Resource compression (source/extension/compress.c) and loading of compressed
    files (source/subsystem/resources.c:366-398). *)
From Verif Require Import Base.

Definition at_ (l : list Z) (i : Z) : Z := nth (Z.to_nat i) l 0.

(** compress.c:15-22 sbc_cache_search: first position, -1 is None *)
Fixpoint cache_search (value : Z) (cache : list Z) (i : Z) : option Z :=
  match cache with
  | [] => None
  | c :: t => if value =? c then Some i else cache_search value t (i + 1)
  end.

(** compress.c:24-31 sbc_write_bits.  Both bytes are always written (with |=), a
    byte outside the buffer is UB.  The index advances by [bits]. *)
Definition write_bits (buf : list Z) (index value bits : Z) : outcome (list Z) :=
  let v := value * 2 ^ (8 - index mod 8 + (8 - bits)) in
  let q := index / 8 in
  if q + 1 <? Z.of_nat (length buf)
  then let buf := upd buf (Z.to_nat q) (Z.lor (at_ buf q) (v / 256)) in
       Ok (upd buf (Z.to_nat (q + 1)) (Z.lor (at_ buf (q + 1)) (v mod 256)))
  else UB.

Definition bytes_of_bits (index : Z) : Z := index / 8 + (if index mod 8 =? 0 then 0 else 1).
(** compress.c:47-51 initial cache: the first 2^bits of the 128 entries are used *)
Definition init_cache (bits : Z) : list Z := map Z.of_nat (seq 0 (Z.to_nat (2 ^ bits))).

(** compress.c:56-73, the loop of sbc_compress *)
Fixpoint compress_loop (src : list Z) (size bits unit : Z) (cache : list Z) (next index : Z) (buf : list Z)
  : outcome (Z * list Z) :=
  match src with
  | [] => Ok (index, buf)
  | x :: t =>
      if bytes_of_bits index <? size then
        match cache_search x cache 0 with
        | Some c =>
            let* buf := write_bits buf index 0 1 in
            let* buf := write_bits buf (index + 1) c bits in
            compress_loop t size bits unit cache next (index + 1 + bits) buf
        | None =>
            let* buf := write_bits buf index 1 1 in
            let* buf := write_bits buf (index + 1) x unit in
            compress_loop t size bits unit (upd cache (Z.to_nat next) x) ((next + 1) mod 2 ^ bits)
              (index + 1 + unit) buf
        end
      else Ok (index, buf)
  end.

(** compress.c:39-79 sbc_compress for cache_size >= 0; [out] is the output
    buffer, of which the first source_size bytes are zeroed.  -1 is None. *)
Definition compress (src : list Z) (out : list Z) (bits unit : Z) : outcome (option Z * list Z) :=
  let size := Z.of_nat (length src) in
  let out := repeat 0 (length src) ++ skipn (length src) out in
  let* (index, out) := compress_loop src size bits unit (init_cache bits) 0 0 out in
  Ok (if bytes_of_bits index >=? size then None else Some (bytes_of_bits index), out).

(** compress.c:82-98 sbc_optimal_compress: [slack] is the number of bytes usable
    after the source_size bytes that are allocated (0 in the C text, see
    C30_overflow_refuted).  Result: size, cache bits (None: stored), output. *)
Fixpoint try_bits (src out : list Z) (unit : Z) (tries : list Z) (best : Z * option Z)
  : outcome (Z * option Z * list Z) :=
  match tries with
  | [] => Ok (best, out)
  | b :: t =>
      let* (r, out) := compress src out b unit in
      try_bits src out unit t
        (match r with Some n => if n <? fst best then (n, Some b) else best | None => best end)
  end.
Definition optimal_compress (src : list Z) (unit : Z) (slack : nat) : outcome (Z * option Z * list Z) :=
  let* (best, out) := try_bits src (repeat 0 (length src + slack)) unit [0;1;2;3;4;5;6;7] (Z.of_nat (length src), None) in
  match snd best with
  | None => Ok (best, src ++ skipn (length src) out)
  | Some b => let* (_, out) := compress src out b unit in Ok (best, out)
  end.

(** compress.c:100-117 sbc_read_bits at address [src] of memory [mem] *)
Definition read_bits (mem : list Z) (src index bits : Z) : outcome Z :=
  let q := src + index / 8 in
  let bit := index mod 8 in
  let ok a := (0 <=? a) && (a <? Z.of_nat (length mem)) in
  if bit + bits <=? 8
  then if ok q then Ok ((at_ mem q / 2 ^ (8 - bit - bits)) mod 2 ^ bits) else UB
  else if ok q && ok (q + 1)
       then Ok (((at_ mem q * 256 + at_ mem (q + 1)) / 2 ^ (16 - bit - bits)) mod 2 ^ bits) else UB.

(** compress.c:126-156 sbc_decompress: source at address [src], destination at
    [dst] of the same memory; [n] bytes remain, [i] were written. *)
Fixpoint decompress_loop (n : nat) (mem : list Z) (src dst i bits : Z) (cache : list Z) (next index : Z)
  : outcome (list Z) :=
  match n with
  | O => Ok mem
  | S n =>
      let* flag := read_bits mem src index 1 in
      let* value := read_bits mem src (index + 1) (if flag =? 0 then bits else 8) in
      let out := if flag =? 0 then at_ cache value else value in
      if (0 <=? dst + i) && (dst + i <? Z.of_nat (length mem)) then
        let mem := upd mem (Z.to_nat (dst + i)) out in
        if flag =? 0
        then decompress_loop n mem src dst (i + 1) bits cache next (index + 1 + bits)
        else decompress_loop n mem src dst (i + 1) bits (upd cache (Z.to_nat next) out)
               ((next + 1) mod 2 ^ bits) (index + 1 + 8)
      else UB
  end.
(** The cache array has 128 entries: more than 7 bits overrun it (compress.c:128-132). *)
Definition decompress (mem : list Z) (src dst : Z) (n : nat) (bits : Z) : outcome (list Z) :=
  if (bits <? 0) || (7 <? bits) then UB else
  decompress_loop n mem src dst 0 bits (init_cache bits) 0 0.

(** resources.c:366-398: the file (8 bytes of header, then the data) is read to
    the end of the destination [dest] of [size] bytes, then decompressed in place. *)
Definition load_compressed (dest file : list Z) (bits : Z) : outcome (list Z) :=
  let size := Z.of_nat (length dest) in
  let start := size - Z.of_nat (length file) in
  if start <? 0 then UB
  else decompress (firstn (Z.to_nat start) dest ++ file) (start + 8) 0 (length dest) bits.
