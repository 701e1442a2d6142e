(** The bit stream format: each byte is either 0 followed by a cache position of
    [bits] bits, or 1 followed by the 8 bits of the byte, which then replaces the
    cache entries in turn. *)
From Verif Require Import Base Compress.

Definition msb_bits (n v : Z) : list bool := map (fun j => Z.testbit v (n - 1 - Z.of_nat j)) (seq 0 (Z.to_nat n)).
Fixpoint encode (bits : Z) (src cache : list Z) (next : Z) : list bool :=
  match src with
  | [] => []
  | x :: t => match cache_search x cache 0 with
              | Some c => false :: msb_bits bits c ++ encode bits t cache next
              | None => true :: msb_bits 8 x ++ encode bits t (upd cache (Z.to_nat next) x) ((next + 1) mod 2 ^ bits)
              end
  end.
(** number of bits used for the first i bytes *)
Definition cost (bits : Z) (src : list Z) (i : nat) : Z :=
  Z.of_nat (length (encode bits (firstn i src) (init_cache bits) 0)).
Definition byte (x : Z) : Prop := 0 <= x < 256.
(** bytes needed for the whole encoding *)
Definition packed_size (bits : Z) (src : list Z) : Z := (cost bits src (length src) + 7) / 8.

(** bit k of a buffer, most significant bit of byte 0 first *)
Definition getbit (buf : list Z) (k : Z) : bool := Z.testbit (at_ buf (k / 8)) (7 - k mod 8).
Definition bytes (l : list Z) : Prop := Forall byte l.

(** [stream buf k l]: the bits of [buf] from bit [k] on are [l] *)
Definition stream (buf : list Z) (k : Z) (l : list bool) : Prop :=
  forall j, 0 <= j < Z.of_nat (length l) -> getbit buf (k + j) = nth (Z.to_nat j) l false.
(** Meaning of a result (size, cache bits or None for stored, output): it is the
    smallest over all cache widths, never larger than the source, and decoding
    it into any destination buffer placed behind it restores the source. *)
Definition lossless (src : list Z) (r : Z * option Z * list Z) : Prop :=
  let '(n, cache, out) := r in
  (forall b, 0 <= b <= 7 -> n <= packed_size b src) /\
  match cache with
  | None => n = Z.of_nat (length src) /\ firstn (length src) out = src
  | Some b => 0 <= b <= 7 /\ 0 <= n < Z.of_nat (length src) /\ n = packed_size b src /\
      n <= Z.of_nat (length out) /\ bytes out /\
      stream out 0 (encode b src (init_cache b) 0) /\
      forall dest, bytes dest -> length dest = length src ->
        decompress (firstn (Z.to_nat n) out ++ dest) 0 n (length src) b = Ok (firstn (Z.to_nat n) out ++ src)
  end.

