(** C39: PEEK, POKE, MEMCOPY, MEMFILL, PTR$, ADDR. *)
From Verif Require Import Base BaseLemmas Strs Memory MemorySpec.
Ltac Zify.zify_post_hook ::= Z.div_mod_to_equations.

Ltac mu := unfold only in *; unfold range, accessible, first_address, past_address, in_block, ADDR_MAX, MAX_MEMORY, ADDR_MIN in *.

Lemma put_out : forall n m a v b, (b < a \/ a + Z.of_nat n <= b) -> put_bytes m a v n b = m b.
Proof.
  induction n as [|n IH]; intros m a v b Hb; cbn [put_bytes]; [reflexivity|].
  rewrite IH by lia. destruct (Z.eqb_spec b a); [lia|reflexivity].
Qed.
Lemma put_bytes_ok : forall n m a v, bytes m -> bytes (put_bytes m a v n).
Proof.
  induction n as [|n IH]; intros m a v Hm; cbn [put_bytes]; [exact Hm|].
  apply IH. intro b. destruct (b =? a); [lia|apply Hm].
Qed.
Lemma get_put : forall n m a v, get_bytes (put_bytes m a v n) a n = v mod 256 ^ Z.of_nat n.
Proof.
  induction n as [|n IH]; intros m a v.
  - cbn [get_bytes]. change (256 ^ Z.of_nat 0) with 1. lia.
  - cbn [get_bytes put_bytes].
    rewrite put_out by lia. rewrite Z.eqb_refl. rewrite IH.
    replace (Z.of_nat (S n)) with (1 + Z.of_nat n) by lia.
    rewrite Z.pow_add_r by lia. change (256 ^ 1) with 256.
    assert (P : 0 < 256 ^ Z.of_nat n) by lia.
    rewrite (Z.rem_mul_r v 256 (256 ^ Z.of_nat n)) by lia. reflexivity.
Qed.

Lemma safe_range : forall size div safe m a v, a <> 0 -> (0 < Z.of_nat size) -> accessible a (Z.of_nat size) ->
  sbc_poke size div safe m a v = (put_bytes m a (v / div) size, Done).
Proof.
  intros size div safe m a v Hz Hs Ha. unfold sbc_poke. mu.
  destruct (Z.eqb_spec a 0); [lia|].
  destruct (Z.ltb_spec a 33554432); [lia|].
  destruct (Z.gtb_spec a (33554432 + 8388608 - 1)); [lia|].
  rewrite andb_false_r.
  destruct (Z.leb_spec 33554432 a); [|lia].
  destruct (Z.leb_spec (a + Z.of_nat size) (33554432 + 8388608 - 1 + 1)); [|lia]. reflexivity.
Qed.
Lemma safe_range_peek : forall size conv mul safe m a, a <> 0 -> (0 < Z.of_nat size) -> accessible a (Z.of_nat size) ->
  sbc_peek size conv mul safe m a = Ok (conv (get_bytes m a size) * mul).
Proof.
  intros size conv mul safe m a Hz Hs Ha. unfold sbc_peek. mu.
  destruct (Z.eqb_spec a 0); [lia|].
  destruct (Z.ltb_spec a 33554432); [lia|].
  destruct (Z.gtb_spec a (33554432 + 8388608 - 1)); [lia|].
  rewrite andb_false_r.
  destruct (Z.leb_spec 33554432 a); [|lia].
  destruct (Z.leb_spec (a + Z.of_nat size) (33554432 + 8388608 - 1 + 1)); [|lia]. reflexivity.
Qed.

(** POKE stores the value: PEEK returns it, no other byte changes *)
Theorem C39_poke_word : forall safe m a v, is_s32 v -> accessible a 4 ->
  exists m', cmd_poke safe m a v = (m', Done) /\ func_peek safe m' a = Ok v /\ only a 4 m m' /\ (bytes m -> bytes m').
Proof.
  intros safe m a v Hv Ha. exists (put_bytes m a (v / 1) 4).
  assert (a <> 0) by (mu; lia).
  split; [apply safe_range; cbn; auto; lia|].
  split; [|split; [intros b Hb; apply put_out; mu; lia|apply put_bytes_ok]].
  unfold func_peek. rewrite safe_range_peek by (cbn; auto; lia). rewrite get_put.
  change (256 ^ Z.of_nat 4) with 4294967296.
  f_equal. unfold s32, is_s32, INT_MIN, INT_MAX in *. change (2 ^ 31) with 2147483648 in *. change (2 ^ 32) with 4294967296.
  rewrite Z.div_1_r. lia.
Qed.
Theorem C39_poke_half : forall safe m a v, is_s32 v -> accessible a 2 ->
  exists m', cmd_pokeh safe m a v = (m', Done) /\ func_peekh safe m' a = Ok (4096 * ((v / 4096) mod 65536)) /\
             only a 2 m m' /\ (bytes m -> bytes m').
Proof.
  intros safe m a v Hv Ha. exists (put_bytes m a (v / 4096) 2).
  assert (a <> 0) by (mu; lia).
  split; [apply safe_range; cbn; auto; lia|].
  split; [|split; [intros b Hb; apply put_out; mu; lia|apply put_bytes_ok]].
  unfold func_peekh. rewrite safe_range_peek by (cbn; auto; lia). rewrite get_put.
  change (256 ^ Z.of_nat 2) with 65536. unfold u16. change (2 ^ 16) with 65536.
  rewrite Z.mod_mod by lia. f_equal. lia.
Qed.
Theorem C39_poke_byte : forall safe m a v, is_s32 v -> accessible a 1 ->
  exists m', cmd_pokeb safe m a v = (m', Done) /\ func_peekb safe m' a = Ok (4096 * ((v / 4096) mod 256)) /\
             only a 1 m m' /\ (bytes m -> bytes m').
Proof.
  intros safe m a v Hv Ha. exists (put_bytes m a (v / 4096) 1).
  assert (a <> 0) by (mu; lia).
  split; [apply safe_range; cbn; auto; lia|].
  split; [|split; [intros b Hb; apply put_out; mu; lia|apply put_bytes_ok]].
  unfold func_peekb. rewrite safe_range_peek by (cbn; auto; lia). rewrite get_put.
  change (256 ^ Z.of_nat 1) with 256. unfold u8. change (2 ^ 8) with 256.
  rewrite Z.mod_mod by lia. f_equal. lia.
Qed.
Example C39_poke_ok :
  is_s32 (-123456789) /\ accessible 33554435 4 /\
  func_peekb 4096 (fst (cmd_poke 4096 (fun _ => 0) 33554435 305419896)) 33554435 = Ok (120 * 4096) /\
  func_peekh 4096 (fst (cmd_poke 4096 (fun _ => 0) 33554435 305419896)) 33554437 = Ok (4660 * 4096).
Proof. repeat split; vm_compute; congruence. Qed.

(** how wide accesses are laid out: low byte first *)
Theorem C39_layout : forall safe m a, bytes m ->
  (accessible a 1 -> func_peekb safe m a = Ok (4096 * m a)) /\
  (accessible a 2 -> func_peekh safe m a = Ok (4096 * (m a + 256 * m (a + 1)))) /\
  (accessible a 4 -> exists w, func_peek safe m a = Ok w /\ is_s32 w /\
     w mod 4294967296 = m a + 256 * m (a + 1) + 65536 * m (a + 2) + 16777216 * m (a + 3)).
Proof.
  intros safe m a Hm.
  pose proof (Hm a) as H0. pose proof (Hm (a + 1)) as H1. pose proof (Hm (a + 2)) as H2. pose proof (Hm (a + 3)) as H3.
  split; [|split]; intro Ha; assert (a <> 0) by (mu; lia).
  - unfold func_peekb. rewrite safe_range_peek by (cbn; auto; lia). cbn [get_bytes].
    unfold u8. change (2 ^ 8) with 256. f_equal. lia.
  - unfold func_peekh. rewrite safe_range_peek by (cbn; auto; lia). cbn [get_bytes].
    unfold u16. change (2 ^ 16) with 65536. f_equal. lia.
  - unfold func_peek. rewrite safe_range_peek by (cbn; auto; lia). cbn [get_bytes].
    replace (a + 1 + 1) with (a + 2) by lia. replace (a + 2 + 1) with (a + 3) by lia.
    eexists. split; [reflexivity|]. unfold s32, is_s32, INT_MIN, INT_MAX.
    change (2 ^ 31) with 2147483648. change (2 ^ 32) with 4294967296. lia.
Qed.

(** an address outside the memory is refused and nothing changes *)
Theorem C39_outside : forall safe m a v, safe <> 0 -> ~ accessible a 1 ->
  let e := if a =? 0 then ERR_NULL_ADDRESS else ERR_ILLEGAL_ADDRESS in
  cmd_poke safe m a v = (m, Raised e) /\ cmd_pokeh safe m a v = (m, Raised e) /\ cmd_pokeb safe m a v = (m, Raised e) /\
  func_peek safe m a = Err e /\ func_peekh safe m a = Err e /\ func_peekb safe m a = Err e.
Proof.
  intros safe m a v Hs Ha e.
  assert (forall size div, sbc_poke size div safe m a v = (m, Raised e)) as P.
  { intros. unfold sbc_poke, e. destruct (Z.eqb_spec a 0); [reflexivity|].
    destruct (Z.eqb_spec safe 0); [lia|]. cbn [negb andb]. mu.
    destruct (Z.ltb_spec a 33554432); [reflexivity|].
    destruct (Z.gtb_spec a (33554432 + 8388608 - 1)); [reflexivity|]. lia. }
  assert (forall size conv mul, sbc_peek size conv mul safe m a = Err e) as Q.
  { intros. unfold sbc_peek, e. destruct (Z.eqb_spec a 0); [reflexivity|].
    destruct (Z.eqb_spec safe 0); [lia|]. cbn [negb andb]. mu.
    destruct (Z.ltb_spec a 33554432); [reflexivity|].
    destruct (Z.gtb_spec a (33554432 + 8388608 - 1)); [reflexivity|]. lia. }
  repeat split; first [apply P|apply Q].
Qed.
Example C39_outside_ok : ~ accessible 33554431 1 /\ ~ accessible 0 1 /\ ~ accessible (-5) 1 /\ ~ accessible 41943040 1.
Proof. mu. repeat split; lia. Qed.

(** a word or half word that begins inside the memory but does not fit is written past its end *)
Theorem C39_word_at_the_end_refuted : forall safe m a v, accessible a 1 -> ~ accessible a 4 ->
  cmd_poke safe m a v = (m, Crash) /\ func_peek safe m a = UB.
Proof.
  intros safe m a v Ha Hb. unfold cmd_poke, sbc_poke, func_peek, sbc_peek. mu.
  destruct (Z.eqb_spec a 0); [lia|].
  destruct (Z.ltb_spec a 33554432); [lia|].
  destruct (Z.gtb_spec a (33554432 + 8388608 - 1)); [lia|].
  rewrite andb_false_r.
  destruct (Z.leb_spec 33554432 a); [|lia].
  destruct (Z.leb_spec (a + Z.of_nat 4) (33554432 + 8388608 - 1 + 1)); [lia|]. split; reflexivity.
Qed.
Example C39_word_at_the_end_ok : accessible 41943037 1 /\ ~ accessible 41943037 4.
Proof. mu. lia. Qed.

(** bytes are always safe *)
Theorem C39_bytes_safe : forall safe m a v, safe <> 0 ->
  snd (cmd_pokeb safe m a v) <> Crash /\ func_peekb safe m a <> UB.
Proof.
  intros safe m a v Hs. unfold cmd_pokeb, sbc_poke, func_peekb, sbc_peek. mu.
  destruct (Z.eqb_spec a 0); [split; intro W; discriminate W|].
  destruct (Z.eqb_spec safe 0); [lia|]. cbn [negb andb].
  destruct (Z.ltb_spec a 33554432); [split; intro W; discriminate W|].
  destruct (Z.gtb_spec a (33554432 + 8388608 - 1)); [split; intro W; discriminate W|].
  destruct (Z.leb_spec 33554432 a); [|lia]. change (Z.of_nat 1) with 1.
  destruct (Z.leb_spec (a + 1) (33554432 + 8388608 - 1 + 1)); [|lia].
  split; intro W; discriminate W.
Qed.

Lemma memcopy_safe : forall safe m dest src sz, safe <> 0 ->
  let n := FP_TO_INT sz in
  cmd_memcopy safe m dest src sz =
  if (dest =? 0) || (src =? 0) then (m, Raised ERR_NULL_ADDRESS)
  else if n <? 0 then (m, Raised ERR_OUT_OF_RANGE)
  else if (dest <? ADDR_MIN) || (dest >? ADDR_MAX) || (src <? ADDR_MIN) || (src >? ADDR_MAX) then (m, Raised ERR_ILLEGAL_ADDRESS)
  else if (src + n >=? ADDR_MAX) || (dest + n >=? ADDR_MAX) || ((src <=? dest + n) && (dest <=? src + n)) then (m, Raised ERR_ILLEGAL_FUNCTION_CALL)
  else (memcpy m dest src n, Done).
Proof.
  intros safe m dest src sz Hs n. unfold cmd_memcopy. fold n.
  destruct (Z.eqb_spec safe 0); [lia|]. cbn [negb].
  destruct (Z.eqb_spec dest 0); [reflexivity|]. destruct (Z.eqb_spec src 0); [reflexivity|]. cbn [orb].
  destruct (Z.ltb_spec n 0); [reflexivity|].
  destruct (Z.ltb_spec dest ADDR_MIN); [reflexivity|]. destruct (Z.gtb_spec dest ADDR_MAX); [reflexivity|].
  destruct (Z.ltb_spec src ADDR_MIN); [reflexivity|]. destruct (Z.gtb_spec src ADDR_MAX); [reflexivity|]. cbn [orb].
  destruct (Z.geb_spec (src + n) ADDR_MAX); [reflexivity|]. destruct (Z.geb_spec (dest + n) ADDR_MAX); [reflexivity|]. cbn [orb].
  assert (in_block dest n && in_block src n = true) as B.
  { mu. destruct (Z.leb_spec 33554432 dest); [|lia]. destruct (Z.leb_spec 33554432 src); [|lia].
    destruct (Z.leb_spec (dest + n) (33554432 + 8388608 - 1 + 1)); [|lia].
    destruct (Z.leb_spec (src + n) (33554432 + 8388608 - 1 + 1)); [|lia]. reflexivity. }
  rewrite B, orb_true_r.
  destruct (Z.leb_spec src dest); destruct (Z.leb_spec dest (src + n)); destruct (Z.leb_spec src (dest + n)); cbn [andb];
    try reflexivity; try (destruct (Z.leb_spec dest src); cbn [andb]; first [reflexivity|lia]); lia.
Qed.

(** MEMCOPY copies, touching only the destination, or reports an error and does nothing *)
Theorem C39_memcopy : forall safe m dest src sz, safe <> 0 ->
  let n := FP_TO_INT sz in
  (exists m', cmd_memcopy safe m dest src sz = (m', Done) /\ accessible dest n /\ accessible src n /\
     (forall k, 0 <= k < n -> m' (dest + k) = m (src + k)) /\ only dest n m m') \/
  (exists e, cmd_memcopy safe m dest src sz = (m, Raised e)).
Proof.
  intros safe m dest src sz Hs n. rewrite memcopy_safe by exact Hs. cbv zeta. fold n.
  destruct (Z.eqb_spec dest 0); [right; eexists; reflexivity|]. destruct (Z.eqb_spec src 0); [right; eexists; reflexivity|]. cbn [orb].
  destruct (Z.ltb_spec n 0); [right; eexists; reflexivity|].
  destruct (Z.ltb_spec dest ADDR_MIN); [right; eexists; reflexivity|]. destruct (Z.gtb_spec dest ADDR_MAX); [right; eexists; reflexivity|].
  destruct (Z.ltb_spec src ADDR_MIN); [right; eexists; reflexivity|]. destruct (Z.gtb_spec src ADDR_MAX); [right; eexists; reflexivity|]. cbn [orb].
  destruct (Z.geb_spec (src + n) ADDR_MAX); [right; eexists; reflexivity|]. destruct (Z.geb_spec (dest + n) ADDR_MAX); [right; eexists; reflexivity|]. cbn [orb].
  destruct ((src <=? dest + n) && (dest <=? src + n)); [right; eexists; reflexivity|].
  left. eexists. split; [reflexivity|]. mu. split; [lia|]. split; [lia|]. unfold memcpy. split.
  - intros k Hk. destruct (Z.leb_spec dest (dest + k)); [|lia]. destruct (Z.ltb_spec (dest + k) (dest + n)); [|lia].
    cbn [andb]. f_equal. lia.
  - intros b Hb. destruct (Z.leb_spec dest b); destruct (Z.ltb_spec b (dest + n)); cbn [andb]; first [reflexivity|lia].
Qed.
(** exactly which copies are performed: those of two blocks of the memory, short of its last byte, with a
    gap of at least one byte between them *)
Theorem C39_memcopy_accepts : forall safe m dest src sz, safe <> 0 ->
  let n := FP_TO_INT sz in
  snd (cmd_memcopy safe m dest src sz) = Done <->
  0 <= n /\ accessible dest (n + 2) /\ accessible src (n + 2) /\ (dest + n < src \/ src + n < dest).
Proof.
  intros safe m dest src sz Hs n. rewrite memcopy_safe by exact Hs. cbv zeta. fold n. mu.
  destruct (Z.eqb_spec dest 0); [split; [intro W; discriminate W|lia]|].
  destruct (Z.eqb_spec src 0); [split; [intro W; discriminate W|lia]|]. cbn [orb].
  destruct (Z.ltb_spec n 0); [split; [intro W; discriminate W|lia]|].
  destruct (Z.ltb_spec dest 33554432); [split; [intro W; discriminate W|lia]|].
  destruct (Z.gtb_spec dest (33554432 + 8388608 - 1)); [split; [intro W; discriminate W|lia]|].
  destruct (Z.ltb_spec src 33554432); [split; [intro W; discriminate W|lia]|].
  destruct (Z.gtb_spec src (33554432 + 8388608 - 1)); [split; [intro W; discriminate W|lia]|]. cbn [orb].
  destruct (Z.geb_spec (src + n) (33554432 + 8388608 - 1)); [split; [intro W; discriminate W|lia]|].
  destruct (Z.geb_spec (dest + n) (33554432 + 8388608 - 1)); [split; [intro W; discriminate W|lia]|]. cbn [orb].
  destruct (Z.leb_spec src (dest + n)); destruct (Z.leb_spec dest (src + n)); cbn [andb];
    (split; [first [intro W; discriminate W|intros _; lia]|intro W; first [reflexivity|exfalso; lia]]).
Qed.
(** overlapping blocks are reported *)
Theorem C39_memcopy_overlap : forall safe m dest src sz b, safe <> 0 ->
  let n := FP_TO_INT sz in
  range dest n b -> range src n b -> exists e, cmd_memcopy safe m dest src sz = (m, Raised e).
Proof.
  intros safe m dest src sz b Hs n H1 H2.
  destruct (C39_memcopy safe m dest src sz Hs) as [(m' & E & _)|X]; [|exact X].
  assert (D : snd (cmd_memcopy safe m dest src sz) = Done) by (rewrite E; reflexivity).
  apply C39_memcopy_accepts in D; [|exact Hs]. fold n in D. unfold range in *. lia.
Qed.
Example C39_memcopy_ok :
  snd (cmd_memcopy 4096 (fun b => b mod 256) 33554432 33554443 (10 * 4096)) = Done /\
  fst (cmd_memcopy 4096 (fun b => b mod 256) 33554432 33554443 (10 * 4096)) 33554441 = 20 /\
  range 33554437 10 33554440 /\ range 33554432 10 33554440.
Proof. split; [reflexivity|]. split; [reflexivity|]. unfold range. lia. Qed.
(** but blocks that merely touch are refused as if they overlapped, and so is the last byte of the memory *)
Theorem C39_memcopy_adjacent_refuted : forall safe m src sz, safe <> 0 ->
  let n := FP_TO_INT sz in
  0 <= n -> accessible src (2 * n + 2) -> cmd_memcopy safe m (src + n) src sz = (m, Raised ERR_ILLEGAL_FUNCTION_CALL).
Proof.
  intros safe m src sz Hs n Hn Ha. rewrite memcopy_safe by exact Hs. cbv zeta. fold n. mu.
  destruct (Z.eqb_spec (src + n) 0); [lia|]. destruct (Z.eqb_spec src 0); [lia|]. cbn [orb].
  destruct (Z.ltb_spec n 0); [lia|].
  destruct (Z.ltb_spec (src + n) 33554432); [lia|]. destruct (Z.gtb_spec (src + n) (33554432 + 8388608 - 1)); [lia|].
  destruct (Z.ltb_spec src 33554432); [lia|]. destruct (Z.gtb_spec src (33554432 + 8388608 - 1)); [lia|]. cbn [orb].
  destruct (Z.leb_spec src (src + n + n)); [|lia]. destruct (Z.leb_spec (src + n) (src + n)); [|lia].
  cbn [andb]. rewrite orb_true_r. reflexivity.
Qed.
Theorem C39_last_byte_refuted : forall safe m dest src v, safe <> 0 -> accessible src 1 -> dest + 1 = past_address ->
  cmd_memfill safe m dest v 4096 = (m, Raised ERR_ILLEGAL_FUNCTION_CALL) /\
  cmd_memcopy safe m dest src 4096 = (m, Raised ERR_ILLEGAL_FUNCTION_CALL).
Proof.
  intros safe m dest src v Hs Ha Hd.
  assert (dest = 41943039) by (mu; lia). subst dest.
  unfold cmd_memfill. rewrite memcopy_safe by exact Hs. change (FP_TO_INT 4096) with 1.
  destruct (Z.eqb_spec safe 0); [lia|]. split; [reflexivity|]. mu. cbv zeta.
  change (41943039 =? 0) with false. destruct (Z.eqb_spec src 0); [lia|]. cbn [orb].
  change (1 <? 0) with false. change (41943039 <? 33554432) with false. change (41943039 >? 33554432 + 8388608 - 1) with false. cbn [orb].
  destruct (Z.ltb_spec src 33554432); [lia|]. destruct (Z.gtb_spec src (33554432 + 8388608 - 1)); [lia|]. cbn [orb].
  change (41943039 + 1 >=? 33554432 + 8388608 - 1) with true. rewrite orb_true_r. reflexivity.
Qed.

(** MEMFILL *)
Theorem C39_memfill : forall safe m dest v sz, safe <> 0 ->
  let n := FP_TO_INT sz in
  (0 <= n /\ accessible dest (n + 2) /\
   exists m', cmd_memfill safe m dest v sz = (m', Done) /\ (forall b, range dest n b -> m' b = (v / 4096) mod 256) /\ only dest n m m') \/
  (~ (0 <= n /\ accessible dest (n + 2)) /\ exists e, cmd_memfill safe m dest v sz = (m, Raised e)).
Proof.
  intros safe m dest v sz Hs n. unfold cmd_memfill. fold n. mu.
  destruct (Z.eqb_spec safe 0); [lia|]. cbn [negb].
  destruct (Z.eqb_spec dest 0); [right; split; [lia|eexists; reflexivity]|].
  destruct (Z.ltb_spec n 0); [right; split; [lia|eexists; reflexivity]|].
  destruct (Z.ltb_spec dest 33554432); [right; split; [lia|eexists; reflexivity]|].
  destruct (Z.gtb_spec dest (33554432 + 8388608 - 1)); [right; split; [lia|eexists; reflexivity]|]. cbn [orb].
  destruct (Z.geb_spec (dest + n) (33554432 + 8388608 - 1)); [right; split; [lia|eexists; reflexivity]|].
  destruct (Z.leb_spec 33554432 dest); [|lia]. destruct (Z.leb_spec (dest + n) (33554432 + 8388608 - 1 + 1)); [|lia].
  cbn [andb]. rewrite orb_true_r. left. split; [lia|]. split; [lia|]. eexists. split; [reflexivity|]. unfold memset. split.
  - intros b Hb. destruct (Z.leb_spec dest b); [|lia]. destruct (Z.ltb_spec b (dest + n)); [|lia].
    cbn [andb]. unfold u8, FP_TO_INT. reflexivity.
  - intros b Hb. destruct (Z.leb_spec dest b); destruct (Z.ltb_spec b (dest + n)); cbn [andb]; first [reflexivity|lia].
Qed.
Example C39_memfill_ok : 0 <= FP_TO_INT (100 * 4096) /\ accessible 33554432 (FP_TO_INT (100 * 4096) + 2) /\
  fst (cmd_memfill 4096 (fun b => 7) 33554432 (300 * 4096) (100 * 4096)) 33554531 = 44.
Proof. split; [vm_compute; congruence|]. split; [mu; vm_compute; split; congruence|reflexivity]. Qed.

(** PTR$ *)
Lemma hex_digit_value : forall d, 0 <= d < 16 -> hex_value (hex_digit d) = Some d.
Proof.
  intros d Hd. assert (d = 0 \/ d = 1 \/ d = 2 \/ d = 3 \/ d = 4 \/ d = 5 \/ d = 6 \/ d = 7 \/ d = 8 \/ d = 9 \/ d = 10
    \/ d = 11 \/ d = 12 \/ d = 13 \/ d = 14 \/ d = 15) as C by lia.
  repeat (destruct C as [C|C]; [subst d; reflexivity|]). subst d. reflexivity.
Qed.
Lemma hex_app : forall l1 l2 a v, hex_text l1 a = Some v -> hex_text (l1 ++ l2) a = hex_text l2 v.
Proof.
  induction l1 as [|c l1 IH]; intros l2 a v E; cbn [hex_text app] in *; [injection E as ->; reflexivity|].
  destruct (hex_value c); [|discriminate E]. exact (IH _ _ _ E).
Qed.
Lemma ptr_loop_text : forall n p acc a, exists t, ptr_loop n p acc = t ++ acc /\ length t = n /\
  hex_text t a = Some (a * 16 ^ Z.of_nat n + p mod 16 ^ Z.of_nat n).
Proof.
  induction n as [|n IH]; intros p acc a.
  - exists []. split; [reflexivity|]. split; [reflexivity|]. cbn [hex_text]. change (16 ^ Z.of_nat 0) with 1. f_equal. lia.
  - cbn [ptr_loop]. destruct (IH (Z.shiftr p 4) (hex_digit (Z.land p 15) :: acc) a) as (t & E & L & V).
    exists (t ++ [hex_digit (Z.land p 15)]). split; [rewrite E, <- app_assoc; reflexivity|].
    split; [rewrite app_length, L; cbn; lia|].
    rewrite (hex_app _ _ _ _ V). cbn [hex_text].
    assert (Z.land p 15 = p mod 16) as X by (change 15 with (Z.ones 4); rewrite Z.land_ones by lia; reflexivity).
    rewrite X, hex_digit_value by lia. f_equal.
    rewrite Z.shiftr_div_pow2 by lia. change (2 ^ 4) with 16.
    replace (Z.of_nat (S n)) with (1 + Z.of_nat n) by lia. rewrite Z.pow_add_r by lia. change (16 ^ 1) with 16.
    assert (P : 0 < 16 ^ Z.of_nat n) by lia.
    rewrite (Z.rem_mul_r p 16 (16 ^ Z.of_nat n)) by lia. nia.
Qed.
Theorem C39_ptr : forall p, exists t, func_ptr p = [48; 120] ++ t /\ length t = 8%nat /\ hex_text t 0 = Some (p mod 4294967296).
Proof.
  intro p. unfold func_ptr. destruct (ptr_loop_text 8 p [] 0) as (t & E & L & V).
  exists t. rewrite E, app_nil_r. split; [reflexivity|]. split; [exact L|exact V].
Qed.
Example C39_ptr_ok : func_ptr 33554443 = [48; 120; 48; 50; 48; 48; 48; 48; 48; 66].
Proof. reflexivity. Qed.

(** MEMSAFE is 0 or 1 after an assignment *)
Theorem C39_memsafe : forall v, syschk_memsafe v = if v =? 0 then 0 else 4096.
Proof. intro v. unfold syschk_memsafe. destruct (Z.eqb_spec v 0); reflexivity. Qed.

(** ADDR(".NAME$[]"): the variable looked up is the one named *)
Lemma at_char_bytes : forall b i, zlen b <= 256 -> 0 <= i < zlen b ->
  match str_at_char (SBc b) i with Ok c => c | _ => 0 end = nth (Z.to_nat i) b 0.
Proof.
  intros b i Hb Hi. unfold str_at_char. unfold u16. change (2 ^ 16) with 65536. rewrite Z.mod_small by lia.
  destruct (nth_error b (Z.to_nat i)) as [c|] eqn:E.
  - symmetry. apply nth_error_nth. exact E.
  - apply nth_error_None in E. unfold zlen in Hi. lia.
Qed.
Definition suffix (st arr : bool) : list Z := (if st then [36] else []) ++ (if arr then [91; 93] else []).
Lemma addr_var_gen : forall c0 name st arr,
  (1 <= length name <= 16)%nat -> ~ In 36 name -> ~ In 93 name ->
  addr_var (SBc (c0 :: name ++ suffix st arr)) =
  if 17 <? 1 + zlen name + zlen (suffix st arr) then UB
  else Ok (name, (if arr then 8 else 0) + (if st then 2 else 1)).
Proof.
  intros c0 name st arr Hn H36 H93.
  set (t := c0 :: name ++ suffix st arr).
  assert (L : str_len (SBc t) = 1 + zlen name + zlen (suffix st arr)).
  { unfold str_len, zlen, t. cbn [length]. rewrite app_length. lia. }
  assert (Ls : zlen (suffix st arr) = (if st then 1 else 0) + (if arr then 2 else 0)) by (destruct st, arr; reflexivity).
  assert (B : zlen t <= 256) by (change (zlen t) with (str_len (SBc t)); unfold zlen in *; destruct st, arr; lia).
  unfold addr_var. cbv zeta.
  set (at_ := addr_at (SBc t)).
  assert (A : forall i, 0 <= i < str_len (SBc t) -> at_ i = nth (Z.to_nat i) t 0) by (intros i Hi; apply at_char_bytes; [exact B|exact Hi]).
  set (ln := Z.of_nat (length name)) in *. assert (zlen name = ln) as Zn by reflexivity.
  (* the last character of the name *)
  assert (Last : forall k, (1 <= k <= length name)%nat -> nth k t 0 <> 36 /\ nth k t 0 <> 93).
  { intros k Hk. unfold t. destruct k as [|k]; [lia|]. cbn [nth]. rewrite app_nth1 by lia.
    assert (In (nth k name 0) name) as I by (apply nth_In; lia).
    split; intro E; rewrite E in I; contradiction. }
  assert (Suf : forall k, nth (S (length name) + k) t 0 = nth k (suffix st arr) 0).
  { intro k. unfold t. cbn [plus nth]. rewrite app_nth2 by lia. f_equal. lia. }
  rewrite L, Ls in *. rewrite Zn in *. unfold zlen in Zn.
  destruct (Z.eqb_spec (1 + ln + ((if st then 1 else 0) + (if arr then 2 else 0))) 0) as [E|_]; [destruct st, arr; lia|].
  assert (ARR : ((1 + ln + ((if st then 1 else 0) + (if arr then 2 else 0)) >? 2) &&
     (at_ (1 + ln + ((if st then 1 else 0) + (if arr then 2 else 0)) - 1) =? 93) &&
     (at_ (1 + ln + ((if st then 1 else 0) + (if arr then 2 else 0)) - 2) =? 91)) = arr).
  { destruct arr.
    - rewrite !A by (destruct st; lia).
      replace (Z.to_nat (1 + ln + ((if st then 1 else 0) + 2) - 1)) with (S (length name) + ((if st then 1 else 0) + 1))%nat by (destruct st; lia).
      replace (Z.to_nat (1 + ln + ((if st then 1 else 0) + 2) - 2)) with (S (length name) + (if st then 1 else 0))%nat by (destruct st; lia).
      rewrite !Suf. destruct (Z.gtb_spec (1 + ln + ((if st then 1 else 0) + 2)) 2); [|destruct st; lia]. destruct st; reflexivity.
    - destruct st.
      + rewrite (A (1 + ln + (1 + 0) - 1)) by lia.
        replace (Z.to_nat (1 + ln + (1 + 0) - 1)) with (S (length name) + 0)%nat by lia. rewrite Suf.
        cbn [suffix app nth]. change (36 =? 93) with false. rewrite andb_false_r. reflexivity.
      + rewrite (A (1 + ln + (0 + 0) - 1)) by lia.
        replace (Z.to_nat (1 + ln + (0 + 0) - 1)) with (length name) by lia.
        destruct (Last (length name)) as [_ N]; [lia|]. destruct (Z.eqb_spec (nth (length name) t 0) 93); [contradiction|].
        rewrite andb_false_r. reflexivity. }
  rewrite ARR.
  replace (if arr then 1 + ln + ((if st then 1 else 0) + (if arr then 2 else 0)) - 2 else 1 + ln + ((if st then 1 else 0) + (if arr then 2 else 0)))
    with (1 + ln + (if st then 1 else 0)) by (destruct arr; lia).
  assert (ST : ((1 + ln + (if st then 1 else 0) >? 1) && (at_ (1 + ln + (if st then 1 else 0) - 1) =? 36)) = st).
  { destruct (Z.gtb_spec (1 + ln + (if st then 1 else 0)) 1); [|destruct st; lia]. cbn [andb].
    rewrite A by (destruct st, arr; lia). destruct st.
    - replace (Z.to_nat (1 + ln + 1 - 1)) with (S (length name) + 0)%nat by lia. rewrite Suf. reflexivity.
    - replace (Z.to_nat (1 + ln + 0 - 1)) with (length name) by lia.
      destruct (Last (length name)) as [N _]; [lia|]. destruct (Z.eqb_spec (nth (length name) t 0) 36); [contradiction|reflexivity]. }
  rewrite ST.
  replace (if st then 1 + ln + (if st then 1 else 0) - 1 else 1 + ln + (if st then 1 else 0)) with (1 + ln) by (destruct st; lia).
  destruct (Z.gtb_spec (1 + ln) 17); [lia|].
  rewrite Z.gtb_ltb. destruct (17 <? _); [reflexivity|].
  f_equal. f_equal. unfold str_char_copy, t. cbn [skipn].
  replace (Z.to_nat (1 + ln - 1)) with (length name) by lia.
  rewrite firstn_app, Nat.sub_diag, firstn_all. cbn [firstn]. apply app_nil_r.
Qed.
(** ... as long as the whole text has at most 17 characters *)
Theorem C39_addr_name_partial : forall c0 name (st arr : bool),
  (1 <= length name <= 16)%nat -> ~ In 36 name -> ~ In 93 name ->
  zlen name + zlen (suffix st arr) <= 16 ->
  addr_var (SBc (c0 :: name ++ suffix st arr)) = Ok (name, (if arr then 8 else 0) + (if st then 2 else 1)).
Proof.
  intros c0 name st arr Hn H36 H93 Hl. rewrite addr_var_gen by assumption.
  destruct (Z.ltb_spec 17 (1 + zlen name + zlen (suffix st arr))); [lia|reflexivity].
Qed.
(** a variable whose name is too long for the copy on the stack is written past it *)
Theorem C39_addr_name_refuted : forall c0 name (st arr : bool),
  (1 <= length name <= 16)%nat -> ~ In 36 name -> ~ In 93 name ->
  16 < zlen name + zlen (suffix st arr) ->
  addr_var (SBc (c0 :: name ++ suffix st arr)) = UB.
Proof.
  intros c0 name st arr Hn H36 H93 Hl. rewrite addr_var_gen by assumption.
  destruct (Z.ltb_spec 17 (1 + zlen name + zlen (suffix st arr))); [reflexivity|lia].
Qed.
Example C39_addr_ok : addr_var (SBc [38; 65; 66; 36; 91; 93]) = Ok ([65; 66], 10).
Proof. reflexivity. Qed.
Example C39_addr_refuted_ok : let name := repeat 65 16 in
  (1 <= length name <= 16)%nat /\ ~ In 36 name /\ ~ In 93 name /\ 16 < zlen name + zlen (suffix true false).
Proof.
  cbv zeta. split; [cbn; lia|]. split; [|split; [|reflexivity]];
  intro I; apply repeat_spec in I; discriminate I.
Qed.
Print Assumptions C39_poke_word.
Print Assumptions C39_memcopy.
Print Assumptions C39_ptr.
Print Assumptions C39_addr_name_refuted.
