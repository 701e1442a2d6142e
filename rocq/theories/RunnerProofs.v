From Verif Require Import Base BaseLemmas Tokens ExprSpec ExprProofs EvalProofs NumText Bytecode BytecodeSpec BytecodeProofs Runner RunnerSpec.
Ltac Zify.zify_post_hook ::= Z.div_mod_to_equations.

(** * decoding *)
Lemma slice_app pre a post : slice (pre ++ a ++ post) (Z.of_nat (length pre)) (len a) = a.
Proof.
  unfold slice, len. rewrite !Nat2Z.id. rewrite skipn_app, skipn_all, Nat.sub_diag. cbn [app skipn]. rewrite firstn_app, firstn_all, Nat.sub_diag. cbn [firstn]. apply app_nil_r.
Qed.
Lemma slice_app2 pre x y a post n : n = len a -> slice (pre ++ x :: y :: a ++ post) (Z.of_nat (length pre) + 2) n = a.
Proof.
  intros ->. replace (pre ++ x :: y :: a ++ post) with ((pre ++ [x; y]) ++ a ++ post) by (rewrite <- app_assoc; reflexivity).
  replace (Z.of_nat (length pre) + 2) with (Z.of_nat (length (pre ++ [x; y]))) by (rewrite app_length; cbn [length]; lia). apply slice_app.
Qed.
Lemma s8_small x : 0 <= x < 128 -> s8 x = x.
Proof. intros R. unfold s8. change (2 ^ 7) with 128. change (2 ^ 8) with 256. lia. Qed.
(** the strings the runner can step over on a machine with signed chars *)
Definition short (i : instr) : Prop := match i with IStr _ s | ILabel s | IData s => (length s < 128)%nat | IArgc n => n < 128 | _ => True end.
Lemma fetch_enc pre i post : good i -> short i -> fetch (pre ++ enc i ++ post) (Z.of_nat (length pre)) = Ok (i, Z.of_nat (length (pre ++ enc i))).
Proof.
  intros G S. rewrite app_length, Nat2Z.inj_add. unfold fetch. rewrite scan_at by exact G.
  assert (B : forall k, byte (pre ++ enc i ++ post) (Z.of_nat (length pre) + Z.of_nat k) = nth k (enc i ++ post) 0) by (intros k; apply byte_app).
  rewrite (B 1%nat : byte _ (_ + 1) = _), (B 2%nat : byte _ (_ + 2) = _), (B 3%nat : byte _ (_ + 3) = _), (B 4%nat : byte _ (_ + 4) = _), (B 5%nat : byte _ (_ + 5) = _). clear B.
  assert (T : forall op s (k : list Z -> instr), (length s < 128)%nat ->
     slice (pre ++ (op :: len s :: s ++ pad s) ++ post) (Z.of_nat (length pre) + 2) (len s) = s /\
     Z.of_nat (length pre) + 2 + s8 (len s) + Z.land (s8 (len s)) 1 = Z.of_nat (length pre) + Z.of_nat (length (op :: len s :: s ++ pad s)) /\ s8 (len s) = len s).
  { intros op s k L. rewrite s8_small by (unfold len; lia). cbn [app]. rewrite <- app_assoc. rewrite slice_app2 by reflexivity. split; [reflexivity|]. split; [|reflexivity].
    cbn [length]. rewrite app_length, !Nat2Z.inj_succ, Nat2Z.inj_add, pad_len. unfold len. lia. }
  assert (Nm : forall op s (k : list Z -> instr), good_name s ->
     (if s8 (nth 1 (named op s ++ post) 0) <? 65 then Ok (k (slice (pre ++ named op s ++ post) (Z.of_nat (length pre) + 2) (s8 (nth 1 (named op s ++ post) 0))), 
         Z.of_nat (length pre) + 2 + s8 (nth 1 (named op s ++ post) 0) + Z.land (s8 (nth 1 (named op s ++ post) 0)) 1)
      else Ok (k [nth 1 (named op s ++ post) 0], Z.of_nat (length pre) + 2)) = Ok (k s, Z.of_nat (length pre) + Z.of_nat (length (named op s)))).
  { intros op s k (Gb & Gl & Gf). unfold named. destruct s as [|c [|c2 s]]; [destruct Gf| |].
    - cbn [app nth]. rewrite s8_small by lia. replace (c <? 65) with false by lia. cbn [length]. f_equal.
    - set (w := c :: c2 :: s) in *. destruct (T op w k) as (T1 & T2 & T3); [lia|]. cbn [app nth]. rewrite <- app_comm_cons in T1. rewrite <- app_comm_cons in T1.
      rewrite T2, T3, T1. replace (len w <? 65) with true by (unfold len; lia). reflexivity. }
  destruct i; cbn [good short] in G, S; unfold opcode; cbn [enc hd app nth].
  - destruct big; unfold opcode; cbn [enc hd app nth]; bcs; cbv iota.
    + change (2 ^ 24) with 16777216. change (2 ^ 16) with 65536. change (2 ^ 8) with 256. change (2 ^ 32) with 4294967296.
      set (u := v mod 4294967296).
      replace (u / 16777216 * 16777216 + u / 65536 mod 256 * 65536 + u / 256 mod 256 * 256 + u mod 256) with u by lia.
      assert (E : s32 u = v). { unfold s32, u. unfold is_s32, INT_MIN, INT_MAX in G. change (2 ^ 31) with 2147483648 in *. change (2 ^ 32) with 4294967296. lia. }
      rewrite E. reflexivity.
    + replace (v / 4096 <=? 99) with true by lia. replace (v / 4096 * 4096) with v by lia. reflexivity.
  - destruct (T (if is_label then BC_LABEL_STRING else BC_STRING) s (fun x => ILabel x) S) as (T1 & T2 & T3).
    destruct is_label; unfold opcode; cbn [enc hd app nth]; bcs; cbv iota; cbn [app] in T1, T2; rewrite T1, T2; reflexivity.
  - destruct first; reflexivity.
  - reflexivity.
  - reflexivity.
  - reflexivity.
  - reflexivity.
  - destruct (named_len BC_VARIABLE_NAME s G) as (c & r & E & _). replace (hd 0 (named BC_VARIABLE_NAME s)) with BC_VARIABLE_NAME by (rewrite E; reflexivity). bcs. cbv iota. apply (Nm BC_VARIABLE_NAME s IVar G).
  - destruct (named_len BC_ARRAY_NAME s G) as (c & r & E & _). replace (hd 0 (named BC_ARRAY_NAME s)) with BC_ARRAY_NAME by (rewrite E; reflexivity). bcs. cbv iota. apply (Nm BC_ARRAY_NAME s IArray G).
  - destruct (named_len BC_DIM s G) as (c & r & E & _). replace (hd 0 (named BC_DIM s)) with BC_DIM by (rewrite E; reflexivity). bcs. cbv iota. apply (Nm BC_DIM s IDim G).
  - destruct big; cbn [hd app nth]; bcs; cbv iota; [|reflexivity].
    change (2 ^ 24) with 16777216 in G. replace (i mod 256 + i / 256 mod 256 * 256 + i / 65536 mod 256 * 65536) with i by lia. reflexivity.
  - bcs. cbv iota. rewrite s8_small by (unfold is_byte in G; lia). reflexivity.
  - reflexivity.
  - destruct (T BC_LABEL s (fun x => ILabel x) S) as (T1 & T2 & T3). bcs. cbv iota. cbn [app] in T1, T2. rewrite T2, T3, T1. reflexivity.
  - destruct (T BC_DATA s (fun x => ILabel x) S) as (T1 & T2 & T3). bcs. cbv iota. cbn [app] in T1, T2. rewrite T2, T3, T1. reflexivity.
  - reflexivity.
Qed.
