(** Proofs about DATA and READ. *)
From Verif Require Import Base BaseLemmas Strs NumText NumTextSpec NumTextProofs Memory Tokens Bytecode BytecodeSpec BytecodeProofs Data DataSpec.
Ltac Zify.zify_post_hook ::= Z.div_mod_to_equations.
Open Scope Z_scope.

(** ** the compiled form of a DATA statement *)
Lemma loop_blank st a r : blank a -> st <> DQuoted -> st <> DString -> data_loop st (a ++ r) = data_loop st r.
Proof.
  intros B N1 N2. induction B as [|c a -> B IH]; [reflexivity|]. cbn [app data_loop]. destruct st; try contradiction; exact IH.
Qed.
Lemma loop_word w r : Forall (fun c => c <> 0 /\ c <> 32 /\ c <> 44 /\ c <> 13) w -> data_loop DString (w ++ r) = w ++ data_loop DString r.
Proof.
  induction 1 as [|c w (A & B & C & D) F IH]; [reflexivity|]. cbn [app data_loop].
  destruct (Z.eqb_spec c 32); [lia|]. destruct (Z.eqb_spec c 44); [lia|]. destruct (Z.eqb_spec c 13); [lia|]. cbn [orb]. f_equal. exact IH.
Qed.
Lemma loop_quoted q r : Forall (fun c => c <> 0 /\ c <> 34 /\ c <> 13) q -> data_loop DQuoted (q ++ [34] ++ r) = q ++ data_loop DNone r.
Proof.
  induction 1 as [|c q (A & B & C) F IH]; [reflexivity|]. cbn [app data_loop].
  destruct (Z.eqb_spec c 34); [lia|]. destruct (Z.eqb_spec c 13); [lia|]. f_equal. exact IH.
Qed.
Lemma loop_field f i e r : field f i -> e = 44 \/ e = 13 -> data_loop DNone (f ++ e :: r) = i ++ 0 :: data_loop DNone r.
Proof.
  intros F E. assert (End : forall st, st <> DQuoted -> data_loop st (e :: r) = 0 :: data_loop DNone r) by (intros []; intros; try contradiction; destruct E as [-> | ->]; reflexivity).
  destruct F as [a B|a w b B (W0 & W) B2|a q b B Q B2].
  - rewrite loop_blank by (assumption || discriminate). apply End. discriminate.
  - rewrite <- !app_assoc, loop_blank by (assumption || discriminate). destruct w as [|c w]; [contradiction|].
    inversion W as [|? ? (A1 & A2 & A3 & A4) W']; subst. cbn [app data_loop].
    destruct (Z.eqb_spec c 34); [contradiction|]. destruct (Z.eqb_spec c 13); [contradiction|]. destruct (Z.eqb_spec c 44); [contradiction|]. destruct (Z.eqb_spec c 32); [contradiction|]. cbn [orb].
    f_equal. rewrite loop_word by exact W'. f_equal. destruct B2 as [|x b -> B2]; [apply End; discriminate|]. cbn [app data_loop]. change (32 =? 32) with true. cbv iota. rewrite loop_blank by (assumption || discriminate). apply End. discriminate.
  - rewrite <- !app_assoc, loop_blank by (assumption || discriminate). cbn [app data_loop]. change (34 =? 34) with true. cbv iota.
    change (q ++ 34 :: b ++ e :: r) with (q ++ [34] ++ b ++ e :: r). rewrite loop_quoted by exact Q. rewrite loop_blank by (assumption || discriminate). f_equal. apply End. discriminate.
Qed.
Lemma loop_text t is : data_text t is -> data_loop DNone (t ++ [13]) = pack is.
Proof.
  induction 1 as [f i F|f i t is F D IH].
  - rewrite (loop_field f i 13 []) by auto. unfold pack. cbn. rewrite app_nil_r. reflexivity.
  - rewrite <- !app_assoc. cbn [app]. rewrite (loop_field f i 44 (t ++ [13])) by auto. rewrite IH. unfold pack. cbn [map concat]. rewrite <- app_assoc. reflexivity.
Qed.
Lemma field_nonzero f i : field f i -> Forall (fun c => c <> 0) i.
Proof.
  intros [a B|a w b B (W0 & W) B2|a q b B Q B2]; [constructor| |]; eapply Forall_impl; [|eassumption|idtac|eassumption]; cbn; intros; tauto.
Qed.
Lemma text_items t is : data_text t is -> is <> [] /\ Forall (Forall (fun c => c <> 0)) is.
Proof.
  induction 1 as [f i F|f i t is F D [_ IH]]; (split; [discriminate|]); constructor; try assumption; try constructor; eapply field_nonzero; eassumption.
Qed.

(** ** unpacking *)
Lemma unpack_item i acc r : Forall (fun c => c <> 0) i -> unpack acc (i ++ 0 :: r) = (rev acc ++ i) :: unpack [] r.
Proof.
  intros F. revert acc. induction F as [|c i N F IH]; intro acc; cbn [app unpack].
  - change (0 =? 0) with true. cbv iota. rewrite app_nil_r. reflexivity.
  - destruct (Z.eqb_spec c 0); [contradiction|]. rewrite IH. cbn [rev]. rewrite <- app_assoc. reflexivity.
Qed.
Lemma unpack_pack is : Forall (Forall (fun c => c <> 0)) is -> unpack [] (pack is) = is.
Proof.
  induction 1 as [|i is F Fs IH]; [reflexivity|]. unfold pack in *. cbn [map concat]. rewrite <- app_assoc. cbn [app]. rewrite unpack_item by exact F. cbn [rev app]. f_equal. exact IH.
Qed.
Lemma items_app a b : items (a ++ b) = items a ++ items b.
Proof. induction a as [|i a IH]; [reflexivity|]. cbn [app items]. destruct i; try exact IH. rewrite IH, app_assoc. reflexivity. Qed.
Lemma items_data s is c : Forall (Forall (fun c => c <> 0)) is -> s = pack is -> items (IData s :: c) = is ++ items c.
Proof. intros F ->. cbn [items]. rewrite unpack_pack by exact F. reflexivity. Qed.

(** ** reading one item *)
Lemma read_chars_item s r : ~ In 13 s -> Forall (fun c => c <> 0) s -> read_chars (s ++ 0 :: r) = Some s.
Proof.
  intros N F. induction F as [|c s C F IH]; [reflexivity|]. cbn [app read_chars]. unfold BC_DATA_DELIM, BC_DATA_ERROR in *. destruct (Z.eqb_spec c 0); [contradiction|].
  destruct (Z.eqb_spec c 13) as [W|_]; [exfalso; apply N; left; exact W|]. rewrite IH; [reflexivity|]. intro W. apply N. right. exact W.
Qed.
Lemma digit_char_dec d : 0 <= d < 10 -> digit_char d = 48 + d.
Proof. intro. unfold digit_char. destruct (Z.ltb_spec d 10); lia. Qed.
Lemma decimal_chars neg ds fs : digits 10 ds -> digits 10 fs -> Forall (fun c => 48 <= c <= 57 \/ c = 45 \/ c = 46) (decimal_text neg ds fs).
Proof.
  intros A B. assert (D : forall l, digits 10 l -> Forall (fun c => 48 <= c <= 57 \/ c = 45 \/ c = 46) (map digit_char l)).
  { intros l F. induction F as [|d l H F IH]; cbn [map]; [constructor|]. constructor; [rewrite digit_char_dec by exact H; lia|exact IH]. }
  unfold decimal_text. apply Forall_app. split; [destruct neg; repeat constructor; lia|]. apply Forall_app. split; [apply D, A|]. destruct fs; [constructor|]. constructor; [lia|apply D, B].
Qed.
Lemma read_digits_item n t r : Forall (fun c => 48 <= c <= 57 \/ c = 45 \/ c = 46) t -> (length t <= n)%nat -> read_digits n (t ++ 0 :: r) = Ok t.
Proof.
  intros F. revert n. induction F as [|c t C F IH]; intros n L; [destruct n; reflexivity|]. destruct n as [|n]; [cbn in L; lia|]. cbn [app read_digits length] in *.
  replace (is_number c || (c =? 45) || (c =? 46)) with true by (symmetry; unfold is_number; lia). rewrite IH by lia. reflexivity.
Qed.
Lemma u8_decimal neg ds fs : digits 10 ds -> digits 10 fs -> numeral 10 ds < 524288 -> (length fs <= 6)%nat ->
  exists v, u8_to_num (decimal_text neg ds fs) = Ok v /\ s32 v = (let v := numeral 10 ds * 4096 + 4096 * numeral 10 fs / 10 ^ Z.of_nat (length fs) in if neg then - v else v).
Proof.
  intros Hd Hf Hn Hl.
  pose proof (num_of_ge 10 ds 0 ltac:(lia) Hd ltac:(lia)) as Hn0.
  pose proof (num_of_bound 10 fs ltac:(lia) Hf) as Hfb. fold (numeral 10 ds) in Hn0. fold (numeral 10 fs) in Hfb. pose proof (pow10_6 _ Hl) as Hp.
  assert (B : 0 <= 4096 * numeral 10 fs / 10 ^ Z.of_nat (length fs) < 4096).
  { split; [apply Z.div_pos; lia|]. apply Z.div_lt_upper_bound; lia. }
  destruct fs as [|f fs].
  - pose proof (read_integer neg ds [] Hd Hn I) as E. unfold decimal_text. rewrite app_nil_r in *. change (sgn_text neg) with (if neg then [45] else []) in E. rewrite E.
    eexists. split; [reflexivity|]. change (4096 * numeral 10 [] / 10 ^ Z.of_nat (length (@nil Z))) with 0. cbv zeta.
    rewrite s32_id; [destruct neg; lia|]. unfold is_s32, INT_MIN, INT_MAX. change (2^31) with 2147483648. destruct neg; lia.
  - pose proof (read_decimal neg ds (f :: fs) [] Hd Hf Hn Hl I) as E. rewrite app_nil_r in E. change (sgn_text neg) with (if neg then [45] else []) in E. unfold decimal_text. rewrite E.
    eexists. split; [reflexivity|]. cbv zeta. apply s32_id. unfold is_s32, INT_MIN, INT_MAX. change (2^31) with 2147483648. destruct neg; lia.
Qed.
Lemma read_item free k i v r : item_value k i v -> Forall (fun c => c <> 0) i -> (k = KStr -> 0 < free) -> read_one free k (i ++ 0 :: r) = Ok (zlen i, v).
Proof.
  intros V F P. destruct V as [s N|neg ds fs Hd Hf Hn Hl L].
  - cbn [read_one]. unfold read_string. rewrite read_chars_item by assumption. specialize (P eq_refl). destruct (Z.leb_spec free 0); [lia|reflexivity].
  - cbn [read_one]. unfold read_number. pose proof (decimal_chars neg ds fs Hd Hf) as D. set (t := decimal_text neg ds fs) in *.
    assert (S0 : spaces (t ++ 0 :: r) = 0%nat) by (destruct D as [|c t C D]; [reflexivity|]; cbn [app spaces]; destruct (Z.eqb_spec c 32); [lia|reflexivity]).
    rewrite S0. replace (Nat.leb (length (t ++ 0 :: r)) 0) with false by (symmetry; apply Nat.leb_gt; rewrite app_length; cbn; lia). cbn [skipn Nat.sub repeat app Nat.add].
    rewrite read_digits_item by assumption. cbn [bind]. destruct (u8_decimal neg ds fs Hd Hf Hn Hl) as (v & E & Ev). unfold t. rewrite E. cbn [bind]. rewrite Ev. reflexivity.
Qed.

(** ** blocks in the code *)
Lemma data_code a s c : encode (a ++ IData s :: c) = encode a ++ [BC_DATA; len s] ++ s ++ pad s ++ encode c.
Proof. rewrite encode_app, encode_cons. cbn [enc]. rewrite <- !app_assoc. reflexivity. Qed.
Lemma block_at pre l : forall n, (n <= length l)%nat -> block (pre ++ l) (zlen pre) (Z.of_nat n) = firstn n l.
Proof.
  intros n L. unfold block. rewrite Nat2Z.id. apply (nth_ext _ _ 0 0); [rewrite map_length, seq_length, firstn_length; lia|].
  intros k K. rewrite map_length, seq_length in K. rewrite (nth_indep _ 0 (byte (pre ++ l) (zlen pre + Z.of_nat 0))) by (rewrite map_length, seq_length; lia). rewrite (map_nth (fun k => byte (pre ++ l) (zlen pre + Z.of_nat k)) (seq 0 n) 0%nat). rewrite seq_nth by lia. cbn [Nat.add].
  unfold zlen. rewrite byte_app. rewrite <- (firstn_skipn n l) at 1. rewrite app_nth1; [reflexivity|]. rewrite firstn_length. lia.
Qed.
Lemma data_size a s c : byte (encode (a ++ IData s :: c)) (zlen (encode a) + 1) = len s.
Proof. rewrite data_code. unfold zlen. apply (byte_app (encode a) ([BC_DATA; len s] ++ s ++ pad s ++ encode c) 1). Qed.
Lemma data_here a s c : byte (encode (a ++ IData s :: c)) (zlen (encode a)) = BC_DATA.
Proof. rewrite data_code. unfold zlen. rewrite <- (Z.add_0_r (Z.of_nat _)). apply (byte_app (encode a) ([BC_DATA; len s] ++ s ++ pad s ++ encode c) 0). Qed.
Lemma data_block a p q c : block (encode (a ++ IData (p ++ q) :: c)) (zlen (encode a) + 2 + zlen p) (len (p ++ q) - zlen p) = q.
Proof.
  rewrite data_code. replace (encode a ++ [BC_DATA; len (p ++ q)] ++ (p ++ q) ++ pad (p ++ q) ++ encode c) with ((encode a ++ [BC_DATA; len (p ++ q)] ++ p) ++ q ++ pad (p ++ q) ++ encode c) by (rewrite <- !app_assoc; reflexivity).
  replace (zlen (encode a) + 2 + zlen p) with (zlen (encode a ++ [BC_DATA; len (p ++ q)] ++ p)) by (unfold zlen; rewrite !app_length; cbn [length]; lia).
  replace (len (p ++ q) - zlen p) with (Z.of_nat (length q)) by (unfold len, zlen; rewrite app_length; lia).
  rewrite block_at by (rewrite app_length; lia). rewrite firstn_app, Nat.sub_diag, firstn_all. cbn [firstn]. apply app_nil_r.
Qed.
Lemma data_byte a p x q c : byte (encode (a ++ IData (p ++ x :: q) :: c)) (zlen (encode a) + 2 + zlen p) = x.
Proof.
  rewrite data_code. replace (encode a ++ [BC_DATA; len (p ++ x :: q)] ++ (p ++ x :: q) ++ pad (p ++ x :: q) ++ encode c) with ((encode a ++ [BC_DATA; len (p ++ x :: q)] ++ p) ++ (x :: q) ++ pad (p ++ x :: q) ++ encode c) by (rewrite <- !app_assoc; reflexivity).
  replace (zlen (encode a) + 2 + zlen p) with (Z.of_nat (length (encode a ++ [BC_DATA; len (p ++ x :: q)] ++ p)) + Z.of_nat 0) by (unfold zlen; rewrite !app_length; cbn [length]; lia).
  rewrite byte_app. reflexivity.
Qed.
Lemma opcode_data i : good i -> opcode i = BC_DATA -> exists s, i = IData s.
Proof.
  intros G E. destruct i; try (eexists; reflexivity); exfalso.
  all: try (unfold opcode in E; cbn in E; discriminate E).
  all: try (destruct big; discriminate E). all: try (destruct is_label; discriminate E). all: try (destruct first; discriminate E).
  all: unfold opcode in E; cbn [enc] in E; unfold named in E; destruct s as [|? [|? ?]]; discriminate E.
Qed.
Lemma seek_data l : Forall good l -> forall p at_, match snd (seek p at_ l BC_DATA) with
  | None => items l = []
  | Some j => exists x s c, l = x ++ IData s :: c /\ j = at_ + zlen (encode x) /\ items l = items (IData s :: c)
  end.
Proof.
  induction 1 as [|i l G F IH]; intros p at_; cbn [seek]; [reflexivity|]. destruct (Z.eqb_spec (opcode i) BC_DATA) as [E|E].
  - cbn [snd]. destruct (opcode_data i G E) as (s & ->). exists [], s, l. split; [reflexivity|]. split; [unfold zlen; cbn; lia|reflexivity].
  - specialize (IH (Some at_) (at_ + Z.of_nat (length (enc i)))). assert (I : items (i :: l) = items l) by (destruct i; try reflexivity; exfalso; apply E; reflexivity).
    rewrite I. destruct (snd (seek _ _ l BC_DATA)) as [j|]; [|exact IH].
    destruct IH as (x & s & c & -> & -> & Ic). exists (i :: x), s, c. split; [reflexivity|]. split; [|exact Ic]. rewrite encode_cons. unfold zlen. rewrite app_length. lia.
Qed.
Lemma scan_data a b : Forall good (a ++ b) -> match bc_scan (encode (a ++ b)) (zlen (encode a)) BC_DATA with
  | None => items b = []
  | Some j => exists x s c, b = x ++ IData s :: c /\ j = zlen (encode (a ++ x)) /\ items b = items (IData s :: c)
  end.
Proof.
  intros F. apply Forall_app in F. destruct F as [_ F]. unfold bc_scan, zlen. rewrite encode_app, bc_scan_seek by exact F.
  pose proof (seek_data b F None (Z.of_nat (length (encode a)))) as Q. destruct (snd (seek None _ b BC_DATA)) as [j|]; [|exact Q].
  destruct Q as (x & s & c & E & -> & I). exists x, s, c. split; [exact E|]. split; [|exact I]. rewrite encode_app, app_length. unfold zlen. lia.
Qed.

(** ** where the reader stands *)
Definition no_zero (is : list (list Z)) : Prop := Forall (Forall (fun c => c <> 0)) is.
Inductive standing (prog : list instr) : reader -> list (list Z) -> Prop :=
| st_end o f : standing prog (mkReader None o f) []
| st_block a c pre is f : prog = a ++ IData (pack (pre ++ is)) :: c -> is <> [] -> no_zero (pre ++ is) ->
    standing prog (mkReader (Some (zlen (encode a))) (zlen (pack pre)) f) (is ++ items c)
| st_scan a b o f : prog = a ++ b -> match b with IData _ :: _ => False | _ => True end -> standing prog (mkReader (Some (zlen (encode a))) o f) (items b).
Lemma pack_app a b : pack (a ++ b) = pack a ++ pack b.
Proof. unfold pack. rewrite map_app, concat_app. reflexivity. Qed.
Lemma block_standing prog a s c f : Forall data_ok prog -> prog = a ++ IData s :: c -> standing prog (mkReader (Some (zlen (encode a))) 0 f) (items (IData s :: c)) /\ items (IData s :: c) <> [].
Proof.
  intros D E. assert (O : data_ok (IData s)) by (rewrite E in D; apply Forall_app in D; destruct D as [_ D]; inversion D; assumption).
  destruct O as (is & N & F & S). rewrite (items_data s is c F S). split.
  - change 0 with (zlen (pack [])). apply (st_block prog a c [] is f); [rewrite E, S; reflexivity|exact N|exact F].
  - destruct is; [contradiction|discriminate].
Qed.
Lemma start_standing prog f : Forall data_ok prog -> standing prog (reader_start f) (items prog).
Proof.
  intros D. destruct prog as [|i l]; [apply (st_scan [] [] [] 0 f); [reflexivity|exact I]|].
  destruct i as [| | | | | | | | | | | | | |s|]; try (eapply (st_scan _ [] _ 0 f); [reflexivity|exact I]).
  exact (proj1 (block_standing _ [] s l f D eq_refl)).
Qed.

Fixpoint run_ops (prog : list instr) (s : reader) (ops : list op) : list value * reader * fin :=
  match ops with
  | [] => ([], s, Done)
  | Read ks :: r => match cmd_read (encode prog) s ks with
                    | (vs, s, Done) => let '(ws, s, f) := run_ops prog s r in (vs ++ ws, s, f)
                    | x => x
                    end
  | Restore k :: r => match cmd_restore (encode prog) s (Ok (start prog k)) with
                      | (s, Done) => run_ops prog s r
                      | (s, f) => ([], s, f)
                      end
  end.

Definition blockat (prog : list instr) (i ofs : Z) (rest : list (list Z)) : Prop :=
  exists a c pre is, prog = a ++ IData (pack (pre ++ is)) :: c /\ is <> [] /\ no_zero (pre ++ is) /\ i = zlen (encode a) /\ ofs = zlen (pack pre) /\ rest = is ++ items c.
Lemma blockat_standing prog i ofs rest f : blockat prog i ofs rest -> standing prog (mkReader (Some i) ofs f) rest.
Proof. intros (a & c & pre & is & E & N & Z0 & -> & -> & ->). eapply st_block; eassumption. Qed.
Lemma blockat_start prog a s c : Forall data_ok prog -> prog = a ++ IData s :: c -> blockat prog (zlen (encode a)) 0 (items (IData s :: c)).
Proof.
  intros D E. assert (O : data_ok (IData s)) by (rewrite E in D; apply Forall_app in D; destruct D as [_ D]; inversion D; assumption).
  destruct O as (is & N & F & S). rewrite (items_data s is c F S). exists a, c, [], is. subst s. repeat split; auto.
Qed.
(** one round of the loop on an item *)
Lemma one_item prog i ofs free it rest k ks acc : Forall good prog -> Forall data_ok prog -> blockat prog i ofs (it :: rest) ->
  Forall (fun c => c <> 0) it /\
  (forall v, read_one free k (it ++ 0 :: []) = Ok (zlen it, v) -> (forall r, read_one free k (it ++ 0 :: r) = Ok (zlen it, v)) ->
    let free' := match v with RStr _ => free - 1 | RNum _ => free end in
    (rest = [] /\ read_vars (encode prog) i ofs free (k :: ks) acc = (rev (v :: acc), mkReader None 0 free', match ks with [] => Done | _ => Crash end)) \/
    (exists j o, blockat prog j o rest /\ read_vars (encode prog) i ofs free (k :: ks) acc = read_vars (encode prog) j o free' ks (v :: acc))) /\
  (forall e, (forall r, read_one free k (it ++ 0 :: r) = Err e) -> read_vars (encode prog) i ofs free (k :: ks) acc = (rev acc, mkReader (Some i) ofs free, Raised e)) /\
  ((forall r, read_one free k (it ++ 0 :: r) = UB) -> read_vars (encode prog) i ofs free (k :: ks) acc = (rev acc, mkReader (Some i) ofs free, Crash)).
Proof.
  intros G D (a & c & pre & is & E & N & Z0 & -> & -> & R). destruct is as [|it' is]; [contradiction|]. cbn [app] in R. injection R as <- ->.
  assert (Zi : Forall (fun c => c <> 0) it) by (apply Forall_app in Z0; destruct Z0 as [_ Z0]; inversion Z0; assumption).
  assert (P : pack (pre ++ it :: is) = pack pre ++ it ++ 0 :: pack is) by (rewrite pack_app; f_equal; unfold pack; cbn [map concat]; rewrite <- app_assoc; reflexivity).
  assert (Bl : block (encode prog) (zlen (encode a) + 2 + zlen (pack pre)) (byte (encode prog) (zlen (encode a) + 1) - zlen (pack pre)) = it ++ 0 :: pack is).
  { rewrite E, data_size, P. apply data_block. }
  split; [exact Zi|]. split; [|split].
  - intros v _ Q. cbv zeta. specialize (Q (pack is)). cbn [read_vars]. rewrite Bl, Q. cbv zeta.
    assert (By : byte (encode prog) (zlen (encode a) + 2 + (zlen (pack pre) + zlen it)) = 0).
    { rewrite E, P. replace (pack pre ++ it ++ 0 :: pack is) with ((pack pre ++ it) ++ 0 :: pack is) by (rewrite <- app_assoc; reflexivity).
      replace (zlen (pack pre) + zlen it) with (zlen (pack pre ++ it)) by (unfold zlen; rewrite app_length; lia). apply data_byte. }
    rewrite By. unfold BC_DATA_DELIM. change (0 =? 0) with true. cbv iota.
    replace (zlen (pack pre) + zlen it + 1) with (zlen (pack (pre ++ [it]))) by (rewrite pack_app; unfold pack at 2; cbn [map concat]; unfold zlen; rewrite !app_length; cbn [length]; lia).
    assert (Sz : byte (encode prog) (zlen (encode a) + 1) = zlen (pack (pre ++ [it])) + zlen (pack is)).
    { rewrite E, data_size. replace (pre ++ it :: is) with ((pre ++ [it]) ++ is) by (rewrite <- app_assoc; reflexivity). rewrite pack_app. unfold len, zlen. rewrite app_length. lia. }
    rewrite Sz. destruct is as [|it2 is].
    + destruct (Z.geb_spec (zlen (pack (pre ++ [it]))) (zlen (pack (pre ++ [it])) + zlen (pack []))) as [_|W]; [|unfold zlen in W; cbn in W; lia].
      unfold find_data. set (s := pack (pre ++ [it])) in *.
      replace (zlen (encode a) + 2 + zlen s + Z.land (zlen s) 1) with (zlen (encode (a ++ [IData s]))).
      2:{ rewrite encode_app. unfold encode at 2. cbn [map concat enc]. rewrite app_nil_r. unfold zlen. rewrite !app_length. pose proof (pad_len s) as PL. unfold len in PL. cbn [length]. lia. }
      assert (Ep : prog = (a ++ [IData s]) ++ c) by (rewrite <- app_assoc; exact E).
      pose proof (scan_data (a ++ [IData s]) c) as SC. rewrite <- Ep in SC. specialize (SC G). cbn [app].
      destruct (bc_scan (encode prog) (zlen (encode (a ++ [IData s]))) BC_DATA) as [j|].
      * destruct SC as (x & s2 & c2 & Ec & -> & Ic). right. eexists. exists 0. split; [|reflexivity].
        rewrite Ic. apply blockat_start; [exact D|]. rewrite Ep, Ec, <- !app_assoc. reflexivity.
      * left. split; [exact SC|reflexivity].
    + destruct (Z.geb_spec (zlen (pack (pre ++ [it]))) (zlen (pack (pre ++ [it])) + zlen (pack (it2 :: is)))) as [W|_].
      { exfalso. assert (0 < zlen (pack (it2 :: is))) by (unfold pack; cbn [map concat]; unfold zlen; rewrite !app_length; cbn [length]; lia). lia. }
      right. exists (zlen (encode a)), (zlen (pack (pre ++ [it]))). split; [|reflexivity]. exists a, c, (pre ++ [it]), (it2 :: is).
      rewrite <- !app_assoc. cbn [app]. split; [exact E|]. split; [discriminate|]. split; [exact Z0|]. repeat split; reflexivity.
  - intros e Q. cbn [read_vars]. rewrite Bl, Q. reflexivity.
  - intros Q. cbn [read_vars]. rewrite Bl, Q. reflexivity.
Qed.
Lemma strings_cons k ks : strings (k :: ks) = (match k with KStr => 1 | _ => 0 end) + strings ks.
Proof. unfold strings. cbn [filter]. destruct k; cbn [length]; lia. Qed.
Lemma strings_pos ks : 0 <= strings ks. Proof. unfold strings. lia. Qed.
Lemma read_vars_ok prog : Forall good prog -> Forall data_ok prog -> forall ks is vs rest i ofs free acc,
  ks <> [] -> length is = length ks -> Forall2 (fun ki v => item_value (fst ki) (snd ki) v) (combine ks is) vs -> strings ks <= free -> blockat prog i ofs (is ++ rest) ->
  exists s, read_vars (encode prog) i ofs free ks acc = (rev acc ++ vs, s, Done) /\ standing prog s rest /\ d_free s = free - strings ks.
Proof.
  intros G D. induction ks as [|k ks IH]; intros is vs rest i ofs free acc N L V S B; [contradiction|].
  destruct is as [|it is]; [discriminate|]. cbn [combine] in V. inversion V as [|? v ? vs' Hv V' Eq1 Eq2]; subst. cbn [fst snd] in Hv. cbn [app] in B.
  rewrite strings_cons in S. pose proof (strings_pos ks) as SP.
  destruct (one_item prog i ofs free it (is ++ rest) k ks acc G D B) as (Zi & Q & _).
  assert (RI : forall r, read_one free k (it ++ 0 :: r) = Ok (zlen it, v)) by (intro r; apply read_item; [exact Hv|exact Zi|intros ->; lia]).
  specialize (Q v (RI []) RI). cbv zeta in Q.
  assert (Fr : match v with RStr _ => free - 1 | RNum _ => free end = free - match k with KStr => 1 | _ => 0 end) by (destruct Hv; lia).
  rewrite Fr in Q. rewrite strings_cons. injection L as L.
  destruct Q as [[R Q]|(j & o & B' & Q)]; rewrite Q.
  - destruct is; [|discriminate]. cbn [app] in R. subst rest. destruct ks; [|discriminate]. inversion V'; subst.
    eexists. split; [cbn [rev]; reflexivity|]. split; [constructor|]. cbn [d_free]. unfold strings. cbn. lia.
  - destruct ks as [|k2 ks].
    + destruct is; [|discriminate]. inversion V'; subst. cbn [read_vars]. eexists. split; [cbn [rev]; reflexivity|].
      split; [apply blockat_standing; exact B'|]. cbn [d_free]. unfold strings. cbn. lia.
    + destruct (IH is vs' rest j o (free - match k with KStr => 1 | _ => 0 end) (v :: acc) ltac:(discriminate) L V' ltac:(lia) B') as (s & E & St & Fs).
      exists s. split; [rewrite E; cbn [rev]; rewrite <- app_assoc; reflexivity|]. split; [exact St|]. lia.
Qed.
(** cmd_read from any standing *)
Lemma read_from prog s rest ks : Forall good prog -> Forall data_ok prog -> standing prog s rest ->
  (rest = [] /\ exists s', cmd_read (encode prog) s ks = ([], s', Raised ERR_OUT_OF_DATA) /\ standing prog s' [] /\ d_free s' = d_free s) \/
  (exists i ofs, blockat prog i ofs rest /\ cmd_read (encode prog) s ks = read_vars (encode prog) i ofs (d_free s) ks []).
Proof.
  intros G D S. destruct S as [o f|a c pre is f E N Z0|a b o f E B].
  - left. split; [reflexivity|]. eexists. split; [reflexivity|]. split; [constructor|reflexivity].
  - right. do 2 eexists. split; [exists a, c, pre, is; repeat split; eauto|]. unfold cmd_read. cbn [d_index d_ofs d_free].
    rewrite E, data_here. change (negb (BC_DATA =? BC_DATA)) with false. cbv iota. rewrite <- E. reflexivity.
  - unfold cmd_read. cbn [d_index d_ofs d_free].
    assert (By : (byte (encode prog) (zlen (encode a)) =? BC_DATA) = false).
    { rewrite E, encode_app. unfold zlen. destruct b as [|i b].
      - unfold encode at 2. cbn [map concat]. rewrite app_nil_r. unfold byte. rewrite Nat2Z.id, nth_overflow by lia. reflexivity.
      - rewrite E in G. apply Forall_app in G. destruct G as [_ G]. inversion G as [|? ? Gi _]; subst. rewrite encode_cons, scan_at by exact Gi.
        apply Z.eqb_neq. intro W. destruct (opcode_data i Gi W) as (s & ->). exact B. }
    rewrite By. cbn [negb]. pose proof (scan_data a b) as SC. rewrite <- E in SC. specialize (SC G).
    destruct (bc_scan (encode prog) (zlen (encode a)) BC_DATA) as [j|].
    + destruct SC as (x & s & c & Eb & -> & Ic). right. do 2 eexists. split; [|reflexivity]. rewrite Ic. apply blockat_start; [exact D|]. rewrite E, Eb, <- app_assoc. reflexivity.
    + left. split; [exact SC|]. eexists. split; [reflexivity|]. split; [constructor|reflexivity].
Qed.
Lemma restore_from prog s k : Forall good prog -> Forall data_ok prog -> (k <= length prog)%nat ->
  exists s', cmd_restore (encode prog) s (Ok (start prog k)) = (s', Done) /\ standing prog s' (items (skipn k prog)) /\ d_free s' = d_free s.
Proof.
  intros G D K. unfold cmd_restore. eexists. split; [reflexivity|]. split; [|reflexivity].
  pose proof (scan_data (firstn k prog) (skipn k prog)) as SC. rewrite firstn_skipn in SC. specialize (SC G). unfold start. change (Z.of_nat (length (encode (firstn k prog)))) with (zlen (encode (firstn k prog))).
  destruct (bc_scan _ _ BC_DATA) as [j|].
  - destruct SC as (x & s2 & c & Eb & -> & ->). apply blockat_standing, blockat_start; [exact D|]. rewrite <- app_assoc, <- Eb. symmetry. apply firstn_skipn.
  - rewrite SC. constructor.
Qed.
