From Verif Require Import Base BaseLemmas Tokens NumText NumConstProofs Bytecode BytecodeSpec.
Ltac Zify.zify_post_hook ::= Z.div_mod_to_equations.

Ltac bcs := cbn [BC_ARGCOUNT BC_ARRAY_NAME BC_BEGIN_LOOP BC_COMMAND_FIRST BC_COMMAND BC_DIM BC_DATA BC_ERROR BC_FUNCTION BC_VARIABLE_ID_SMALL BC_VARIABLE_ID
  BC_LABEL BC_LABEL_STRING BC_OPERATOR BC_SMALL_NUMBER BC_NUMBER BC_STRING BC_VARIABLE_NAME BC_WIDE_STRING BC_SYSVAR BC_SYSVAR_VALIDATE Z.eqb Pos.eqb orb].
Lemma byte_app pre l (k : nat) : byte (pre ++ l) (Z.of_nat (length pre) + Z.of_nat k) = nth k l 0.
Proof. unfold byte. replace (Z.to_nat (Z.of_nat (length pre) + Z.of_nat k)) with (length pre + k)%nat by lia. rewrite app_nth2_plus. reflexivity. Qed.
Lemma land1 z : Z.land z 1 = z mod 2.
Proof. change 1 with (Z.ones 1). rewrite Z.land_ones by lia. reflexivity. Qed.
Lemma pad_len s : Z.of_nat (length (pad s)) = Z.land (len s) 1.
Proof. rewrite land1. unfold pad, len. destruct (Nat.odd (length s)) eqn:O; cbn [length].
  - apply Nat.odd_spec in O. destruct O as [m ->]. lia.
  - assert (Nat.even (length s) = true) by (rewrite <- Nat.negb_odd, O; reflexivity). apply Nat.even_spec in H. destruct H as [m ->]. lia.
Qed.
Lemma even_pad s : Nat.even (length s + length (pad s)) = true.
Proof. unfold pad. destruct (Nat.odd (length s)) eqn:O; cbn [length].
  - rewrite Nat.even_add, <- Nat.negb_odd, O. reflexivity.
  - rewrite Nat.add_0_r, <- Nat.negb_odd, O. reflexivity.
Qed.
Lemma named_len op s : good_name s -> exists c r, named op s = op :: c :: r /\
  (if c <? 65 then Z.of_nat (length r) = c + Z.land c 1 else r = []) /\ Nat.even (length r) = true /\ 0 <= c < 128.
Proof.
  intros (B & L & F). unfold named. destruct s as [|c [|c2 s]]; [destruct F| |].
  - exists c, []. split; [reflexivity|]. replace (c <? 65) with false by lia. repeat split; lia.
  - set (w := c :: c2 :: s) in *. exists (len w), (w ++ pad w). split; [reflexivity|]. unfold len.
    replace (Z.of_nat (length w) <? 65) with true by lia. rewrite app_length, Nat2Z.inj_add, pad_len. split; [reflexivity|]. split; [apply even_pad|lia].
Qed.
Lemma enc_even i : good i -> Nat.even (length (enc i)) = true.
Proof.
  intros G. destruct i; cbn [enc]; try reflexivity; try (rewrite !app_length; cbn [length Nat.add Nat.even]; apply even_pad).
  - destruct big; reflexivity.
  - destruct (named_len BC_VARIABLE_NAME s G) as (c & r & -> & _ & E & _). exact E.
  - destruct (named_len BC_ARRAY_NAME s G) as (c & r & -> & _ & E & _). exact E.
  - destruct (named_len BC_DIM s G) as (c & r & -> & _ & E & _). exact E.
  - destruct big; reflexivity.
Qed.
Lemma enc_two i : good i -> exists c r, enc i = opcode i :: c :: r.
Proof.
  intros G. unfold opcode. destruct i; cbn [enc app hd]; eauto.
  - destruct big; cbn [hd]; eauto.
  - destruct (named_len BC_VARIABLE_NAME s G) as (c & r & -> & _). cbn [hd]. eauto.
  - destruct (named_len BC_ARRAY_NAME s G) as (c & r & -> & _). cbn [hd]. eauto.
  - destruct (named_len BC_DIM s G) as (c & r & -> & _). cbn [hd]. eauto.
  - destruct big; cbn [hd]; eauto.
Qed.
Lemma scan_at pre i post : good i -> byte (pre ++ enc i ++ post) (Z.of_nat (length pre)) = opcode i.
Proof. intros G. destruct (enc_two i G) as (c & r & E). rewrite <- (Z.add_0_r (Z.of_nat (length pre))). change 0 with (Z.of_nat 0). rewrite byte_app, E. reflexivity. Qed.
Lemma scan_next_enc pre i post : good i -> scan_next (pre ++ enc i ++ post) (Z.of_nat (length pre)) = Z.of_nat (length (pre ++ enc i)).
Proof.
  intros G. unfold scan_next. rewrite scan_at by exact G. rewrite app_length, Nat2Z.inj_add.
  replace (byte (pre ++ enc i ++ post) (Z.of_nat (length pre) + 1)) with (nth 1 (enc i ++ post) 0) by (symmetry; exact (byte_app pre (enc i ++ post) 1)).
  assert (T : forall op s, Forall is_byte s /\ (length s < 256)%nat -> nth 1 (([op; len s] ++ s ++ pad s) ++ post) 0 = len s /\
      Z.of_nat (length ([op; len s] ++ s ++ pad s)) = 2 + (len s + Z.land (len s) 1)).
  { intros op s _. split; [reflexivity|]. rewrite !app_length, !Nat2Z.inj_add, pad_len. unfold len. cbn [length]. lia. }
  destruct i; cbn [opcode enc hd good] in *; cbv zeta.
  - destruct big; reflexivity.
  - destruct (T (if is_label then BC_LABEL_STRING else BC_STRING) s G) as [-> ->]. destruct is_label; unfold opcode; cbn [enc hd app]; bcs; lia.
  - destruct first; reflexivity.
  - reflexivity.
  - reflexivity.
  - reflexivity.
  - reflexivity.
  - destruct (named_len BC_VARIABLE_NAME s G) as (c & r & E & L & _). unfold opcode. cbn [enc]. rewrite E. cbn [hd app nth length]. bcs.
    destruct (c <? 65); [lia|subst r; cbn; lia].
  - destruct (named_len BC_ARRAY_NAME s G) as (c & r & E & L & _). unfold opcode. cbn [enc]. rewrite E. cbn [hd app nth length]. bcs.
    destruct (c <? 65); [lia|subst r; cbn; lia].
  - destruct (named_len BC_DIM s G) as (c & r & E & L & _). unfold opcode. cbn [enc]. rewrite E. cbn [hd app nth length]. bcs.
    destruct (c <? 65); [lia|subst r; cbn; lia].
  - destruct big; reflexivity.
  - reflexivity.
  - reflexivity.
  - destruct (T BC_LABEL s G) as [-> ->]. unfold opcode; cbn [enc hd app]; bcs; lia.
  - destruct (T BC_DATA s G) as [-> ->]. unfold opcode; cbn [enc hd app]; bcs; lia.
  - reflexivity.
Qed.

Lemma encode_app a b : encode (a ++ b) = encode a ++ encode b.
Proof. unfold encode. rewrite map_app, concat_app. reflexivity. Qed.
Lemma encode_cons i l : encode (i :: l) = enc i ++ encode l.
Proof. reflexivity. Qed.
Lemma enc_len2 i : good i -> (2 <= length (enc i))%nat.
Proof. intros G. destruct (enc_two i G) as (c & r & ->). cbn. lia. Qed.
Lemma encode_even l : Forall good l -> Nat.even (length (encode l)) = true.
Proof. induction 1 as [|i l G F IH]; [reflexivity|]. rewrite encode_cons, app_length, Nat.even_add, IH, enc_even by exact G. reflexivity. Qed.

(** what a scan returns, on the list of instructions *)
Fixpoint seek (p : option Z) (at_ : Z) (l : list instr) (find : Z) : option Z * option Z :=
  match l with
  | [] => (p, None)
  | i :: r => if opcode i =? find then (p, Some at_) else seek (Some at_) (at_ + Z.of_nat (length (enc i))) r find
  end.
Lemma scan_seek l : forall pre find p fuel, Forall good l -> (length (encode l) < fuel)%nat ->
  scan_loop fuel (pre ++ encode l) p (Z.of_nat (length pre)) find = seek p (Z.of_nat (length pre)) l find.
Proof.
  induction l as [|i l IH]; intros pre find p fuel F L.
  - cbn [seek]. unfold encode. cbn [map concat]. rewrite app_nil_r. destruct fuel; cbn [scan_loop]; [reflexivity|].
    replace (Z.of_nat (length pre) <? Z.of_nat (length pre)) with false by lia. reflexivity.
  - inversion F as [|? ? G F']; subst. pose proof (enc_len2 i G) as L2. rewrite encode_cons in *. rewrite app_length in L.
    destruct fuel; [lia|]. cbn [scan_loop seek]. rewrite scan_at by exact G. rewrite app_length, Nat2Z.inj_add, app_length, Nat2Z.inj_add.
    replace (Z.of_nat (length pre) <? Z.of_nat (length pre) + (Z.of_nat (length (enc i)) + Z.of_nat (length (encode l)))) with true by lia.
    destruct (opcode i =? find); [reflexivity|]. rewrite scan_next_enc by exact G. rewrite app_assoc.
    rewrite IH by (auto; lia). rewrite app_length, Nat2Z.inj_add. reflexivity.
Qed.
Lemma bc_scan_seek pre l find : Forall good l -> bc_scan_pair (pre ++ encode l) (Z.of_nat (length pre)) find = seek None (Z.of_nat (length pre)) l find.
Proof. intros F. unfold bc_scan_pair. apply scan_seek; [exact F|]. rewrite app_length. lia. Qed.

(** * the compiler emits instructions *)
Lemma padded_app d x : Nat.even (length d) = true -> padded (d ++ x) = d ++ x ++ (if Nat.odd (length x) then [0] else []).
Proof.
  intros E. unfold padded. rewrite app_length, Nat.odd_add, <- (Nat.negb_even (length d)), E. cbn [negb xorb].
  destruct (Nat.odd (length x)); [rewrite <- app_assoc; reflexivity|rewrite app_nil_r; reflexivity].
Qed.
Lemma padded_text d op s : Nat.even (length d) = true -> padded (d ++ [op; len s] ++ s) = d ++ [op; len s] ++ s ++ pad s.
Proof. intros E. rewrite padded_app by exact E. unfold pad. cbn [app length]. rewrite Nat.odd_succ, Nat.even_succ. reflexivity. Qed.
Lemma data_loop_bytes st s : Forall is_byte s -> Forall is_byte (data_loop st s) /\ (length (data_loop st s) <= length s)%nat.
Proof.
  intros F. revert st. induction F as [|c s Hc F IH]; intros st; [split; [constructor|cbn; lia]|]. cbn [data_loop].
  assert (B0 : is_byte 0) by (unfold is_byte; lia). assert (B13 : is_byte 13) by (unfold is_byte; lia).
  destruct st; repeat match goal with |- context[if ?b then _ else _] => destruct b end;
    match goal with |- context[data_loop ?st s] => destruct (IH st) as [I1 I2] end; (split; [repeat (constructor; [assumption|]); assumption|cbn [length]; lia]).
Qed.
Lemma emit_number_instr n dec b : emit_number n dec = Ok b -> exists i, b = enc i /\ good i.
Proof.
  unfold emit_number. destruct (_ && dec); [discriminate|]. destruct (_ && _) eqn:C; intros [= <-].
  - exists (INum false n). cbn [enc good]. unfold FP_TO_INT, u8.
    assert (L : Z.land n (-4096) = n - n mod 4096).
    { replace (-4096) with (Z.lnot (Z.ones 12)) by reflexivity. rewrite <- Z.ldiff_land, Z.ldiff_ones_r by lia. rewrite Z.shiftl_mul_pow2, Z.shiftr_div_pow2 by lia. change (2 ^ 12) with 4096. lia. }
    rewrite L in C. split; [|lia]. rewrite Z.mod_small by (change (2 ^ 8) with 256; lia). reflexivity.
  - exists (INum true (s32 n)). cbn [enc good]. split; [|apply s32_range]. unfold u32, s32. cbv zeta.
    assert (M : ((n + 2 ^ 31) mod 2 ^ 32 - 2 ^ 31) mod 2 ^ 32 = n mod 2 ^ 32) by (change (2 ^ 31) with 2147483648; change (2 ^ 32) with 4294967296; lia).
    rewrite M. assert (R : 0 <= n mod 2 ^ 32 < 2 ^ 32) by (apply Z.mod_pos_bound; lia).
    rewrite (Z.mod_small (n mod 2 ^ 32 / 2 ^ 24)); [reflexivity|]. change (2 ^ 32) with 4294967296 in *. change (2 ^ 24) with 16777216. lia.
Qed.
Lemma body_all t : len (text t) = cl t -> body t = text t.
Proof. unfold body, len. intros <-. rewrite Nat2Z.id. apply firstn_all. Qed.
Lemma with_text_instr d op t : Nat.even (length d) = true -> len (text t) = cl t -> with_text d op t = d ++ [op; len (text t)] ++ text t ++ pad (text t).
Proof. intros E L. unfold with_text. rewrite body_all by exact L. rewrite <- L. apply padded_text. exact E. Qed.
Lemma one d x i : x = enc i -> good i -> exists l, d ++ x = d ++ encode l /\ Forall good l.
Proof. intros -> G. exists [i]. unfold encode. cbn [map concat]. rewrite app_nil_r. auto. Qed.
Lemma code_name_instr ids d t d' : (forall f, ids = Some f -> good_ids f) -> Nat.even (length d) = true -> good_name (text t) -> len (text t) = cl t ->
  code_name ids d t = Ok d' -> exists l, d' = d ++ encode l /\ Forall good l.
Proof.
  intros Gi E Gn L. pose proof Gn as (B & L65 & F).
  assert (N : forall op k, (k = IVar /\ op = BC_VARIABLE_NAME) \/ (k = IArray /\ op = BC_ARRAY_NAME) \/ (k = IDim /\ op = BC_DIM) ->
     (if cl t =? 1 then Ok (d ++ [op; nth 0 (text t) 0]) else Ok (with_text d op t)) = Ok d' -> exists l, d' = d ++ encode l /\ Forall good l).
  { intros op k K Q.
    assert (Ek : enc (k (text t)) = named op (text t)) by (destruct K as [[-> ->]|[[-> ->]|[-> ->]]]; reflexivity).
    assert (Gk : good (k (text t))) by (destruct K as [[-> ->]|[[-> ->]|[-> ->]]]; exact Gn).
    destruct (cl t =? 1) eqn:C; injection Q as <-.
    - eapply (one d _ (k (text t))); [|exact Gk]. rewrite Ek. unfold len in L. destruct (text t) as [|c [|? ?]]; cbn [length] in L; try lia. reflexivity.
    - rewrite with_text_instr by assumption. eapply (one d _ (k (text t))); [|exact Gk]. rewrite Ek. unfold named.
      unfold len in L. destruct (text t) as [|c [|? ?]]; cbn [length] in L; try lia; reflexivity. }
  unfold code_name. cbv zeta. destruct ids as [f|].
  - destruct (is_ty t dim_arr) eqn:D; [apply (N BC_DIM IDim); tauto|].
    set (x := f _ _). destruct x as [id| |] eqn:X; cbn [bind]; try discriminate. pose proof (Gi f eq_refl _ _ _ X) as R.
    destruct (id <? 256) eqn:S.
    + intros [= <-]. eapply (one d _ (IId false id)); [cbn [enc]; rewrite Z.mod_small by lia; reflexivity|cbn [good]; lia].
    + set (c1 := _ =? 1). destruct c1; [intro Q; discriminate Q|]. intros [= <-]. eapply (one d _ (IId true id)); [reflexivity|exact R].
  - destruct (is_ty t dim_arr); [apply (N BC_DIM IDim); tauto|]. destruct (is_ty t array_actual); [apply (N BC_ARRAY_NAME IArray); tauto|apply (N BC_VARIABLE_NAME IVar); tauto].
Qed.
Lemma code_token_instr ids d t d' s : (forall f, ids = Some f -> good_ids f) -> Nat.even (length d) = true -> good_tok t ->
  code_token ids d t = Ok (d', s) -> exists l, d' = d ++ encode l /\ Forall good l.
Proof.
  intros Gi E [B G]. unfold code_token. destruct (ty t) eqn:T; try discriminate.
  - destruct (u8_to_num _) as [n| |]; cbn [bind]; try discriminate. destruct (emit_number n true) as [b| |] eqn:Eb; cbn [bind]; try discriminate. intros [= <- <-].
    destruct (emit_number_instr _ _ _ Eb) as (i & -> & Gd). eapply one; [reflexivity|exact Gd].
  - intros [= <- <-]. destruct G as [Gb L]. rewrite with_text_instr by assumption. eapply (one d _ (IStr false (text t))); [reflexivity|]. cbn [good]. split; [exact Gb|]. unfold len, is_byte in *. lia.
  - destruct (code_name ids d t) as [x| |] eqn:X; cbn [bind]; try discriminate. intros [= <- <-]. eapply code_name_instr; eauto; apply G.
  - intros [= <- <-]. destruct (_ && _); (eapply (one d _ (IOp _)); [reflexivity|]); cbn [good]; [unfold is_byte, OP_NEGATE; lia|exact B].
  - destruct (cl t =? CMD_DATA) eqn:C; intros [= <- <-].
    + destruct G as [Gb L]; [lia|]. destruct (data_loop_bytes DNone (text t) Gb) as [D1 D2].
      unfold tok_data. assert (U : u8 (Z.of_nat (length (data_loop DNone (text t)))) = len (data_loop DNone (text t))) by (unfold u8, len; apply Z.mod_small; change (2 ^ 8) with 256; lia).
      rewrite U, padded_text by exact E. eapply (one d _ (IData _)); [reflexivity|]. cbn [good]. split; [exact D1|lia].
    + eapply (one d _ (ICmd false _)); [unfold is_ty; rewrite T; reflexivity|exact B].
  - intros [= <- <-]. eapply (one d _ (IFun _)); [reflexivity|exact B].
  - intros [= <- <-]. destruct G as [Gb L]. rewrite with_text_instr by assumption. eapply (one d _ (ILabel (text t))); [reflexivity|]. cbn [good]. split; [exact Gb|]. unfold len, is_byte in *. lia.
  - intros [= <- <-]. exists []. rewrite app_nil_r. auto.
  - destruct (code_name ids d t) as [x| |] eqn:X; cbn [bind]; try discriminate. intros [= <- <-]. eapply code_name_instr; eauto; apply G.
  - intros [= <- <-]. eapply (one d _ (IArgc _)); [reflexivity|exact B].
  - intros [= <- <-]. eapply (one d _ ILoop); [reflexivity|exact I].
  - intros [= <- <-]. eapply (one d _ (ISys _)); [reflexivity|exact B].
  - intros [= <- <-]. destruct G as [Gb L]. rewrite with_text_instr by assumption. eapply (one d _ (IStr true (text t))); [reflexivity|]. cbn [good]. split; [exact Gb|]. unfold len, is_byte in *. lia.
  - destruct (cl t =? CMD_DATA) eqn:C; intros [= <- <-].
    + destruct G as [Gb L]; [lia|]. destruct (data_loop_bytes DNone (text t) Gb) as [D1 D2].
      unfold tok_data. assert (U : u8 (Z.of_nat (length (data_loop DNone (text t)))) = len (data_loop DNone (text t))) by (unfold u8, len; apply Z.mod_small; change (2 ^ 8) with 256; lia).
      rewrite U, padded_text by exact E. eapply (one d _ (IData _)); [reflexivity|]. cbn [good]. split; [exact D1|lia].
    + eapply (one d _ (ICmd true _)); [unfold is_ty; rewrite T; reflexivity|exact B].
  - destruct (u8_to_number _ _ _) as [n| |]; cbn [bind]; try discriminate. destruct (emit_number n false) as [b| |] eqn:Eb; cbn [bind]; try discriminate. intros [= <- <-].
    destruct (emit_number_instr _ _ _ Eb) as (i & -> & Gd). eapply one; [reflexivity|exact Gd].
  - destruct (code_name ids d t) as [x| |] eqn:X; cbn [bind]; try discriminate. intros [= <- <-]. eapply code_name_instr; eauto; apply G.
  - destruct (code_name ids d t) as [x| |] eqn:X; cbn [bind]; try discriminate. intros [= <- <-]. eapply code_name_instr; eauto; apply G.
Qed.
Lemma even_encode d l : Nat.even (length d) = true -> Forall good l -> Nat.even (length (d ++ encode l)) = true.
Proof. intros E F. rewrite app_length, Nat.even_add, E, encode_even by exact F. reflexivity. Qed.
Lemma code_loop_instr ids l : (forall f, ids = Some f -> good_ids f) -> Forall good_tok l -> forall d vs d' vs' e, Nat.even (length d) = true ->
  code_loop ids d vs l = Ok (d', vs', e) -> exists is, d' = d ++ encode is /\ Forall good is.
Proof.
  intros Gi F. induction F as [|t l G F IH]; intros d vs d' vs' e E; cbn [code_loop].
  - intros [= <- <- <-]. exists []. rewrite app_nil_r. auto.
  - destruct (code_token ids d t) as [[d1 st]| |] eqn:C; [| |discriminate].
    + destruct (code_token_instr _ _ _ _ _ Gi E G C) as (i1 & -> & G1). destruct st.
      * intros [= <- <- <-]. eauto.
      * intros Q. destruct (IH _ _ _ _ _ (even_encode _ _ E G1) Q) as (i2 & -> & G2). exists (i1 ++ i2). rewrite encode_app, app_assoc. split; [reflexivity|apply Forall_app; auto].
    + intros [= <- <- <-]. exists []. rewrite app_nil_r. auto.
Qed.
Lemma validations_instr vs : exists is, validations vs = encode is /\ Forall good is.
Proof.
  unfold validations. set (l := filter _ validated). assert (F : Forall is_byte l).
  { apply Forall_forall. intros x Hx. apply filter_In in Hx. destruct Hx as [Hx _]. unfold is_byte. cbn in Hx. lia. }
  exists (map ICheck l). split; [unfold encode; rewrite map_map; reflexivity|]. apply Forall_map. exact F.
Qed.
Lemma tok_code_instr ids d l d' e : (forall f, ids = Some f -> good_ids f) -> Forall good_tok l -> Nat.even (length d) = true ->
  tok_code ids d l = Ok (d', e) -> exists is, d' = d ++ encode is /\ Forall good is.
Proof.
  intros Gi F E. unfold tok_code. destruct (code_loop ids d [] l) as [[[d1 vs] e1]| |] eqn:C; cbn [bind]; try discriminate.
  destruct (code_loop_instr _ _ Gi F _ _ _ _ _ E C) as (i1 & -> & G1). destruct e1; intros [= <- <-]; [eauto|].
  destruct (validations_instr vs) as (i2 & -> & G2). exists (i1 ++ i2). rewrite encode_app, app_assoc. split; [reflexivity|apply Forall_app; auto].
Qed.

(** * the passes before keep the tokens good *)
Definition good_arg (t : token) : Prop := good_tok t.
Lemma good_prio t p : good_tok t -> good_tok (set_prio t p).
Proof. exact (fun x => x). Qed.
Lemma prio_good done : Forall good_tok done -> forall nest l r, Forall good_tok l -> prio_loop done nest l = Ok r -> Forall good_tok r.
Proof.
  intros Fd nest l. revert done nest Fd. induction l as [|t l IH]; intros done nest Fd r F; cbn [prio_loop].
  - intros [= <-]. apply Forall_rev. exact Fd.
  - inversion F as [|? ? G F']; subst. destruct (ty t) eqn:T; try (apply IH; auto).
    + destruct (cl t =? OP_SUBTRACT).
      { destruct (binary_minus done) as [[|]| |]; cbn [bind]; try discriminate; apply IH; auto. constructor; auto.
        split; cbn [cl ty]; [unfold is_byte, OP_NEGATE; lia|exact I]. }
      destruct ((cl t =? OP_OPEN_BRACKET) || (cl t =? OP_OPEN_PAREN)).
      { apply IH; auto. constructor; auto. destruct done as [|p d]; auto. inversion Fd; subst. constructor; auto. destruct (is_ty p name); auto. }
      destruct ((cl t =? OP_CLOSE_BRACKET) || (cl t =? OP_CLOSE_PAREN)); [apply IH; auto|].
      destruct (op_level (cl t)); apply IH; auto.
Qed.
Definition good_ev (e : eval) : Prop := Forall good_tok (ops e) /\ Forall good_tok (res e) /\ Forall is_byte (argcs e).
Lemma clean_good p o : forall r, Forall good_tok o -> Forall good_tok r -> let '(o', r') := clean o r p in Forall good_tok o' /\ Forall good_tok r'.
Proof.
  induction o as [|t o IH]; intros r Fo Fr; cbn [clean]; [auto|]. inversion Fo; subst. destruct (prio t >=? p); [|auto].
  apply IH; auto. apply Forall_app; auto.
Qed.
Lemma clean_stack_good e p : good_ev e -> good_ev (clean_stack e p).
Proof. intros (A & B & C). unfold clean_stack. pose proof (clean_good p (ops e) (res e) A B) as Q. destruct (clean _ _ _). destruct Q. repeat split; auto. Qed.
Lemma push_op_good e t e' : good_ev e -> good_tok t -> push_op e t = Ok e' -> good_ev e'.
Proof. intros (A & B & C) G. unfold push_op. destruct (_ <? _); [|discriminate]. intros [= <-]. repeat split; auto. constructor; auto. Qed.
Lemma push_res_good e t : good_ev e -> good_tok t -> good_ev (push_res e t).
Proof. intros (A & B & C) G. repeat split; auto. cbn. apply Forall_app; auto. Qed.
Lemma u8_byte x : is_byte (u8 x).
Proof. unfold is_byte, u8. change (2 ^ 8) with 256. lia. Qed.
Lemma upd_Forall {A} (P : A -> Prop) l i v : Forall P l -> P v -> Forall P (upd l i v).
Proof. intros F. revert i. induction F as [|x l Hx F IH]; intros i Hv; [destruct i; constructor|]. destruct i; cbn; constructor; auto. Qed.
Lemma argc_put_good e v e' : good_ev e -> argc_put e v = Ok e' -> good_ev e'.
Proof. intros (A & B & C). unfold argc_put. destruct (_ && _); [|discriminate]. intros [= <-]. repeat split; auto. cbn. apply upd_Forall; [exact C|apply u8_byte]. Qed.
Lemma argc_get_good e c : good_ev e -> argc_get e = Ok c -> is_byte c.
Proof.
  intros (A & B & C). unfold argc_get. destruct (_ && _); [|discriminate]. intros [= <-]. rewrite Forall_forall in C.
  destruct (nth_in_or_default (Z.to_nat (argc_i e)) (argcs e) 0) as [I|E]; [apply C; exact I|rewrite E; unfold is_byte; lia].
Qed.
Lemma retag_name t k : good_tok t -> match ty t with name | array_name | array_actual | dim_arr => True | _ => False end ->
  match k with array_name | array_actual | dim_arr => True | _ => False end -> good_tok (retag t k).
Proof. intros [B G] T K. split; [exact B|]. cbn [retag ty text cl]. destruct (ty t); try destruct T; destruct k; try destruct K; exact G. Qed.
Lemma mark_good o : Forall good_tok o -> Forall good_tok (mark_array o).
Proof.
  intros F. destruct F as [|x r Gx F]; cbn [mark_array]; constructor; auto. destruct (is_ty x name) eqn:N; [|exact Gx].
  apply retag_name; [exact Gx| |exact I]. unfold is_ty in N. destruct (ty x); try discriminate N; exact I.
Qed.
Definition good_out (x : outcome (eval * token * bool)) : Prop := match x with Ok (e, t, _) => good_ev e /\ good_tok t | _ => True end.
Lemma set_argc_good e i : good_ev e -> good_ev (set_argc e i (argcs e)).
Proof. exact (fun x => x). Qed.
Lemma flags_good e a b c d f : good_ev e -> good_ev (set_flags e a b c d f).
Proof. exact (fun x => x). Qed.
Lemma good_plain k c p w : is_byte c -> match k with operation | command | first_of_line_command => c <> CMD_DATA | arg_count | loop_begin => True | _ => False end -> good_tok (mk k c p w).
Proof. intros B K. split; [exact B|]. cbn [ty]. destruct k; try exact I; try (destruct K; fail); cbn [cl]; intros Q; destruct (K Q). Qed.
Lemma ev_zero_good e prev t : good_ev e -> good_tok t -> good_out (ev_zero e prev t).
Proof.
  intros Ge Gt. unfold ev_zero.
  destruct (cl t =? OP_ASSIGN).
  { destruct (push_op _ t) as [e'| |] eqn:P; cbn [bind good_out]; auto. split; [|exact Gt]. eapply push_op_good; [apply clean_stack_good; exact Ge|exact Gt|exact P]. }
  destruct ((cl t =? OP_OPEN_BRACKET) || (cl t =? OP_OPEN_PAREN)).
  { set (e0 := set_argc _ _ _). assert (G0 : good_ev e0) by exact Ge. destruct (argc_put e0 1) as [e1| |] eqn:P; cbn [bind good_out]; auto.
    pose proof (argc_put_good _ _ _ G0 P) as G1. destruct prev as [q|]; [|split; assumption].
    destruct (is_ty q name).
    { split; [|exact Gt]. destruct G1 as (A & B & C). repeat split; auto. cbn. apply mark_good. exact A. }
    destruct (_ && _); [|split; assumption]. destruct (argc_get e1) as [c| |]; cbn [bind good_out]; auto.
    destruct (argc_put e1 _) as [e2| |] eqn:P2; cbn [bind good_out]; auto. split; [|exact Gt]. eapply argc_put_good; eauto. }
  destruct prev as [q|]; [|exact I].
  set (m := if is_op q OP_OPEN_PAREN then argc_put e 0 else Ok e). assert (Gm : match m with Ok e => good_ev e | _ => True end).
  { unfold m. destruct (is_op q OP_OPEN_PAREN); [|exact Ge]. destruct (argc_put e 0) eqn:P; auto. eapply argc_put_good; eauto. }
  destruct m as [e1| |]; cbn [bind good_out]; auto. destruct (argc_get e1) as [c| |] eqn:C; cbn [bind good_out]; auto. pose proof (argc_get_good _ _ Gm C) as Bc.
  assert (Ga : good_tok (mk arg_count c (prio t) (text t))) by (apply good_plain; [exact Bc|exact I]).
  destruct (_ =? 0).
  - destruct (push_op _ _) as [e'| |] eqn:P; cbn [bind good_out]; auto. split; [|exact Ga]. eapply push_op_good; [|exact Ga|exact P]. apply clean_stack_good. exact Gm.
  - split; assumption.
Qed.
Lemma ev_comma_good e prev t nx : good_ev e -> good_tok t -> good_out (ev_comma e prev t nx).
Proof.
  intros Ge Gt. unfold ev_comma. destruct (argc_get e) as [c| |]; cbn [bind good_out]; auto.
  destruct (argc_put e _) as [e1| |] eqn:P; cbn [bind good_out]; auto. pose proof (clean_stack_good _ (prio t) (argc_put_good _ _ _ Ge P)) as G2.
  set (e2 := clean_stack _ _) in *. clearbody e2. pose proof (push_res_good _ _ G2 Gt).
  repeat match goal with |- good_out (if ?b then _ else _) => destruct b | |- good_out (match ?b with _ => _ end) => destruct b end; cbn [good_out]; auto.
Qed.
Lemma ev_push_good e t : good_ev e -> good_tok t -> good_out (ev_push e t).
Proof.
  intros Ge Gt. unfold ev_push. cbv zeta. set (b := match ops e with [] => true | x :: _ => prio x <? prio t + b2z (level t =? 6) end).
  set (e1 := if b then e else clean_stack e (prio t)).
  assert (G1 : good_ev e1) by (unfold e1; destruct b; [exact Ge|apply clean_stack_good; exact Ge]). clearbody e1.
  destruct (_ || _).
  - destruct (push_op e1 t) as [e'| |] eqn:P; cbn [bind good_out]; auto. split; [eapply push_op_good; eauto|exact Gt].
  - destruct (argc_get e1) as [c| |]; cbn [bind good_out]; auto. destruct (argc_put e1 _) as [e'| |] eqn:P; cbn [bind good_out]; auto. split; [eapply argc_put_good; eauto|exact Gt].
Qed.
Lemma retag_first t : is_ty t command = true -> good_tok t -> good_tok (retag t first_of_line_command).
Proof. intros T [B G]. split; [exact B|]. unfold is_ty in T. destruct (ty t); try discriminate T. exact G. Qed.
Lemma loop_good : good_tok loop_token. Proof. apply good_plain; [unfold is_byte; lia|exact I]. Qed.
Lemma endif_good : good_tok endif_token. Proof. apply good_plain; [unfold is_byte, CMD_ENDIF; lia|discriminate]. Qed.
Lemma ev_command_good e prev t : is_ty t command = true -> good_ev e -> good_tok t -> good_out (ev_command e prev t).
Proof.
  intros T Ge Gt. unfold ev_command.
  set (tt := if match prev with None => true | Some q => is_ty q newline end then retag t first_of_line_command else t).
  assert (Gf : good_tok tt) by (unfold tt; destruct prev as [q|]; [destruct (is_ty q newline)|]; try assumption; [apply retag_first; assumption|apply retag_first; assumption]). clearbody tt.
  assert (Gp : forall e, good_ev e -> good_out (ev_push e tt)) by (intros x Gx; apply ev_push_good; assumption).
  cbv zeta beta.
  destruct (cl t =? CMD_DIM); [cbn [good_out]; auto|]. destruct (cl t =? CMD_PRINT); [apply Gp; exact Ge|]. destruct (cl t =? CMD_FOR); [apply Gp; exact Ge|].
  destruct (cl t =? CMD_IF); [apply Gp; exact Ge|]. destruct (cl t =? CMD_THEN); [split; [apply clean_stack_good; exact Ge|exact Gt]|].
  destruct (cl t =? CMD_ELSE); [split; [apply push_res_good; [apply clean_stack_good; exact Ge|exact Gt]|exact Gt]|].
  destruct (_ || _); [apply Gp; exact Ge|]. destruct (cl t =? CMD_DATA); [split; [apply push_res_good; [apply clean_stack_good; exact Ge|exact Gt]|exact Gt]|].
  apply Gp. destruct (_ && _); [|exact Ge]. apply flags_good, push_res_good; [exact Ge|apply loop_good].
Qed.
Lemma ev_newline_good e : good_ev e -> good_ev (ev_newline e).
Proof.
  intros Ge. unfold ev_newline. pose proof (clean_stack_good e 0 Ge) as G. set (e1 := clean_stack e 0) in *. clearbody e1. cbv zeta.
  destruct (is_for _); [|exact G]. apply flags_good, push_res_good; [exact G|apply loop_good].
Qed.
Lemma ev_step_good e prev t nx : good_ev e -> good_tok t -> good_out (ev_step e prev t nx).
Proof.
  intros Ge Gt. unfold ev_step.
  destruct (is_ty t operation && (level t =? 0)); [apply ev_zero_good; assumption|].
  destruct (is_ty t operation && (prio t =? 1)); [apply ev_comma_good; assumption|].
  destruct (is_ty t command) eqn:C; [apply ev_command_good; assumption|].
  destruct (prio t >? 0).
  { destruct (is_ty t name && (prio t =? 7) && is_dim e) eqn:N; [|apply ev_push_good; assumption]. apply ev_push_good; [exact Ge|].
    apply retag_name; [exact Gt| |exact I]. unfold is_ty in N. destruct (ty t); try discriminate N; exact I. }
  destruct (is_ty t newline); [split; [apply ev_newline_good; exact Ge|exact Gt]|].
  destruct (is_ty t label) eqn:L.
  { assert (G2 : good_tok (match prev with Some _ => retag t label_string | None => t end)).
    { destruct prev; [|exact Gt]. destruct Gt as [B G]. split; [exact B|]. unfold is_ty in L. destruct (ty t); try discriminate L. exact G. }
    split; [apply push_res_good; assumption|exact G2]. }
  destruct (is_ty t name && is_sort e && _) eqn:N.
  { assert (G2 : good_tok (retag t array_actual)). { apply retag_name; [exact Gt| |exact I]. unfold is_ty in N. destruct (ty t); try discriminate N; exact I. }
    split; [apply push_res_good; assumption|exact G2]. }
  split; [apply push_res_good; assumption|exact Gt].
Qed.
Lemma ev_loop_good l : Forall good_tok l -> forall e prev e', good_ev e -> ev_loop e prev l = Ok e' -> good_ev e'.
Proof.
  induction 1 as [|t l Gt F IH]; intros e prev e' Ge; cbn [ev_loop]; [intros [= <-]; exact Ge|].
  pose proof (ev_step_good e prev t (hd_error l) Ge Gt) as Q. destruct (ev_step e prev t (hd_error l)) as [[[e1 t1] st]| |]; cbn [bind]; try discriminate.
  destruct Q as [Q1 Q2]. destruct st; [intros [= <-]; exact Q1|]. apply IH. exact Q1.
Qed.
Lemma tok_eval_good l r : Forall good_tok l -> tok_eval l = Ok r -> Forall good_tok r.
Proof.
  intros F. unfold tok_eval. destruct (ev_loop init_eval None l) as [e| |] eqn:L; cbn [bind]; try discriminate.
  assert (G : good_ev e). { eapply ev_loop_good; [exact F| |exact L]. split; [constructor|]. split; [constructor|]. cbn [init_eval argcs]. apply Forall_forall. intros x Hx. apply repeat_spec in Hx. subst x. unfold is_byte. lia. }
  apply (clean_stack_good e 0) in G. set (e1 := clean_stack e 0) in *. clearbody e1. destruct G as (A & B & C). cbv zeta.
  destruct (_ <=? _); [|discriminate]. intros [= <-]. destruct (is_if e1); [|exact B]. apply Forall_app. split; [exact B|]. constructor; [apply endif_good|constructor].
Qed.
Lemma compile_instr errno ids nl test ls : (forall f, ids = Some f -> good_ids f) -> (forall e, is_byte (errno e)) -> Forall good_line ls ->
  forall d d', Nat.even (length d) = true -> compile errno ids nl test d ls = Ok d' -> exists is, d' = d ++ encode is /\ Forall good is.
Proof.
  intros Gi Ge F. induction F as [|ln ls G F IH]; intros d d' E; cbn [compile].
  - intros [= <-]. exists []. rewrite app_nil_r. auto.
  - assert (Ee : forall e d0, Nat.even (length d0) = true -> Nat.even (length (d0 ++ [BC_ERROR; errno e])) = true) by (intros e d0 E0; rewrite app_length, Nat.even_add, E0; reflexivity).
    destruct ln as [l|e].
    + unfold convert. set (c := _ && nl). destruct c.
      * cbn [bind]. apply IH. exact E.
      * destruct (tok_prio l) as [p| |] eqn:P; cbn [bind]; try discriminate. pose proof (prio_good [] (Forall_nil _) 0 l p G P) as Gp.
        destruct (tok_eval p) as [r| |] eqn:R; cbn [bind]; try discriminate. pose proof (tok_eval_good p r Gp R) as Gr.
        destruct (test r) as [e|].
        { cbn [bind]. intros Q. destruct (IH _ _ (Ee e d E) Q) as (is & -> & Gs). exists (IErr (errno e) :: is). rewrite <- app_assoc. split; [reflexivity|]. constructor; [apply Ge|exact Gs]. }
        destruct (tok_code ids d r) as [[d1 e]| |] eqn:C; cbn [bind]; try discriminate. destruct (tok_code_instr _ _ _ _ _ Gi Gr E C) as (i1 & -> & G1).
        destruct e as [e|]; intros Q.
        { destruct (IH _ _ (Ee e _ (even_encode _ _ E G1)) Q) as (is & -> & Gs). exists (i1 ++ IErr (errno e) :: is). rewrite encode_app, encode_cons, <- !app_assoc. split; [reflexivity|].
          apply Forall_app. split; [exact G1|]. constructor; [apply Ge|exact Gs]. }
        { destruct (IH _ _ (even_encode _ _ E G1) Q) as (is & -> & Gs). exists (i1 ++ is). rewrite encode_app, <- app_assoc. split; [reflexivity|]. apply Forall_app. auto. }
    + intros Q. destruct (IH _ _ (Ee e d E) Q) as (is & -> & Gs). exists (IErr (errno e) :: is). rewrite <- app_assoc. split; [reflexivity|]. constructor; [apply Ge|exact Gs].
Qed.

(** * positions *)
Lemma start_split l k : (k <= length l)%nat -> encode l = encode (firstn k l) ++ encode (skipn k l).
Proof. intros _. rewrite <- encode_app, firstn_skipn. reflexivity. Qed.
Lemma seek_spec l find : forall p at_,
  match seek p at_ l find with
  | (q, Some x) => exists j, (j < length l)%nat /\ opcode (nth j l ILoop) = find /\ (forall i, (i < j)%nat -> opcode (nth i l ILoop) <> find) /\
      x = at_ + start l j /\ q = match j with O => p | S j' => Some (at_ + start l j') end
  | (_, None) => Forall (fun i => opcode i <> find) l
  end.
Proof.
  induction l as [|i l IH]; intros p at_; cbn [seek]; [constructor|]. destruct (opcode i =? find) eqn:E.
  - exists 0%nat. cbn [length nth]. split; [lia|]. split; [lia|]. split; [intros k K; lia|]. split; [unfold start; cbn; lia|reflexivity].
  - specialize (IH (Some at_) (at_ + Z.of_nat (length (enc i)))). destruct (seek _ _ l find) as [q [x|]].
    + destruct IH as (j & J1 & J2 & J3 & J4 & J5). exists (S j). cbn [length nth]. split; [lia|]. split; [exact J2|].
      split. { intros [|k] K; [lia|]. apply J3. lia. }
      assert (S1 : forall m, start (i :: l) (S m) = Z.of_nat (length (enc i)) + start l m) by (intros m; unfold start; cbn [firstn]; rewrite encode_cons, app_length; lia).
      rewrite S1. split; [lia|]. destruct j as [|j']; [unfold start; cbn; rewrite J5; f_equal; lia|]. rewrite J5, S1. f_equal. lia.
    + constructor; [lia|exact IH].
Qed.
