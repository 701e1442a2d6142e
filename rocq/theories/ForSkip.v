(** Skipping a loop that runs zero times. *)
From Verif Require Import Base BaseLemmas Tokens ExprSpec ExprProofs EvalProofs NumText Bytecode BytecodeSpec BytecodeProofs Runner RunnerSpec RunnerProofs ExecProofs StmtSpec StmtProofs EvalLine FlowSpec FlowProofs FlowLine ForSpec ForProofs.
Ltac Zify.zify_post_hook ::= Z.div_mod_to_equations.
Notation here pre := (Z.of_nat (length pre)).

Definition var_of (i : instr) : option vref := match i with IVar w => Some (ByName false w) | IId _ n => Some (ById n) | _ => None end.
Definition is_first (i : instr) : bool := match i with ICmd true _ => true | _ => false end.
Lemma opcode_first i : good i -> (opcode i =? BC_COMMAND_FIRST) = is_first i.
Proof.
  intros G. unfold opcode. destruct i as [big v|lb s|f c|o|f|c|c|s|s|s|big i0|n| |s|s|e]; cbn [enc hd app is_first]; try reflexivity.
  - destruct big; reflexivity.
  - destruct lb; reflexivity.
  - destruct f; reflexivity.
  - destruct (named_len BC_VARIABLE_NAME s G) as (c & r & E & _). rewrite E. reflexivity.
  - destruct (named_len BC_ARRAY_NAME s G) as (c & r & E & _). rewrite E. reflexivity.
  - destruct (named_len BC_DIM s G) as (c & r & E & _). rewrite E. reflexivity.
  - destruct big; reflexivity.
Qed.
Lemma next_var_enc pre i post : good i -> next_var (pre ++ enc i ++ post) (here pre) = var_of i.
Proof.
  intros G. unfold next_var. rewrite scan_at by exact G.
  assert (B : forall k, byte (pre ++ enc i ++ post) (here pre + Z.of_nat k) = nth k (enc i ++ post) 0) by (intros k; apply byte_app).
  rewrite (B 1%nat : byte _ (_ + 1) = _), (B 2%nat : byte _ (_ + 2) = _), (B 3%nat : byte _ (_ + 3) = _). clear B.
  unfold opcode. destruct i as [big v|lb s|f c|o|f|c|c|s|s|s|big i0|n| |s|s|e]; cbn [enc hd app nth var_of]; try reflexivity.
  - destruct big; reflexivity.
  - destruct lb; reflexivity.
  - destruct f; reflexivity.
  - cbn [good] in G. destruct (named_len BC_VARIABLE_NAME s G) as (c & r & E & _). replace (hd 0 (named BC_VARIABLE_NAME s)) with BC_VARIABLE_NAME by (rewrite E; reflexivity). change (BC_VARIABLE_NAME =? BC_VARIABLE_NAME) with true. cbv iota.
    destruct G as (Gb & Gl & Gf). unfold named. destruct s as [|c0 [|c2 s]]; [destruct Gf| |].
    + cbn [app nth]. rewrite s8_small by lia. replace (c0 <? 65) with false by lia. reflexivity.
    + set (w := c0 :: c2 :: s) in *. cbn [app nth]. rewrite s8_small by (unfold len; lia). replace (len w <? 65) with true by (unfold len; lia). rewrite <- app_assoc. rewrite slice_app2 by reflexivity. reflexivity.
  - destruct (named_len BC_ARRAY_NAME s G) as (c & r & E & _). replace (hd 0 (named BC_ARRAY_NAME s)) with BC_ARRAY_NAME by (rewrite E; reflexivity). reflexivity.
  - destruct (named_len BC_DIM s G) as (c & r & E & _). replace (hd 0 (named BC_DIM s)) with BC_DIM by (rewrite E; reflexivity). reflexivity.
  - destruct big; cbn [hd app nth]; [|reflexivity]. cbn [good] in G. change (2 ^ 24) with 16777216 in G. unfold BC_VARIABLE_ID, BC_VARIABLE_NAME, BC_VARIABLE_ID_SMALL. cbn [Z.eqb Pos.eqb].
    replace (i0 mod 256 + i0 / 256 mod 256 * 256 + i0 / 65536 mod 256 * 65536) with i0 by lia. reflexivity.
Qed.

(** The loop nesting while walking over instructions, from depth [d]; NEXT always without variable
    ([v]: the instruction before is a variable reference).  None: a NEXT with a variable, or one too many. *)
Fixpoint walk (d : nat) (v : bool) (l : list instr) : option (nat * bool) :=
  match l with
  | [] => Some (d, v)
  | ICmd true k :: r =>
      if k =? CMD_FOR then walk (S d) false r
      else if k =? CMD_NEXT then match d, v with S d', false => walk d' false r | _, _ => None end
      else walk d false r
  | i :: r => walk d (match var_of i with Some _ => true | None => false end) r
  end.
Section Skip.
Context {h : host}.
Definition ends_var (l : list instr) : bool := match rev l with i :: _ => match var_of i with Some _ => true | None => false end | [] => false end.
Lemma ends_snoc l i : ends_var (l ++ [i]) = match var_of i with Some _ => true | None => false end.
Proof. unfold ends_var. rewrite rev_app_distr. reflexivity. Qed.
(** the scan from [pre] over [seg] (no first command in it) to the first command after it *)
Lemma scan_first seg pre k tail : Forall good seg -> forallb (fun i => negb (is_first i)) seg = true -> is_byte k -> Forall good tail ->
  bc_scan_pair (pre ++ encode (seg ++ ICmd true k :: tail)) (here pre) BC_COMMAND_FIRST =
  (match rev seg with [] => None | _ :: r => Some (here (pre ++ encode (rev r))) end, Some (here (pre ++ encode seg))).
Proof.
  intros Gs Nf Bk Gt. rewrite bc_scan_seek by (apply Forall_app; split; [exact Gs|constructor; [exact Bk|exact Gt]]).
  assert (Z0 : forall seg p at_, Forall good seg -> forallb (fun i => negb (is_first i)) seg = true -> seek p at_ (seg ++ ICmd true k :: tail) BC_COMMAND_FIRST =
    (match rev seg with [] => p | _ :: r => Some (at_ + here (encode (rev r))) end, Some (at_ + here (encode seg)))).
  { clear - Bk. induction seg as [|i seg IH]; intros p at_ G N.
    - cbn. rewrite Z.add_0_r. reflexivity.
    - cbn [app seek forallb] in *. apply andb_true_iff in N. destruct N as [N1 N2]. rewrite (opcode_first i (Forall_inv G)). apply negb_true_iff in N1. rewrite N1, (IH _ _ (Forall_inv_tail G) N2). rewrite encode_cons, app_length.
      cbn [rev]. destruct (rev seg) as [|x r] eqn:E; cbn [app rev]; [f_equal; f_equal; [change (here (encode [])) with 0; lia|lia]|].
      rewrite rev_app_distr. cbn [rev app]. rewrite encode_cons, app_length. f_equal; f_equal; lia. }
  rewrite Z0 by assumption. rewrite app_length. f_equal; [|f_equal; lia]. destruct (rev seg) as [|x r]; [reflexivity|]. rewrite app_length. f_equal. lia.
Qed.
Lemma data_at pre a k tail : byte (pre ++ encode (a ++ ICmd true k :: tail)) (here (pre ++ encode a) + 1) = k.
Proof. rewrite encode_app, encode_cons. unfold byte. replace (Z.to_nat (here (pre ++ encode a) + 1)) with (length (pre ++ encode a) + 1)%nat by lia. rewrite app_assoc, app_nth2_plus. reflexivity. Qed.

Lemma skip_walk_gen r tail K st : Forall good tail -> forall mid seg pre d fuel v, Forall good seg -> Forall good mid -> forallb (fun i => negb (is_first i)) seg = true ->
  walk d (ends_var seg) mid = Some (O, v) -> (length mid < fuel)%nat ->
  let code := pre ++ encode (seg ++ mid ++ ICmd true CMD_NEXT :: tail) in
  let last := here (pre ++ encode (seg ++ mid ++ [ICmd true CMD_NEXT])) in
  (v = false -> K = Ok (last, st)) ->
  (v = true -> exists q i rf, seg ++ mid = q ++ [i] /\ var_of i = Some rf /\
     ((exists b l st1, hvar h rf st = Ok (b, l, st1) /\ same h r l = true /\ K = Ok (last, st1)) \/ exists e, hvar h rf st = Err e /\ K = Err e)) ->
  skip_loop h fuel code r (Z.of_nat (S d)) (here pre) st = K.
Proof.
  intros Gt. induction mid as [|i mid IH]; intros seg pre d fuel v Gs Gm Nf Wk Lf code last Cf Cl.
  - cbn [walk] in Wk. injection Wk as -> Ev. destruct fuel as [|fuel]; [cbn in Lf; lia|]. unfold code. cbn [app skip_loop]. rewrite scan_first; [|exact Gs|exact Nf|unfold is_byte, CMD_NEXT; lia|exact Gt]. rewrite data_at. change (CMD_NEXT =? CMD_NEXT) with true. cbv iota.
    assert (Fin : here (pre ++ encode seg) + 2 = here (pre ++ encode (seg ++ [ICmd true CMD_NEXT]))) by (rewrite encode_app, enc_one, !app_length; cbn [enc length]; lia).
    change (Z.of_nat 1 - 1 >? 0) with false. cbv iota zeta. rewrite Fin.
    assert (Ef : ends_var seg = false -> Ok (here (pre ++ encode (seg ++ [ICmd true CMD_NEXT])), st) = K) by (intros X; symmetry; apply Cf; congruence).
    destruct (rev seg) as [|x q] eqn:E; [apply Ef; unfold ends_var; rewrite E; reflexivity|]. assert (Sg : seg = rev q ++ [x]) by (rewrite <- (rev_involutive seg), E; reflexivity).
    replace (pre ++ encode (seg ++ ICmd true CMD_NEXT :: tail)) with ((pre ++ encode (rev q)) ++ enc x ++ encode (ICmd true CMD_NEXT :: tail)) by (rewrite Sg, !encode_app, enc_one, <- !app_assoc; reflexivity).
    rewrite next_var_enc; [|rewrite Sg in Gs; apply Forall_app in Gs; apply (Forall_inv (proj2 Gs))].
    destruct (var_of x) as [rf|] eqn:Vx; [|apply Ef; rewrite Sg, ends_snoc, Vx; reflexivity].
    assert (v = true) as Vt by (rewrite <- Ev, Sg, ends_snoc, Vx; reflexivity). destruct (Cl Vt) as (q' & i' & rf' & E1 & E2 & E3). rewrite app_nil_r, Sg in E1. apply app_inj_tail in E1. destruct E1 as [_ <-]. rewrite Vx in E2. injection E2 as <-. destruct E3 as [(b & l & st1 & -> & E4 & ->)|(e & -> & ->)]; cbn [bind]; [rewrite E4; unfold last; cbn [app]; reflexivity|reflexivity].
  - assert (Step : is_first i = false -> walk d (match var_of i with Some _ => true | None => false end) mid = Some (O, v) ->
      skip_loop h fuel code r (Z.of_nat (S d)) (here pre) st = K).
    { intros Nfi Wk'. specialize (IH (seg ++ [i]) pre d fuel v). unfold code. cbn [app]. replace (seg ++ i :: mid ++ ICmd true CMD_NEXT :: tail) with ((seg ++ [i]) ++ mid ++ ICmd true CMD_NEXT :: tail) by (rewrite <- app_assoc; reflexivity).
      assert (La : last = here (pre ++ encode ((seg ++ [i]) ++ mid ++ [ICmd true CMD_NEXT]))) by (unfold last; rewrite <- app_assoc; reflexivity).
      apply IH; [apply Forall_app; split; [exact Gs|constructor; [exact (Forall_inv Gm)|constructor]]|exact (Forall_inv_tail Gm)|rewrite forallb_app, Nf; cbn [forallb]; rewrite Nfi; reflexivity|rewrite ends_snoc; exact Wk'|cbn [length] in Lf; lia|rewrite <- La; exact Cf|].
      intros Vt. destruct (Cl Vt) as (q & x & rf & E). exists q, x, rf. rewrite <- La, <- app_assoc. exact E. }
    destruct (is_first i) eqn:Fi; [|apply Step; [reflexivity|destruct i as [| |[|]| | | | | | | | | | | | |]; try discriminate Fi; exact Wk]].
    assert (exists k, i = ICmd true k) as [k ->] by (destruct i as [| |[|]| | | | | | | | | | | | |]; try discriminate Fi; eauto).
    clear Step. pose proof (Forall_inv Gm) as Bk. cbn [good] in Bk. destruct fuel as [|fuel]; [cbn in Lf; lia|]. unfold code. cbn [app skip_loop].
    rewrite scan_first; [|exact Gs|exact Nf|exact Bk|apply Forall_app; split; [exact (Forall_inv_tail Gm)|constructor; [cbn; unfold is_byte, CMD_NEXT; lia|exact Gt]]]. rewrite data_at.
    assert (Fin : here (pre ++ encode seg) + 2 = here (pre ++ encode (seg ++ [ICmd true k]))) by (rewrite encode_app, enc_one, !app_length; cbn [enc length]; lia).
    assert (Co : pre ++ encode (seg ++ ICmd true k :: mid ++ ICmd true CMD_NEXT :: tail) = (pre ++ encode (seg ++ [ICmd true k])) ++ encode ([] ++ mid ++ ICmd true CMD_NEXT :: tail)) by (cbn [app]; rewrite (encode_app seg), (encode_app seg), enc_one, (encode_cons _ (mid ++ _)), <- !app_assoc; reflexivity).
    assert (Go : forall d', walk d' false mid = Some (O, v) -> skip_loop h fuel (pre ++ encode (seg ++ ICmd true k :: mid ++ ICmd true CMD_NEXT :: tail)) r (Z.of_nat (S d')) (here (pre ++ encode seg) + 2) st = K).
    { intros d' Wk'. rewrite Co, Fin.
      assert (La : last = here ((pre ++ encode (seg ++ [ICmd true k])) ++ encode ([] ++ mid ++ [ICmd true CMD_NEXT]))) by (unfold last; cbn [app]; repeat first [rewrite encode_app | rewrite enc_one | rewrite encode_cons]; rewrite <- !app_assoc; reflexivity).
      apply (IH [] (pre ++ encode (seg ++ [ICmd true k])) d' fuel v); [constructor|exact (Forall_inv_tail Gm)|reflexivity|exact Wk'|cbn [length] in Lf; lia| |].
      - rewrite <- La. exact Cf.
      - rewrite <- La. intros Vt. destruct (Cl Vt) as (q & x & rf & E1 & E2 & E3). cbn [app]. destruct mid as [|y mid].
        + cbn [walk] in Wk'. injection Wk' as -> <-. discriminate Vt.
        + destruct (@exists_last _ (y :: mid) ltac:(discriminate)) as (q' & x' & E'). exists q', x', rf. split; [exact E'|]. rewrite E' in E1. replace (seg ++ ICmd true k :: q' ++ [x']) with ((seg ++ ICmd true k :: q') ++ [x']) in E1 by (rewrite <- app_assoc; reflexivity). apply app_inj_tail in E1. destruct E1 as [_ ->]. auto. }
    cbn [walk] in Wk.
    destruct (k =? CMD_FOR) eqn:Kf.
    + replace (k =? CMD_NEXT) with false by (apply Z.eqb_eq in Kf; subst k; reflexivity). cbv zeta. replace (Z.of_nat (S d) + 1 >? 0) with true by lia. replace (Z.of_nat (S d) + 1) with (Z.of_nat (S (S d))) by lia. apply Go. exact Wk.
    + destruct (k =? CMD_NEXT) eqn:Kn.
      * destruct d as [|d]; [discriminate|]. destruct (ends_var seg) eqn:Ev; [discriminate|].
        assert (Nv : match rev seg with [] => True | x :: _ => var_of x = None end) by (unfold ends_var in Ev; destruct (rev seg) as [|x q]; [exact I|destruct (var_of x); [discriminate Ev|reflexivity]]).
        cbv zeta. replace (Z.of_nat (S (S d)) - 1 >? 0) with true by lia. replace (Z.of_nat (S (S d)) - 1) with (Z.of_nat (S d)) by lia. 
        destruct (rev seg) as [|x q] eqn:E; [apply Go; exact Wk|]. assert (Sg : seg = rev q ++ [x]) by (rewrite <- (rev_involutive seg), E; reflexivity).
        replace (next_var (pre ++ encode (seg ++ ICmd true k :: mid ++ ICmd true CMD_NEXT :: tail)) (here (pre ++ encode (rev q)))) with (@None vref); [apply Go; exact Wk|].
        replace (pre ++ encode (seg ++ ICmd true k :: mid ++ ICmd true CMD_NEXT :: tail)) with ((pre ++ encode (rev q)) ++ enc x ++ encode (ICmd true k :: mid ++ ICmd true CMD_NEXT :: tail)) by (rewrite Sg, !encode_app, enc_one, <- !app_assoc; reflexivity).
        rewrite next_var_enc; [congruence|rewrite Sg in Gs; apply Forall_app in Gs; apply (Forall_inv (proj2 Gs))].
      * cbv zeta. replace (Z.of_nat (S d) >? 0) with true by lia. apply Go. exact Wk.
Qed.
Lemma skip_walk r tail : Forall good tail -> forall mid seg pre d fuel st v, Forall good seg -> Forall good mid -> forallb (fun i => negb (is_first i)) seg = true ->
  walk d (ends_var seg) mid = Some (O, v) -> (length mid < fuel)%nat ->
  let code := pre ++ encode (seg ++ mid ++ ICmd true CMD_NEXT :: tail) in
  (v = true -> exists q i rf l, seg ++ mid = q ++ [i] /\ var_of i = Some rf /\ hvar h rf st = Ok (false, l, st) /\ same h r l = true) ->
  skip_loop h fuel code r (Z.of_nat (S d)) (here pre) st = Ok (here (pre ++ encode (seg ++ mid ++ [ICmd true CMD_NEXT])), st).
Proof.
  intros Gt mid seg pre d fuel st v Gs Gm Nf Wk Lf code Cl. apply (skip_walk_gen r tail _ st Gt mid seg pre d fuel v Gs Gm Nf Wk Lf); [reflexivity|]. intros Vt. destruct (Cl Vt) as (q & i & rf & l & E1 & E2 & E3 & E4).
  exists q, i, rf. split; [exact E1|]. split; [exact E2|]. left. exists false, l, st. auto.
Qed.
(** no NEXT closes the loop before the end of the program *)
Lemma skip_none r st : forall mid seg pre d d' v fuel, Forall good seg -> Forall good mid -> forallb (fun i => negb (is_first i)) seg = true ->
  walk d (ends_var seg) mid = Some (d', v) -> (length mid < fuel)%nat ->
  skip_loop h fuel (pre ++ encode (seg ++ mid)) r (Z.of_nat (S d)) (here pre) st = Err ERR_FOR_WITHOUT_NEXT.
Proof.
  induction mid as [|i mid IH]; intros seg pre d d' v fuel Gs Gm Nf Wk Lf.
  - destruct fuel as [|fuel]; [cbn in Lf; lia|]. cbn [skip_loop]. rewrite app_nil_r, bc_scan_seek by exact Gs.
    assert (Z0 : forall p at_, snd (seek p at_ seg BC_COMMAND_FIRST) = None).
    { clear - Gs Nf. induction seg as [|i seg IH]; intros p at_; [reflexivity|]. cbn [seek forallb] in *. apply andb_true_iff in Nf. destruct Nf as [N1 N2]. rewrite (opcode_first i (Forall_inv Gs)).
      apply negb_true_iff in N1. rewrite N1. apply IH; [exact (Forall_inv_tail Gs)|exact N2]. }
    specialize (Z0 None (here pre)). destruct (seek None (here pre) seg BC_COMMAND_FIRST) as [a b]. cbn [snd] in Z0. subst b. reflexivity.
  - assert (Step : is_first i = false -> walk d (match var_of i with Some _ => true | None => false end) mid = Some (d', v) ->
      skip_loop h fuel (pre ++ encode (seg ++ i :: mid)) r (Z.of_nat (S d)) (here pre) st = Err ERR_FOR_WITHOUT_NEXT).
    { intros Nfi Wk'. replace (seg ++ i :: mid) with ((seg ++ [i]) ++ mid) by (rewrite <- app_assoc; reflexivity).
      eapply IH; [apply Forall_app; split; [exact Gs|constructor; [exact (Forall_inv Gm)|constructor]]|exact (Forall_inv_tail Gm)|rewrite forallb_app, Nf; cbn [forallb]; rewrite Nfi; reflexivity|rewrite ends_snoc; exact Wk'|cbn [length] in Lf; lia]. }
    destruct (is_first i) eqn:Fi; [|apply Step; [reflexivity|destruct i as [| |[|]| | | | | | | | | | | | |]; try discriminate Fi; exact Wk]].
    assert (exists k, i = ICmd true k) as [k ->] by (destruct i as [| |[|]| | | | | | | | | | | | |]; try discriminate Fi; eauto).
    clear Step. pose proof (Forall_inv Gm) as Bk. cbn [good] in Bk. destruct fuel as [|fuel]; [cbn in Lf; lia|]. cbn [skip_loop].
    rewrite scan_first; [|exact Gs|exact Nf|exact Bk|exact (Forall_inv_tail Gm)]. rewrite data_at.
    assert (Fin : here (pre ++ encode seg) + 2 = here (pre ++ encode (seg ++ [ICmd true k]))) by (rewrite encode_app, enc_one, !app_length; cbn [enc length]; lia).
    assert (Co : pre ++ encode (seg ++ ICmd true k :: mid) = (pre ++ encode (seg ++ [ICmd true k])) ++ encode ([] ++ mid)) by (cbn [app]; rewrite (encode_app seg), (encode_app seg), enc_one, encode_cons, <- !app_assoc; reflexivity).
    assert (Go : forall d0, walk d0 false mid = Some (d', v) -> skip_loop h fuel (pre ++ encode (seg ++ ICmd true k :: mid)) r (Z.of_nat (S d0)) (here (pre ++ encode seg) + 2) st = Err ERR_FOR_WITHOUT_NEXT).
    { intros d0 Wk'. rewrite Co, Fin. eapply (IH []); [constructor|exact (Forall_inv_tail Gm)|reflexivity|exact Wk'|cbn [length] in Lf; lia]. }
    cbn [walk] in Wk.
    destruct (k =? CMD_FOR) eqn:Kf.
    + replace (k =? CMD_NEXT) with false by (apply Z.eqb_eq in Kf; subst k; reflexivity). cbv zeta. replace (Z.of_nat (S d) + 1 >? 0) with true by lia. replace (Z.of_nat (S d) + 1) with (Z.of_nat (S (S d))) by lia. apply Go. exact Wk.
    + destruct (k =? CMD_NEXT) eqn:Kn.
      * destruct d as [|d]; [discriminate|]. destruct (ends_var seg) eqn:Ev; [discriminate|].
        assert (Nv : match rev seg with [] => True | x :: _ => var_of x = None end) by (unfold ends_var in Ev; destruct (rev seg) as [|x q]; [exact I|destruct (var_of x); [discriminate Ev|reflexivity]]).
        cbv zeta. replace (Z.of_nat (S (S d)) - 1 >? 0) with true by lia. replace (Z.of_nat (S (S d)) - 1) with (Z.of_nat (S d)) by lia.
        destruct (rev seg) as [|x q] eqn:E; [apply Go; exact Wk|]. assert (Sg : seg = rev q ++ [x]) by (rewrite <- (rev_involutive seg), E; reflexivity).
        replace (next_var (pre ++ encode (seg ++ ICmd true k :: mid)) (here (pre ++ encode (rev q)))) with (@None vref); [apply Go; exact Wk|].
        replace (pre ++ encode (seg ++ ICmd true k :: mid)) with ((pre ++ encode (rev q)) ++ enc x ++ encode (ICmd true k :: mid)) by (rewrite Sg, !encode_app, enc_one, <- !app_assoc; reflexivity).
        rewrite next_var_enc; [congruence|rewrite Sg in Gs; apply Forall_app in Gs; apply (Forall_inv (proj2 Gs))].
      * cbv zeta. replace (Z.of_nat (S d) >? 0) with true by lia. apply Go. exact Wk.
Qed.
End Skip.
