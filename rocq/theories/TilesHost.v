(** The machine with background layers against the ideal computer with tiles. *)
From Verif Require Import Base BaseLemmas Labels Link Memory Strs Tokens ExprSpec NumText NumTextSpec Bytecode BytecodeSpec BytecodeProofs Runner RunnerSpec StmtSpec ExecProofs FlowSpec ForSpec ProgSpec ProgProofs ProgSim ProgEnd.
From Verif Require Import Vars Codes StrProofs Data DataSpec Machine Ideal IdealVal HostSim MachineSim MachineHost HostData MachineData IdealData DataHost.
From Verif Require Import LineInput Ask IdealAsk AskProofs AskHost Graphics Draw IdealDraw DrawProofs DrawHost Tiles IdealTiles TilesProofs.
From Verif Require Background BackgroundProofs.
Ltac Zify.zify_post_hook ::= Z.div_mod_to_equations.

Section Both.
Variables n cells : Z.
Hypothesis Hn : 0 <= n <= 18.
Variable us : list statement.
Variable iss : list (list BytecodeSpec.instr).
Variable its : list (list (list Z)).
Variable tbl : Labels.labels.
Variable nl : Z.
Hypothesis Hl : 0 <= nl.
Hypothesis Uo : Forall uok us.
Hypothesis Uc : ucodes None us = Ok iss.
Hypothesis Dl : Forall2 data_line us its.
Hypothesis Tb : load (init_labels (2 ^ nl)) (defs_of 0 us iss) = Some tbl.
Notation code := (encode (concat iss)).
Hypothesis Sz : Z.of_nat (length code) < 16777216.
Notation h1 := (ideal (2 ^ n) cells).
Notation h2 := machine.
Notation SR := (MachineSim.SR n cells).
Notation LR := (MachineSim.LR n).
Notation on := (HostSim.on h1 h2 SR LR).
Notation G1 := (ideal_draw us its (2 ^ n) cells).
Notation G2 := (machine_draw code tbl).
Notation dr := (drel n cells iss).
Notation dlr := (dlrel n).
(** what corresponds there *)
Lemma draw_agrees2 : hosts_agree G1 G2 dr dlr ideal_draw_text drtext.
Proof. exact (draw_agrees n cells Hn us iss its tbl nl Hl Uo Uc Dl Tb Sz). Qed.
Notation ST := (R' G1 G2 dr wall tilepages pinned tile_icmd tile_cmd).
Notation LT := (LR' G1 G2 dlr wall tilepages tile_icmd tile_cmd).
Notation T1 := (ideal_tiles us its (2 ^ n) cells).
Notation T2 := (machine_tiles code tbl).
Notation er := (HostSim.er h1 h2 LR).
Definition moved i m (q : istate * wall) (r : mstate * tilepages) : Prop := on i m (fst q) (fst r) /\ pinned (snd q) (snd r).

Lemma whole_ok i m w s x y : SR i m -> okr pinned x y -> pinned w s -> okr (moved i m) (let* w := x in Ok (i, w)) (let* s := y in Ok (m, s)).
Proof. intros S X _. eapply okr_bind; [exact X|]. intros a b P. apply okr_ok. split; [apply on_refl, S|exact P]. Qed.
Lemma store_ok i m ls ws xs vs : SR i m -> Forall2 (fun a w => match w with ER b p => fst a = b /\ LR i m b (snd a) p | _ => False end) ls ws -> Forall2 amatch xs vs ->
  map fst ls = map (fun x => match x with Words _ => true | Number _ => false end) xs -> on i m (fill i ls xs) (ask_stores m ws vs).
Proof. intros S F V K. exact (stores_ok n cells iss nl ls ws i m xs vs S F V K). Qed.
Lemma read_ok i m w s l x y ls ws : SR i m -> pinned w s -> Forall2 (fun a w => match w with ER b p => fst a = b /\ LR i m b (snd a) p | _ => False end) ls ws ->
  okr (moved i m)
    (let* xs := (if within 0 l 1 then told (w_tile w (w_page w) l (x mod 64) (y mod 64)) (map fst ls) else match told 0 (map fst ls) with Ok _ => Err ERR_OUT_OF_RANGE | o => o end) in Ok (fill i ls xs, w))
    (let* m := tile_store m s l x y ws in Ok (m, s)).
Proof.
  intros S P F. destruct (within 0 l 1) eqn:L.
  - destruct (tile_range w s l x y P ltac:(unfold within in L; lia)) as (k & R & -> & Rd).
    assert (Fx : forall z, 0 <= z < 65536 -> INT_TO_FP z = 4096 * z) by (intros z Hz; rewrite INT_TO_FP_exact by (change (2 ^ 19) with 524288; lia); ring).
    unfold told. destruct F as [|[a la] v ls ws E F]; [exact I|]. destruct v as [z|z1 z2|b pb|z]; try contradiction. cbn [fst snd] in E. destruct E as [<- Lb].
    destruct F as [|[a2 la2] v2 ls ws E2 F].
    + destruct a; cbn [map fst told bind tile_store].
      * unfold Background.bgread_str. rewrite Rd. cbn [bind]. apply okr_ok. split; [|exact P]. apply store_ok; [exact S|constructor; [split; [reflexivity|exact Lb]|constructor]| |reflexivity].
        constructor; [|constructor]. cbn [amatch]. unfold hex_text. cbn [map Machine.bytes_of str_char_copy]. rewrite (digit_hex (k / 4096)), (digit_hex (k / 256 mod 16)), (digit_hex (k / 16 mod 16)), (digit_hex (k mod 16)) by lia. reflexivity.
      * unfold Background.bgread_num. rewrite Rd. cbn [bind]. apply okr_ok. split; [|exact P]. apply store_ok; [exact S|constructor; [split; [reflexivity|exact Lb]|constructor]| |reflexivity].
        constructor; [|constructor]. cbn [amatch]. symmetry. apply Fx, R.
    + destruct v2 as [z|z1 z2|b2 pb2|z]; try contradiction. cbn [fst snd] in E2. destruct E2 as [<- Lb2].
      destruct F as [|[a3 la3] v3 ls ws E3 F]; [cbn [map fst]; destruct a, a2; exact I|]. destruct v3 as [z|z1 z2|b3 pb3|z]; try contradiction. cbn [fst snd] in E3. destruct E3 as [<- Lb3].
      destruct F as [|[a4 la4] v4 ls ws E4 F]; [cbn [map fst]; destruct a, a2, a3; exact I|]. destruct v4 as [z|z1 z2|b4 pb4|z]; try contradiction. cbn [fst snd] in E4. destruct E4 as [<- Lb4].
      destruct F as [|[a5 la5] v5 ls ws E5 F]; [|cbn [map fst]; destruct a, a2, a3, a4; exact I]. cbn [map fst]. destruct a, a2, a3, a4; try exact I. cbn [bind tile_store].
      unfold Background.bgread_parts. rewrite Rd. cbn [bind]. apply okr_ok. split; [|exact P]. apply store_ok; [exact S|repeat (constructor; [split; [reflexivity|assumption]|]); constructor| |reflexivity].
      repeat constructor; cbn [amatch]; symmetry; apply Fx; lia.
  - assert (B : Background.bgread_word s l x y = Err ERR_OUT_OF_RANGE) by (unfold Background.bgread_word; rewrite bad_within, L; reflexivity).
    unfold told. destruct F as [|[a la] v ls ws E F]; [exact I|]. destruct v as [z|z1 z2|b pb|z]; try contradiction. cbn [fst snd] in E. destruct E as [<- Lb].
    destruct F as [|[a2 la2] v2 ls ws E2 F].
    + destruct a; cbn [map fst bind tile_store]; unfold Background.bgread_str, Background.bgread_num; rewrite B; reflexivity.
    + destruct v2 as [z|z1 z2|b2 pb2|z]; try contradiction. cbn [fst snd] in E2. destruct E2 as [<- Lb2].
      destruct F as [|[a3 la3] v3 ls ws E3 F]; [cbn [map fst]; destruct a, a2; exact I|]. destruct v3 as [z|z1 z2|b3 pb3|z]; try contradiction. cbn [fst snd] in E3. destruct E3 as [<- Lb3].
      destruct F as [|[a4 la4] v4 ls ws E4 F]; [cbn [map fst]; destruct a, a2, a3; exact I|]. destruct v4 as [z|z1 z2|b4 pb4|z]; try contradiction. cbn [fst snd] in E4. destruct E4 as [<- Lb4].
      destruct F as [|[a5 la5] v5 ls ws E5 F]; [|cbn [map fst]; destruct a, a2, a3, a4; exact I]. cbn [map fst]. destruct a, a2, a3, a4; try exact I. cbn [bind tile_store].
      unfold Background.bgread_parts. rewrite B. reflexivity.
Qed.
(** with the arguments converted *)
Lemma int_bind i m v w (f : Z -> outcome (istate * wall)) g : SR i m -> er i m v w -> (forall a, okr (moved i m) (f a) (g a)) -> okr (moved i m) (let* a := int i v in f a) (let* a := mint m w in g a).
Proof. intros S E F. eapply okr_bind; [apply (int_ok n cells _ _ _ _ S E)|]. intros a ? <-. apply F. Qed.
Lemma word_bind i m es ws (f : Z -> outcome (istate * wall)) g : SR i m -> Forall2 (er i m) es ws ->
  (forall k t, Background.tiledata t = Ok k -> okr (moved i m) (f k) (g t)) -> (forall t, Background.tiledata t = Err ERR_OUT_OF_RANGE -> g t = Err ERR_OUT_OF_RANGE) ->
  okr (moved i m) (let* k := tile_word i es in f k) (let* t := tile_args m ws in g t).
Proof.
  intros S F G B. pose proof (word_ok n cells i m es ws S F) as W. destruct (tile_word i es) as [k|e|] eqn:We; cbn [bind]; [| |exact I].
  - destruct W as (t & -> & T). cbn [bind]. apply G, T.
  - destruct W as (t & -> & T). apply word_err in We. subst e. cbn [bind okr]. apply (B t T).
Qed.
Lemma tile_do_ok c i m es ws w s : SR i m -> Forall2 (er i m) es ws -> pinned w s -> okr (moved i m) (tile_ido c i es w) (tile_do c m ws s).
Proof.
  intros S F P. unfold tile_ido, tile_do.
  change Tiles.CMD_BGPAGE with CMD_BGPAGE. change Tiles.CMD_BGCLR with CMD_BGCLR. change Tiles.CMD_BGPUT with CMD_BGPUT. change Tiles.CMD_BGFILL with CMD_BGFILL. change Tiles.CMD_BGCOPY with CMD_BGCOPY.
  assert (Done : forall x y, okr pinned x y -> okr (moved i m) (let* w := x in Ok (i, w)) (let* s := y in Ok (m, s))) by (intros x y X; apply (whole_ok i m w s); assumption).
  destruct (c =? CMD_BGPAGE).
  { destruct F as [|e v es ws E F]; [exact I|]. destruct F; [|exact I]. apply int_bind; [exact S|exact E|]. intros p. pose proof (Done _ _ (page_pinned w s p P)) as D. destruct (within 0 p 1); exact D. }
  destruct (c =? CMD_BGCLR).
  { destruct F as [|e v es ws E F].
    - apply okr_ok. split; [apply on_refl, S|]. unfold Background.cmd_bgclr. cbn [snd]. apply (clear_pinned (stick w 0 _ _)); [apply clear_pinned; [exact P|left; reflexivity]|right; reflexivity].
    - destruct F; [|exact I]. apply int_bind; [exact S|exact E|]. intros l. apply Done. unfold layer_in, Background.cmd_bgclr. rewrite bad_within. destruct (within 0 l 1) eqn:L; cbn [negb]; [|reflexivity].
      apply okr_ok. apply clear_pinned; [exact P|apply in_layer, L]. }
  destruct (c =? CMD_BGPUT).
  { destruct F as [|e v es ws E F]; [exact I|]. destruct F as [|e2 v2 es ws E2 F]; [exact I|]. destruct F as [|e3 v3 es ws E3 F]; [exact I|].
    apply int_bind; [exact S|exact E|]. intros l. apply int_bind; [exact S|exact E2|]. intros x. apply int_bind; [exact S|exact E3|]. intros y.
    apply word_bind; [exact S|exact F| |]; [intros k t T; apply Done, put_pinned; assumption|]. intros t T. unfold Background.cmd_bgput. rewrite T. destruct (Background.bad_layer l); [|reflexivity]. reflexivity. }
  destruct (c =? CMD_BGFILL).
  { destruct F as [|e v es ws E F]; [exact I|]. destruct F as [|e2 v2 es ws E2 F]; [exact I|]. destruct F as [|e3 v3 es ws E3 F]; [exact I|]. destruct F as [|e4 v4 es ws E4 F]; [exact I|]. destruct F as [|e5 v5 es ws E5 F]; [exact I|].
    apply int_bind; [exact S|exact E|]. intros l. apply int_bind; [exact S|exact E2|]. intros x. apply int_bind; [exact S|exact E3|]. intros y. apply int_bind; [exact S|exact E4|]. intros u. apply int_bind; [exact S|exact E5|]. intros z.
    apply word_bind; [exact S|exact F| |]; [intros k t T; apply Done, fill_pinned; assumption|]. intros t T. unfold Background.cmd_bgfill. rewrite T. destruct (Background.bad_layer l); [|reflexivity]. reflexivity. }
  destruct (c =? CMD_BGCOPY).
  { destruct F as [|e v es ws E F]; [exact I|]. destruct F as [|e2 v2 es ws E2 F]; [exact I|]. destruct F as [|e3 v3 es ws E3 F]; [exact I|]. destruct F as [|e4 v4 es ws E4 F]; [exact I|]. destruct F as [|e5 v5 es ws E5 F]; [exact I|].
    destruct F as [|e6 v6 es ws E6 F]; [exact I|]. destruct F as [|e7 v7 es ws E7 F]; [exact I|]. destruct F as [|e8 v8 es ws E8 F]; [|exact I].
    apply int_bind; [exact S|exact E|]. intros l. apply int_bind; [exact S|exact E2|]. intros x. apply int_bind; [exact S|exact E3|]. intros y. apply int_bind; [exact S|exact E4|]. intros u. apply int_bind; [exact S|exact E5|]. intros z.
    apply int_bind; [exact S|exact E6|]. intros a. apply int_bind; [exact S|exact E7|]. intros b. apply Done, copy_pinned, P. }
  destruct F as [|e v es ws E F]; [exact I|]. destruct F as [|e2 v2 es ws E2 F]; [exact I|]. destruct F as [|e3 v3 es ws E3 F]; [exact I|].
  apply int_bind; [exact S|exact E|]. intros l. apply int_bind; [exact S|exact E2|]. intros x. apply int_bind; [exact S|exact E3|]. intros y.
  pose proof (places_ok n cells Hn iss nl Hl i m _ _ F) as Pl. destruct (places es) as [ls|e0|]; cbn [bind]; [|contradiction|exact I]. destruct Pl as (_ & Pl & _).
  apply read_ok; assumption.
Qed.
Lemma tile_cmds c s1 s2 vs ws : ST s1 s2 -> Forall2 (HostSim.er T1 T2 LT s1 s2) vs ws ->
  match tile_icmd c vs s1, tile_cmd c ws s2 with
  | Some x, Some y => okr (on_state T1 T2 ST LT s1 s2) x y
  | None, None => True
  | _, _ => False
  end.
Proof.
  destruct s1 as [[[[i d] todo] b] w], s2 as [[[[m r] ks] g] s]. intros [[[[S Rd] P] Pc] Pn] F. cbn [fst snd] in S, Rd, P, Pc, Pn. unfold tile_icmd, tile_cmd. rewrite tiles_same. destruct (tiling c); [|exact I].
  assert (F1 : Forall2 (er i m) vs ws) by exact F.
  eapply okr_bind; [apply (tile_do_ok c i m vs ws w s S F1 Pn)|]. intros [i' w'] [m' s'] [[S' X] Pn']. cbn [fst snd] in S', X, Pn'. apply okr_ok.
  split; [split; [split; [split; [split; [exact S'|exact Rd]|exact P]|exact Pc]|exact Pn']|]. intros bb l' p L. apply X, L.
Qed.
(** what corresponds *)
Definition trel (x : draw_istate * wall) (y : draw_state * tilepages) : Prop := dr (fst x) (fst y) /\ pinned (snd x) (snd y).
Definition tlrel (x : draw_istate * wall) (y : draw_state * tilepages) (b : bool) (l : iloc) (p : mloc) : Prop := dlr (fst x) (fst y) b l p.
Lemma tiles_agrees : hosts_agree T1 T2 trel tlrel ideal_tiles_text titext.
Proof. exact (attach_agrees G1 G2 dr dlr ideal_draw_text drtext draw_agrees2 wall tilepages pinned tile_icmd tile_cmd tile_cmds). Qed.
End Both.
