(** Palettes: the model's colours against the ideal ones, and the machine with palettes against the ideal computer. *)
From Coq Require Import String Ascii.
From Verif Require Import Base BaseLemmas Labels Link Memory Strs StrSpec Tokens ExprSpec NumText NumTextSpec Bytecode BytecodeSpec BytecodeProofs Runner RunnerSpec StmtSpec ExecProofs FlowSpec ForSpec ProgSpec ProgProofs ProgSim ProgEnd.
From Verif Require Import Vars Codes StrProofs Data DataSpec Machine Ideal IdealVal IdealOps HostSim MachineSim MachineHost HostData MachineData IdealData DataHost.
From Verif Require Import LineInput Ask IdealAsk AskProofs AskHost Graphics Draw IdealDraw DrawProofs DrawHost Tiles IdealTiles TilesProofs TilesHost Colours IdealColours.
From Verif Require Background BackgroundProofs GraphicsSpec.
From Verif Require Import MemorySpec Resources ResourcesSpec ResourcesProps ChrCol ChrColProps.
Ltac Zify.zify_post_hook ::= Z.div_mod_to_equations.
Open Scope Z_scope.

Lemma colours_same c : colours c = colouring c.
Proof. unfold colours, colouring, within, Colours.CMD_COLREAD, Colours.CMD_COLSET. lia. Qed.
Lemma text_eq_ok a b : reflect (a = b) (text_eq a b).
Proof. unfold text_eq. destruct (list_eq_dec Z.eq_dec a b); constructor; assumption. Qed.
Lemma spell_name k : 0 <= k <= 2 -> spells (SChar (palette_name k)) (palette_name k).
Proof. intros H. apply spell. assert (k = 0 \/ k = 1 \/ k = 2) as [-> |[-> | ->]] by lia; reflexivity. Qed.
Lemma name_palette k s : 0 <= k <= 2 -> palette (mkPages s s s) (palette_name k) (3 * s + k).
Proof. intros H. assert (k = 0 \/ k = 1 \/ k = 2) as [-> |[-> | ->]] by lia; constructor. Qed.
(** what COLREAD tells of an entry *)
Lemma read_entry p name i r n s : page_ok p -> palette p name i -> spells s name -> length (col r i) = 256%nat -> 0 <= FP_TO_INT n <= 255 ->
  cmd_colread p r s n = let c := nth (Z.to_nat (FP_TO_INT n)) (col r i) 0 in Ok (INT_TO_FP (col_r c), INT_TO_FP (col_g c), INT_TO_FP (col_b c)).
Proof.
  intros Hp P Hs L Hn. destruct (palette_col p name s i Hp P Hs) as (E & Hi). unfold cmd_colread. replace (_ || _) with false by lia. rewrite E. cbn [bind].
  rewrite (nth_error_nth' _ 0) by lia. reflexivity.
Qed.
Lemma whole_fp n : FP_TO_INT (4096 * n) = n. Proof. unfold FP_TO_INT. lia. Qed.
(** a name and the pages chosen *)
Definition at_pages (p : pages) (b : board) (w : wall) : Prop := page_ok p /\ w_page w = bg_page p /\ sp_page p = 0 /\ b_screen b = grp_screen p.
Lemma palette_of_ok p b w t : at_pages p b w -> textb t = true ->
  match palette_of b w t with
  | Ok (k, s) => 0 <= k <= 2 /\ 0 <= s <= 1 /\ palette p t (3 * s + k)
  | Err e => e = ERR_INVALID_RESOURCE_TYPE /\ get_col_resource p (SChar t) = Err ERR_INVALID_RESOURCE_TYPE
  | UB => True
  end.
Proof.
  intros ((P0 & P1 & P2) & B & S & G) T. unfold palette_of. destruct (text_eq_ok t (palette_name 0)) as [->|N0].
  { split; [lia|]. split; [lia|]. rewrite B. constructor. }
  destruct (text_eq_ok t (palette_name 1)) as [->|N1].
  { split; [lia|]. split; [lia|]. rewrite <- S. constructor. }
  destruct (text_eq_ok t (palette_name 2)) as [->|N2].
  { split; [lia|]. split; [lia|]. rewrite G. constructor. }
  split; [reflexivity|]. apply (palette_none p t); [repeat split; assumption| |apply spell, T]. intros i Q. inversion Q; subst; [apply N0|apply N1|apply N2]; reflexivity.
Qed.
Lemma hexits_hex t ds : hexits t = Some ds -> Forall is_hex t /\ ds = map hexv t.
Proof.
  revert ds. induction t as [|c t IH]; intros ds; cbn [hexits]; [intros [= <-]; split; [constructor|reflexivity]|].
  destruct (hexit c) as [d|] eqn:D; [|discriminate]. destruct (hexits t) as [ds'|]; [|discriminate]. intros [= <-]. destruct (IH ds' eq_refl) as [F ->].
  change (hex_value c = Some d) in D. split; [constructor; [exists d; exact D|exact F]|]. cbn [map]. f_equal. unfold hexv. rewrite D. reflexivity.
Qed.
Lemma hexits_none t : hexits t = None -> ~ Forall is_hex t.
Proof.
  induction t as [|c t IH]; cbn [hexits]; [discriminate|]. intros H F. inversion F as [|? ? [d D] F']; subst. change (hexit c = Some d) in D. rewrite D in H.
  destruct (hexits t); [discriminate|]. apply IH; auto.
Qed.
Lemma byte_text t : textb t = true -> byte_string (SChar t) t.
Proof. intros T. split; [apply spell, T|intros w W; discriminate W]. Qed.
(** COLSET *)
Lemma set_ok p b w h r t n s : at_pages p b w -> dyed h r -> textb t = true -> textb s = true ->
  okr dyed
    (if within 0 (n / 4096) 255 then let* q := palette_of b w t in match mixed s with Some v => Ok (dip h (fst q) (snd q) (n / 4096) v) | None => Err ERR_ILLEGAL_FUNCTION_CALL end else Err ERR_OUT_OF_RANGE)
    (match cmd_colset p r (SChar t) n (SChar s) with (r, Done) => Ok r | (_, Raised e) => Err e | (_, Crash) => UB end).
Proof.
  intros Pg [Ls D] Ht Hs. destruct (within 0 (n / 4096) 255) eqn:Rn; unfold within in Rn.
  2:{ unfold cmd_colset, FP_TO_INT. replace (_ || _) with true by lia. reflexivity. }
  pose proof (palette_of_ok p b w t Pg Ht) as Q. destruct (palette_of b w t) as [[k sc]|e|]; cbn [bind fst snd]; [| |exact I].
  2:{ destruct Q as [-> E]. unfold cmd_colset, FP_TO_INT. replace (_ || _) with false by lia. rewrite E. reflexivity. }
  destruct Q as (Hk & Hsc & P). pose proof Pg as (Hp & _). destruct (palette_col p t (SChar t) _ Hp P (spell t Ht)) as (E & Hi).
  destruct (mixed s) as [v|] eqn:M.
  - unfold mixed in M. destruct (hexits s) as [ds|] eqn:H; [|discriminate M]. destruct (hexits_hex _ _ H) as [F Ed].
    destruct s as [|d0 [|d1 [|d2 [|d3 [|d4 [|d5 [|]]]]]]]; subst ds; cbn [map] in M; try discriminate M. injection M as <-.
    destruct (C40_col_roundtrip p t (SChar t) _ r n (SChar [d0; d1; d2; d3; d4; d5]) d0 d1 d2 d3 d4 d5 Hp P (spell t Ht) (Ls _ Hi) ltac:(unfold FP_TO_INT; lia) (byte_text _ Hs) F)
      as (r' & R' & G' & B' & Es & Er & -> & -> & -> & Eo & El & _).
    rewrite Es. apply okr_ok. assert (Ls' : forall j, 0 <= j < 6 -> length (col r' j) = 256%nat) by (intros j Hj; rewrite El; apply Ls, Hj). split; [exact Ls'|].
    rewrite (read_entry p t _ r' n (SChar t) Hp P (spell t Ht) (Ls' _ Hi)) in Er by (unfold FP_TO_INT; lia). cbv zeta in Er.
    intros k' s' n' Hk' Hs' Hn'. pose proof (D k' s' n' Hk' Hs' Hn') as Dk. assert (Pk : page_ok (mkPages s' s' s')) by (unfold page_ok; cbn; lia).
    rewrite (read_entry _ _ (3 * s' + k') r _ _ Pk (name_palette k' s' Hk') (spell_name k' Hk') (Ls (3 * s' + k') ltac:(lia))) in Dk by (rewrite whole_fp; lia).
    rewrite (read_entry _ _ (3 * s' + k') r' _ _ Pk (name_palette k' s' Hk') (spell_name k' Hk') (Ls' (3 * s' + k') ltac:(lia))) by (rewrite whole_fp; lia). rewrite whole_fp in *. cbv zeta in *. unfold dip.
    destruct ((k' =? k) && (s' =? sc) && (n' =? n / 4096)) eqn:X.
    + assert (k' = k /\ s' = sc /\ n' = n / 4096) as (-> & -> & ->) by lia. change (FP_TO_INT n) with (n / 4096) in Er. rewrite Er. reflexivity.
    + rewrite Eo; [exact Dk|]. unfold FP_TO_INT. lia.
  - unfold cmd_colset, FP_TO_INT. replace (_ || _) with false by lia. rewrite E. rewrite (spells_len _ _ (spell s Hs)).
    destruct (Z.eqb_spec (zlen s) 6) as [L|L]; [|reflexivity]. cbn [negb].
    destruct (col_check_spec 6 (SChar s) s 0 (byte_text s Hs) ltac:(lia) ltac:(lia)) as (_ & C). cbn [skipn Z.to_nat] in C.
    rewrite firstn_all2 in C by (unfold zlen in L; lia). rewrite C; [reflexivity|].
    destruct (hexits s) as [ds|] eqn:H; [|apply hexits_none, H]. destruct (hexits_hex _ _ H) as [F Ed]. unfold mixed in M. rewrite H in M. subst ds. unfold zlen in L.
    destruct s as [|d0 [|d1 [|d2 [|d3 [|d4 [|d5 [|]]]]]]]; cbn [length map] in *; try lia. discriminate M.
Qed.
(** COLREAD *)
Lemma tell_ok p b w h r t n : at_pages p b w -> dyed h r -> textb t = true ->
  okr eq (if within 0 (n / 4096) 255 then let* q := palette_of b w t in Ok (let '(x, y, z) := h (fst q) (snd q) (n / 4096) in (4096 * x, 4096 * y, 4096 * z)) else Err ERR_OUT_OF_RANGE)
    (cmd_colread p r (SChar t) n).
Proof.
  intros Pg [Ls D] Ht. destruct (within 0 (n / 4096) 255) eqn:Rn; unfold within in Rn.
  2:{ unfold cmd_colread, FP_TO_INT. replace (_ || _) with true by lia. reflexivity. }
  pose proof (palette_of_ok p b w t Pg Ht) as Q. destruct (palette_of b w t) as [[k sc]|e|]; cbn [bind fst snd]; [| |exact I].
  2:{ destruct Q as [-> E]. unfold cmd_colread, FP_TO_INT. replace (_ || _) with false by lia. rewrite E. reflexivity. }
  destruct Q as (Hk & Hsc & P). pose proof Pg as (Hp & _). destruct (palette_col p t (SChar t) _ Hp P (spell t Ht)) as (E & Hi).
  rewrite (read_entry p t _ r n (SChar t) Hp P (spell t Ht) (Ls _ Hi)) by (unfold FP_TO_INT; lia).
  pose proof (D k sc (n / 4096) Hk Hsc ltac:(lia)) as Dk. assert (Pk : page_ok (mkPages sc sc sc)) by (unfold page_ok; cbn; lia).
  rewrite (read_entry _ _ _ _ _ _ Pk (name_palette k sc Hk) (spell_name k Hk)) in Dk by (rewrite ?whole_fp; try lia; apply Ls; lia). rewrite whole_fp in Dk. cbv zeta in *.
  change (FP_TO_INT n) with (n / 4096). rewrite Dk. apply okr_ok. reflexivity.
Qed.

Section Both.
Variables n cells : Z.
Hypothesis Hn : 0 <= n <= 18.
Variable us : list statement.
Variable iss : list (list BytecodeSpec.instr).
Variable its : list (list (list Z)).
Variable tbl : Labels.labels.
Variable nl : Z.
Hypothesis Hl : 0 <= nl.
Hypothesis Uo : Forall uok us.
Hypothesis Uc : ucodes None us = Ok iss.
Hypothesis Dl : Forall2 data_line us its.
Hypothesis Tb : load (init_labels (2 ^ nl)) (defs_of 0 us iss) = Some tbl.
Notation code := (encode (concat iss)).
Hypothesis Sz : Z.of_nat (length code) < 16777216.
Notation h1 := (ideal (2 ^ n) cells).
Notation h2 := machine.
Notation SR := (MachineSim.SR n cells).
Notation LR := (MachineSim.LR n).
Notation on := (HostSim.on h1 h2 SR LR).
Notation T1 := (ideal_tiles us its (2 ^ n) cells).
Notation T2 := (machine_tiles code tbl).
Notation tr := (trel n cells iss).
Notation tlr := (tlrel n).
Lemma tiles_agrees2 : hosts_agree T1 T2 tr tlr ideal_tiles_text titext.
Proof. exact (tiles_agrees n cells Hn us iss its tbl nl Hl Uo Uc Dl Tb Sz). Qed.
Notation SC := (R' T1 T2 tr paint banks dyed colour_icmd colour_cmd).
Notation LC := (LR' T1 T2 tlr paint banks colour_icmd colour_cmd).
Notation C1 := (ideal_colours us its (2 ^ n) cells).
Notation C2 := (machine_colours code tbl).
Notation er := (HostSim.er h1 h2 LR).
Definition tinted i m (q : istate * paint) (r : mstate * banks) : Prop := on i m (fst q) (fst r) /\ dyed (snd q) (snd r).
Lemma colour_do_ok c i m es ws b w h p r : SR i m -> Forall2 (er i m) es ws -> at_pages p b w -> dyed h r -> okr (tinted i m) (colour_ido c i es b w h) (colour_do c m ws p r).
Proof.
  intros S F Pg D. unfold colour_ido, colour_do. change Colours.CMD_COLSET with CMD_COLSET. destruct (c =? CMD_COLSET).
  - destruct F as [|e v es ws E F]; [exact I|]. destruct F as [|e2 v2 es ws E2 F]; [exact I|]. destruct F as [|e3 v3 es ws E3 F]; [exact I|]. destruct F; [|exact I].
    eapply okr_bind; [apply (txt_ok n cells _ _ _ _ S E)|]. intros t ? [-> Ht]. unfold int.
    pose proof (num_ok n cells _ _ _ _ S E2) as Q. destruct (num i e2) as [a|x|]; cbn [okr bind] in *; [| |exact I].
    2:{ rewrite Q. reflexivity. }
    destruct Q as (a' & -> & [<- Fa]). cbn [bind].
    eapply okr_bind; [apply (txt_ok n cells _ _ _ _ S E3)|]. intros s ? [-> Hs].
    pose proof (set_ok p b w h r t a s Pg D Ht Hs) as G. destruct (within 0 (a / 4096) 255).
    + destruct (palette_of b w t) as [q|x|]; cbn [bind] in *; [| |exact I].
      * destruct (mixed s) as [v0|]; cbn [okr] in G.
        -- destruct G as (r' & Er & Dr). destruct (cmd_colset p r (SChar t) a (SChar s)) as [r1 [|x|]]; try discriminate Er. injection Er as ->. apply okr_ok. split; [apply on_refl, S|exact Dr].
        -- destruct (cmd_colset p r (SChar t) a (SChar s)) as [r1 [|x|]]; try discriminate G. injection G as ->. reflexivity.
      * cbn [okr] in G. destruct (cmd_colset p r (SChar t) a (SChar s)) as [r1 [|x'|]]; try discriminate G. injection G as ->. reflexivity.
    + cbn [okr] in G. destruct (cmd_colset p r (SChar t) a (SChar s)) as [r1 [|x|]]; try discriminate G. injection G as ->. reflexivity.
  - destruct F as [|e v es ws E F]; [exact I|]. destruct F as [|e2 v2 es ws E2 F]; [exact I|]. destruct F as [|e3 v3 es ws E3 F]; [exact I|].
    destruct F as [|e4 v4 es ws E4 F]; [exact I|]. destruct F as [|e5 v5 es ws E5 F]; [exact I|]. destruct F; [|exact I].
    pose proof (places_ok n cells Hn iss nl Hl i m _ _ (Forall2_cons _ _ E3 (Forall2_cons _ _ E4 (Forall2_cons _ _ E5 (Forall2_nil _))))) as Pl.
    match type of Pl with context [places ?l] => match goal with |- context [places ?l2] => change (places l2) with (places l); destruct (places l) as [ls|x|] end end; cbn [bind]; [|contradiction|exact I]. destruct Pl as (_ & Pl & _).
    inversion Pl as [|[b3 l3] ? ls3 ? Q3 Pl3]; subst. inversion Pl3 as [|[b4 l4] ? ls4 ? Q4 Pl4]; subst. inversion Pl4 as [|[b5 l5] ? ls5 ? Q5 Pl5]; subst. inversion Pl5; subst.
    cbn [map fst]. destruct v3 as [|? ?|c3 p3|], v4 as [|? ?|c4 p4|], v5 as [|? ?|c5 p5|]; try contradiction. cbn [fst] in Q3, Q4, Q5. destruct Q3 as [<- L3], Q4 as [<- L4], Q5 as [<- L5].
    destruct b3, b4, b5; try exact I.
    eapply okr_bind; [apply (txt_ok n cells _ _ _ _ S E)|]. intros t ? [-> Ht]. unfold int.
    pose proof (num_ok n cells _ _ _ _ S E2) as Q. destruct (num i e2) as [a|x|]; cbn [okr bind] in *; [| |exact I].
    2:{ rewrite Q. reflexivity. }
    destruct Q as (a' & -> & [<- Fa]). cbn [bind].
    pose proof (tell_ok p b w h r t a Pg D Ht) as G. destruct (within 0 (a / 4096) 255).
    + destruct (palette_of b w t) as [q|x|]; cbn [bind] in *; [| |exact I].
      * cbn [okr] in G. destruct G as (y & -> & <-). cbn [bind]. destruct (h (fst q) (snd q) (a / 4096)) as [[x1 x2] x3]. apply okr_ok. split; [|exact D].
        apply (stores_ok n cells iss nl); [exact S|repeat (constructor; [split; [reflexivity|assumption]|]); constructor| |reflexivity]. repeat constructor; cbn [amatch]; reflexivity.
      * cbn [okr] in G. rewrite G. reflexivity.
    + cbn [okr] in G. rewrite G. reflexivity.
Qed.
Lemma colour_cmds c s1 s2 vs ws : SC s1 s2 -> Forall2 (HostSim.er C1 C2 LC s1 s2) vs ws ->
  match colour_icmd c vs s1, colour_cmd c ws s2 with
  | Some x, Some y => okr (on_state C1 C2 SC LC s1 s2) x y
  | None, None => True
  | _, _ => False
  end.
Proof.
  destruct s1 as [[[[[i d] todo] b] w] h], s2 as [[[[[m k] ks] g] s] r]. intros [[[[[S Rd] P] Pc] Pn] Dy] F. cbn [fst snd] in S, Rd, P, Pc, Pn, Dy. unfold colour_icmd, colour_cmd. rewrite colours_same. destruct (colouring c); [|exact I].
  assert (F1 : Forall2 (er i m) vs ws) by exact F.
  assert (Pg : at_pages (pages_of (((((m, k), ks), g), s))) b w).
  { pose proof Pc as (Wg & Sg & _). pose proof Pn as (Wf & _ & Wp & _). unfold at_pages, pages_of, page_ok. cbn [fst snd bg_page sp_page grp_screen]. destruct Wg as (Wg & _). destruct Wf as (Wf & _).
    split; [|split; [exact Wp|split; [reflexivity|exact Sg]]]. split; [lia|]. split; [left; reflexivity|lia]. }
  eapply okr_bind; [apply (colour_do_ok c i m vs ws b w h _ r S F1 Pg Dy)|]. intros [i' h'] [m' r'] [[S' X] Dy']. cbn [fst snd] in S', X, Dy'. apply okr_ok.
  split; [split; [split; [split; [split; [split; [exact S'|exact Rd]|exact P]|exact Pc]|exact Pn]|exact Dy']|]. intros bb l' p L. apply X, L.
Qed.
(** what corresponds *)
Definition crel (x : tile_istate * paint) (y : tile_state * banks) : Prop := tr (fst x) (fst y) /\ dyed (snd x) (snd y).
Definition clrel (x : tile_istate * paint) (y : tile_state * banks) (b : bool) (l : iloc) (p : mloc) : Prop := tlr (fst x) (fst y) b l p.
Lemma colours_agrees : hosts_agree C1 C2 crel clrel ideal_colours_text cotext.
Proof. exact (attach_agrees T1 T2 tr tlr ideal_tiles_text titext tiles_agrees2 paint banks dyed colour_icmd colour_cmd colour_cmds). Qed.
End Both.
