(** The machine agrees with the ideal computer, operation by operation *)
From Verif Require Import Base BaseLemmas Hash HashProofs Tokens Bytecode Runner Codes Vars VarsSpec VarsProofs VarsSim VarsRun Num NumSpec Strs StrFuncs StrSpec StrProofs NumText Console ConsoleSpec ConsoleProofs Machine Ideal IdealOps IdealVal HostSim MachineSim.
Ltac Zify.zify_post_hook ::= Z.div_mod_to_equations.

Section Host.
Variables n cells : Z.
Notation h1 := (ideal (2 ^ n) cells).
Notation h2 := machine.
Notation SR := (SR n cells).
Notation LR := (LR n).
Notation er := (er h1 h2 LR).
Notation on := (on h1 h2 SR LR).
Notation on_value := (on_value h1 h2 SR LR).
Notation on_place := (on_place h1 h2 SR LR).
Notation on_state := (on_state h1 h2 SR LR).

Lemma on_same i m : SR i m -> on i m i m. Proof. apply on_refl. Qed.
Lemma on_put i m b l p x v : SR i m -> LR i m b l p -> vrel (texts m) x v -> on i m (put i l x) (mput m p v).
Proof. intros S L V. destruct (put_rel _ _ _ _ _ _ _ _ _ S L V) as (A & B & C). split; [exact A|]. exact (kept_ext n _ _ _ _ B C). Qed.
Lemma chkn_ok z : okr (fun a b => a = b /\ fits a = true) (chkn z) (Ok z).
Proof. unfold chkn. destruct (fits z) eqn:E; [|exact I]. apply okr_ok. auto. Qed.
Lemma num_ok i m v w : SR i m -> er i m v w -> okr (fun a b => a = b /\ fits a = true) (num i v) (mnum m w).
Proof.
  intros S E. destruct v as [x|c x|[] l|x], w as [y|d y|[] p|y]; cbn [HostSim.er] in E; try contradiction; try exact I; try (destruct E as [? _]; discriminate); cbn [num mnum].
  - subst. apply chkn_ok.
  - destruct E as [_ L]. pose proof (get_rel _ _ _ _ _ _ _ S L) as V. unfold mgetn. cbn [Loc ideal machine] in *. destruct (get i l), (mget m p); cbn [vrel] in V; try contradiction; try exact I. subst. apply chkn_ok.
Qed.
Lemma chkt_ok z : okr (fun a b => b = SChar a /\ textb a = true) (chkt z) (Ok (SChar z)).
Proof. unfold chkt. destruct (textb z) eqn:E; [|exact I]. apply okr_ok. auto. Qed.
Lemma txt_ok i m v w : SR i m -> er i m v w -> okr (fun a b => b = SChar a /\ textb a = true) (txt i v) (mstr m w).
Proof.
  intros S E. destruct v as [x|c x|[] l|x], w as [y|d y|[] p|y]; cbn [HostSim.er] in E; try contradiction; try exact I; try (destruct E as [? _]; discriminate); cbn [txt mstr].
  - destruct E as [-> ->]. destruct d; [exact I|]. apply chkt_ok.
  - destruct E as [_ L]. pose proof (get_rel _ _ _ _ _ _ _ S L) as V. unfold mtext. cbn [Loc ideal machine] in *. destruct (get i l), (mget m p); cbn [vrel] in V; try contradiction; try exact I. destruct V as [_ ->]. apply chkt_ok.
Qed.
Lemma kind_ok i m v w : er i m v w -> match kind v with Some true => is_num w = false /\ is_str w = true | Some false => is_num w = true /\ is_str w = false | None => True end.
Proof.
  intros E. destruct v as [x|c x|[] l|x], w as [y|d y|[] p|y]; cbn [HostSim.er] in E; try contradiction; try exact I; try (destruct E as [? _]; discriminate); cbn [kind is_num is_str]; auto.
  destruct E as [-> _]. destruct d; [exact I|auto].
Qed.
Lemma retn_ok i m x y : SR i m -> okr eq x y -> okr (on_value i m) (retn i x) (pushn m y).
Proof. intros S E. unfold retn, pushn. eapply okr_bind; [exact E|]. intros a ? <-. apply okr_ok. split; [apply on_same, S|reflexivity]. Qed.
Lemma rett_ok i m x y : SR i m -> okr eq x (strout y) -> okr (on_value i m) (rett i x) (pushs m y).
Proof.
  intros S E. unfold rett, pushs, strout in *. destruct x as [t|e|]; cbn [bind okr] in *; [|destruct y; cbn in *; congruence|exact I].
  destruct E as (b & E & ->). destruct y as [s|e|]; cbn [bind] in *; try discriminate. injection E as <-. eexists. split; [reflexivity|]. split; [apply on_same, S|split; reflexivity].
Qed.
Ltac use_num S E := eapply okr_bind; [apply (num_ok _ _ _ _ S E)|]; let a := fresh "a" in let F := fresh "F" in intros a ? [<- F].
Ltac use_txt S E := eapply okr_bind; [apply (txt_ok _ _ _ _ S E)|]; let a := fresh "t" in let F := fresh "F" in intros a ? [-> F].

(** ** variables *)
Lemma rev_last {A} (w : list A) c d r : rev w = c :: d :: r -> w = rev (d :: r) ++ [c].
Proof. intros E. rewrite <- (rev_involutive w), E. reflexivity. Qed.
Lemma name_ok w nm b : name_of w = (nm, b) -> var_name w = (nm, if b then 2 else 1).
Proof.
  unfold name_of, var_name. destruct (rev w) as [|c [|d r]] eqn:E.
  - assert (w = []) by (rewrite <- (rev_involutive w), E; reflexivity). subst. intros H. injection H as <- <-. reflexivity.
  - assert (w = [c]) by (rewrite <- (rev_involutive w), E; reflexivity). subst. intros H. injection H as <- <-. cbn [length]. rewrite Bool.andb_false_r. reflexivity.
  - pose proof (rev_last _ _ _ _ E) as W. set (u := rev (d :: r)) in *. assert (Lu : (1 <= length u)%nat) by (subst u; rewrite rev_length; cbn; lia).
    subst w. rewrite app_length. cbn [length]. replace (length u + 1 - 1)%nat with (length u) by lia. rewrite app_nth2, Nat.sub_diag, firstn_app, Nat.sub_diag, firstn_all by lia. cbn [nth firstn]. rewrite app_nil_r.
    replace (length u + 1 =? 1)%nat with false by (symmetry; apply Nat.eqb_neq; lia). rewrite Bool.andb_true_r. destruct (c =? 36); intros H; injection H as <- <-; reflexivity.
Qed.
Lemma legal_ok w : legal w = true -> legal_name w.
Proof.
  unfold legal, legal_name. rewrite !Bool.andb_true_iff, forallb_forall, Forall_forall. intros [[A B] C]. apply Nat.leb_le in A, B. split; [lia|]. intros x H. specialize (C x H). lia.
Qed.
Lemma know_ok tx i s k : Rv tx i s ->
  match touch (2 ^ n) s k with
  | Some s' => exists i', know (2 ^ n) i k = Ok i' /\ Rv tx i' s' /\ page i' = page i /\ tables i' = tables i /\ ar s' = ar s
  | None => know (2 ^ n) i k = Err ERR_OUT_OF_MEMORY
  end.
Proof.
  intros [A B C D]. unfold touch, know. rewrite A. destruct (mem k (known s)); [exists i; repeat split; auto|]. replace (Z.of_nat (length (known s)) >=? 2 ^ n) with (2 ^ n <=? Z.of_nat (length (known s))) by lia.
  destruct (2 ^ n <=? _); [reflexivity|]. eexists. repeat split; cbn [names room vals tables known used sc ar]; auto; congruence.
Qed.
Lemma var_ok r i m : SR i m -> okr (on_place i m) (ivar (2 ^ n) r i) (mvar r m).
Proof.
  intros SS. destruct r as [[] w|]; try exact I. cbn [ivar mvar]. destruct (name_of w) as [nm b] eqn:E. rewrite (name_ok _ _ _ E). destruct (legal nm) eqn:L; [|exact I].
  destruct SS as (s & S & V & C & Tx). set (t := if b then 2 else 1) in *. assert (Ht : t = 1 \/ t = 2) by (subst t; destruct b; auto).
  pose proof (get_var_sim n cells false (mvars m) s nm t S (legal_ok _ L) ltac:(lia)) as G. pose proof (know_ok _ _ _ (nm, t) V) as K.
  destruct (touch (2 ^ n) s (nm, t)) as [s1|].
  - destruct G as (v1 & p & G & S1 & Hp & Kp & _). destruct K as (i1 & K & V1 & Pg & Tb & _). rewrite G, K. cbn [bind]. apply okr_ok. split; [subst t; destruct b; reflexivity|].
    split; [split|].
    + exists s1. cbn [mvars texts mcon]. rewrite Pg. auto.
    + refine (kept_ext n _ _ _ _ _ _); [apply (get_var_kept _ _ _ _ _ _ (tab_len _ _ (s_tab _ _ _ _ _ S)) G Hp)|apply tkept_eq, Tb].
    + cbn [MachineSim.LR mvars snd]. auto.
  - destruct G as [v1 G]. rewrite G, K. reflexivity.
Qed.
Lemma zero_rel tx (b : bool) : (exists r, tx = [] :: r) -> vrel tx (nothing b) (zero (if b then 2 else 1)).
Proof. intros [r ->]. destruct b; cbn; [|reflexivity]. unfold empty_handle. split; [lia|reflexivity]. Qed.
Lemma Forall2_rev' {A B} (P : A -> B -> Prop) l m : Forall2 P l m -> Forall2 P (rev l) (rev m).
Proof. induction 1; cbn [rev]; [constructor|]. apply Forall2_app; [assumption|]. constructor; [assumption|constructor]. Qed.
Definition index_rel (p : Z * option Z) (q : Z * Z) : Prop :=
  q = (u32 (fst p), idx2 (snd p)) /\ basic_int (fst p) /\ match snd p with Some j => basic_int j | None => True end.
Lemma one_index i m vs ws : SR i m -> Forall2 (er i m) vs ws ->
  okr index_rel (match rev vs with x :: _ => let* i := num i x in Ok (i / 4096, None) | [] => UB end)
    (match rev ws with x :: _ => let* i := mnum m x in Ok (u32 (FP_TO_INT i), ARR_DIM2_UNUSED) | [] => UB end).
Proof.
  intros S F. apply Forall2_rev' in F. revert F. cbn [Loc ideal machine]. generalize (rev vs) (rev ws). intros vs' ws' F. destruct F as [|x y ? ? E F]; [exact I|]. use_num S E. apply okr_ok. split; [reflexivity|]. cbn [fst snd]. split; [apply part, F0|exact I].
Qed.
Lemma index_ok i m vs ws : SR i m -> Forall2 (er i m) vs ws ->
  okr index_rel (match vs with
        | [x; y] => let* i1 := num i x in let* j := num i y in Ok (i1 / 4096, Some (j / 4096))
        | _ => match rev vs with x :: _ => let* i1 := num i x in Ok (i1 / 4096, None) | [] => UB end
        end)
    (match ws with
        | [x; y] => let* i := mnum m x in let* j := mnum m y in Ok (u32 (FP_TO_INT i), u32 (FP_TO_INT j))
        | _ => match rev ws with x :: _ => let* i := mnum m x in Ok (u32 (FP_TO_INT i), ARR_DIM2_UNUSED) | [] => UB end
        end).
Proof.
  intros S F. pose proof (one_index _ _ _ _ S F) as O. destruct F as [|x y vs ws E F]; [exact O|]. destruct F as [|x2 y2 vs ws E2 F]; [exact O|]. destruct F as [|x3 y3 vs ws E3 F]; [|exact O].
  use_num S E. use_num S E2. apply okr_ok. split; [reflexivity|]. cbn [fst snd]. split; apply part; assumption.
Qed.
Lemma arr_ok r i m vs ws : SR i m -> Forall2 (er i m) vs ws -> okr (on_place i m) (iarr (2 ^ n) cells r vs i) (marr r ws m).
Proof.
  intros SS F. destruct r as [[] w|]; try exact I. cbn [iarr marr]. destruct (name_of w) as [nm b] eqn:E. rewrite (name_ok _ _ _ E).
  eapply okr_bind; [apply index_ok; eassumption|]. intros [x j] [x' y'] (Q & Bx & By). injection Q as -> ->. cbn [fst snd] in Bx, By. destruct (legal nm) eqn:L; [|exact I].
  destruct SS as (s & S & V & C & Tx). set (t := if b then 2 else 1) in *. assert (Ht : t = 1 \/ t = 2) by (subst t; destruct b; auto).
  replace (if b then 10 else 9) with (t + VAR_ARRAY) by (subst t; destruct b; reflexivity). set (k := (nm, t + VAR_ARRAY)).
  destruct (match j with Some j => j =? -1 | None => false end) eqn:Nj; [exact I|].
  pose proof (know_ok _ _ _ k V) as K. pose proof (v_tables _ _ _ V k) as TR.
  pose proof (entry_sim n cells false (mvars m) s nm t x j S (legal_ok _ L) Ht Bx) as G.
  pose proof (get_var_sim n cells false (mvars m) s nm (t + VAR_ARRAY) S (legal_ok _ L) ltac:(unfold VAR_ARRAY; lia)) as G0.
  unfold access in G. fold k in G, G0. destruct (touch (2 ^ n) s k) as [s1|].
  2:{ rewrite K. destruct G0 as [v1 G0]. unfold get_arr_entry. rewrite G0. reflexivity. }
  clear G0. destruct K as (i1 & K & V1 & Pg & Tb & Aq). rewrite K. cbn [bind]. unfold the_table, the_array in *. rewrite Tb. rewrite Aq in G.
  assert (Fin : forall i2 s2 a a2, Rv (texts m) i2 s2 -> page i2 = page i -> tkept i i2 -> tables i2 k = Some a -> ar s2 k = Some a2 ->
     (match subscript a2 x j with
      | Ok (i', j') => exists v' p off,
          get_arr_entry (mvars m) nm (t + VAR_ARRAY) (u32 x) (idx2 j) = (v', Ok (off + 2 + (i' + j' * d1 a2))) /\
          sim n cells false v' s2 /\ 0 <= p < 2 ^ n /\ keys v' p = Some k /\
          v_value (slot v' p) = VArr off /\ ar s2 k = Some a2 /\
          arr_cell (arrs v') (off + 2 + (i' + j' * d1 a2)) = elem a2 i' j' /\ 0 <= i' < d1 a2 /\ 0 <= j' < rows (d2 a2)
      | Err e => exists v', get_arr_entry (mvars m) nm (t + VAR_ARRAY) (u32 x) (idx2 j) = (v', Err e)
      | UB => False
      end) ->
     (match j with None => height a <=? 0 | Some _ => match high a with None => true | Some _ => false end end) = false ->
     okr (on_place i m)
       (if (0 <=? x) && (x <? wide a) then
          let j := match j with None => 0 | Some j => j end in
          if (0 <=? j) && (j <? height a) then Ok (b, IElem k x j, i2) else Err ERR_SUBSCRIPT_OUT_OF_RANGE_Y
        else Err ERR_SUBSCRIPT_OUT_OF_RANGE_X)
       (match get_arr_entry (mvars m) nm (t + VAR_ARRAY) (u32 x) (idx2 j) with
        | (v, Ok c) => Ok (t =? VAR_STRING, LCell c, mkM v (texts m) (mcon m)) | (_, Err e) => Err e | (_, UB) => UB end)).
  { intros i2 s2 a a2 V2 P2 T2 Ta Aa Ge Ub. pose proof (v_tables _ _ _ V2 k) as TR2. rewrite Ta, Aa in TR2. cbn [trel] in TR2. destruct TR2 as (W & H & _).
    unfold subscript in Ge. replace ((0 <=? x) && (x <? wide a)) with (negb ((x <? 0) || (x >=? d1 a2))) by lia. destruct ((x <? 0) || (x >=? d1 a2)) eqn:Ex; cbn [negb].
    { destruct Ge as [v' Ge]. rewrite Ge. reflexivity. }
    assert (Hh : height a = rows (d2 a2)) by (unfold height; rewrite H; reflexivity).
    assert (Sx : forall j0, (0 <=? j0) && (j0 <? height a) = true ->
      (exists v' p off, get_arr_entry (mvars m) nm (t + VAR_ARRAY) (u32 x) (idx2 j) = (v', Ok (off + 2 + (x + j0 * d1 a2))) /\
        sim n cells false v' s2 /\ 0 <= p < 2 ^ n /\ keys v' p = Some k /\ v_value (slot v' p) = VArr off /\ ar s2 k = Some a2 /\
          arr_cell (arrs v') (off + 2 + (x + j0 * d1 a2)) = elem a2 x j0 /\ 0 <= x < d1 a2 /\ 0 <= j0 < rows (d2 a2)) ->
      okr (on_place i m) (Ok (b, IElem k x j0, i2)) (match get_arr_entry (mvars m) nm (t + VAR_ARRAY) (u32 x) (idx2 j) with
        | (v, Ok c) => Ok (t =? VAR_STRING, LCell c, mkM v (texts m) (mcon m)) | (_, Err e) => Err e | (_, UB) => UB end)).
    { intros j0 Hj (v' & p & off & Ge' & S2 & Hp & Kp & Vo & _ & _ & Hx & Hj2). pose proof (entry_kept _ _ _ _ _ _ _ _ _ _ S (legal_ok _ L) (arr_type _ Ht) Ge') as Kept. rewrite Ge'. apply okr_ok.
      split; [subst t; destruct b; reflexivity|]. split; [split|].
      - exists s2. cbn [mvars texts mcon]. rewrite P2. auto.
      - exact (kept_ext n _ _ _ (mkM v' (texts m) (mcon m)) Kept T2).
      - cbn [MachineSim.LR mvars snd]. exists p, off, a. rewrite W. repeat split; try assumption; try lia. subst k t. destruct b; reflexivity. }
    cbv zeta. destruct j as [j|].
    - rewrite Hh in *. destruct ((j <? 0) || (j >=? rows (d2 a2))) eqn:Ej.
      + replace ((0 <=? j) && (j <? rows (d2 a2))) with false by lia. destruct Ge as [v' Ge]. rewrite Ge. reflexivity.
      + assert (Hj : (0 <=? j) && (j <? rows (d2 a2)) = true) by lia. rewrite Hj. apply Sx; assumption.
    - assert (Hj : (0 <=? 0) && (0 <? height a) = true) by lia. rewrite Hj. apply Sx; assumption. }
  destruct (tables i k) as [a|] eqn:Ta; cbn [trel] in TR.
  - destruct (ar s k) as [a2|] eqn:Aa; [|contradiction]. destruct TR as (W & H & _). cbn [bind]. destruct (match j with None => _ | Some _ => _ end) eqn:Ub in |- *; [exact I|].
    apply (Fin i1 s1 a a2 V1 Pg (tkept_eq _ _ Tb)); [congruence|congruence| |exact Ub].
    assert (Hyp : match j with None => 0 < rows (d2 a2) | Some j => basic_int j /\ j <> -1 /\ d2 a2 <> None end).
    { destruct j as [j|]; [split; [exact By|split; [lia|]]|unfold height in Ub; rewrite H in Ub; unfold rows; lia]. rewrite H in Ub. destruct (d2 a2); discriminate. }
    specialize (G Hyp). destruct (subscript a2 x j) as [[i' j']|e|]; exact G.
  - destruct (ar s k) as [a2|] eqn:Aa; [contradiction|].
    assert (Hyp : match j with None => True | Some j => basic_int j /\ j <> -1 /\ True end) by (destruct j; [split; [exact By|split; [lia|exact I]]|exact I]).
    specialize (G Hyp). cbv zeta in G |- *. set (a2 := mkA 10 _ _) in G. set (a := mkT 10 _ _).
    assert (Sz : wide a * height a = size a2) by (subst a a2; destruct j; reflexivity).
    assert (Rm : room i1 = used s1) by apply V1. rewrite <- Z.add_assoc in *. rewrite Sz, Rm in *. rewrite Z.geb_leb in G. rewrite !Z.add_assoc in *. destruct (cells <=? used s1 + size a2 + 2).
    + destruct G as [v' G]. rewrite G. reflexivity.
    + cbn [bind]. assert (Ub : (match j with None => height a <=? 0 | Some _ => match high a with None => true | Some _ => false end end) = false) by (subst a; destruct j; reflexivity).
      rewrite Ub. apply (Fin _ (mkS (known s1) (sc s1) (set (ar s) k (Some a2)) (used s1 + size a2 + 2)) a a2); cbn [page tables ar].
      * constructor; cbn [names room vals tables known used sc ar]; [apply V1|reflexivity|apply V1|]. intros k'. rewrite <- Aq, <- ?Tb. unfold set. destruct (key_eq k' k); [|apply V1]. subst a a2. cbn [trel wide high d1 d2 item elem].
        split; [reflexivity|]. split; [destruct j; reflexivity|]. intros. apply zero_rel, Tx.
      * exact Pg.
      * intros k' t0 A0. cbn [tables]. unfold set. destruct (key_eq k' k) as [->|]; [congruence|]. exists t0. auto.
      * unfold set. destruct (key_eq k k); [reflexivity|congruence].
      * unfold set. destruct (key_eq k k); [reflexivity|congruence].
      * destruct (subscript a2 x j) as [[i' j']|e|]; exact G.
      * exact Ub.
Qed.

(** DIM *)
Lemma dim_ok w i m vs ws : SR i m -> Forall2 (er i m) vs ws -> okr (on_state i m) (idim (2 ^ n) cells w vs i) (mdim w ws m).
Proof.
  intros SS F. unfold idim, mdim. destruct (name_of w) as [nm b] eqn:E. rewrite (name_ok _ _ _ E).
  eapply okr_bind; [apply index_ok; eassumption|]. intros [x j] [x' y'] (Q & Bx & By). injection Q as -> ->. cbn [fst snd] in Bx, By.
  destruct (legal nm) eqn:L; [|exact I]. cbn [andb]. destruct (0 <=? x) eqn:X0; [|exact I]. cbn [andb].
  destruct (match j with None => true | Some b => (0 <=? b) && (x * b <? 2147483648) end) eqn:J0; [|exact I].
  destruct SS as (s & S & V & C & Tx). set (t := if b then 2 else 1) in *. assert (Ht : t = 1 \/ t = 2) by (subst t; destruct b; auto).
  replace (if b then 10 else 9) with (t + VAR_ARRAY) by (subst t; destruct b; reflexivity). set (k := (nm, t + VAR_ARRAY)).
  assert (Hj : match j with None => True | Some b => 0 <= b < 524288 /\ x * b < 2147483648 end) by (destruct j as [j|]; [unfold basic_int in By; lia|exact I]).
  pose proof (dim_sim n cells false (mvars m) s nm t x j S (legal_ok _ L) Ht ltac:(unfold basic_int in Bx; lia) Hj) as G. cbn [sstep Vars.step] in G. fold k in G. cbn [andb negb] in G.
  pose proof (know_ok _ _ _ k V) as K. rewrite (v_names _ _ _ V). destruct (mem k (known s)) eqn:Mk; cbn [andb] in G.
  { destruct G as (v' & G & _). destruct (dim (mvars m) nm (t + VAR_ARRAY) (u32 x) (idx2 j)) as [v1 [u|e|]]; try discriminate G; injection G as <- G. rewrite ?G. reflexivity. }
  destruct (touch (2 ^ n) s k) as [s1|].
  2:{ rewrite K. cbn [bind]. destruct G as (v' & G & _). destruct (dim (mvars m) nm (t + VAR_ARRAY) (u32 x) (idx2 j)) as [v1 [u|e|]]; try discriminate G; injection G as <- G. rewrite ?G. reflexivity. }
  destruct K as (i1 & K & V1 & Pg & Tb & Aq). rewrite K. cbn [bind]. cbv zeta. set (a2 := mkA x j _) in G. set (a := mkT x j _).
  assert (Sz : wide a * height a = size a2) by (subst a a2; destruct j; reflexivity).
  assert (Rm : room i1 = used s1) by apply V1. rewrite <- !Z.add_assoc in *. rewrite Sz, Rm in *. rewrite Z.geb_leb in G. rewrite !Z.add_assoc in *.
  assert (Fresh : tables i k = None).
  { pose proof (v_tables _ _ _ V k) as TR. assert (NI : ~ In k (known s)) by (intro D; apply mem_spec in D; congruence). destruct (s_fresh _ _ _ _ _ S k NI) as [_ Fr]. destruct (tables i k); [|reflexivity].
    cbn [trel] in TR. rewrite Fr in TR. contradiction. }
  assert (Dk : forall v', dim (mvars m) nm (t + VAR_ARRAY) (u32 x) (idx2 j) = (v', Ok tt) -> kept n (mvars m) v') by (intros v' D; exact (dim_kept _ _ _ _ _ _ _ _ _ S (legal_ok _ L) (arr_type _ Ht) D)).
  destruct (cells <=? used s1 + size a2 + 2).
  - destruct G as (v' & G & S'). destruct (dim (mvars m) nm (t + VAR_ARRAY) (u32 x) (idx2 j)) as [v1 [[]|e|]]; try discriminate G; injection G as <-. specialize (S' eq_refl). apply okr_ok. split.
    + exists s1. cbn [mvars texts mcon]. rewrite Pg. auto.
    + exact (kept_ext n _ _ _ (mkM v1 (texts m) (mcon m)) (Dk _ eq_refl) (tkept_eq _ _ Tb)).
  - destruct G as (v' & G & S'). destruct (dim (mvars m) nm (t + VAR_ARRAY) (u32 x) (idx2 j)) as [v1 [[]|e|]]; try discriminate G; injection G as <-. specialize (S' eq_refl). apply okr_ok. split.
    + exists (mkS (known s1) (sc s1) (set (ar s1) k (Some a2)) (used s1 + size a2 + 2)). cbn [mvars texts mcon page]. rewrite Pg. split; [auto|]. split; [|auto].
      constructor; cbn [names room vals tables known used sc ar]; [apply V1|reflexivity|apply V1|]. intros k'. unfold set. destruct (key_eq k' k); [|apply V1]. subst a a2. cbn [trel wide high d1 d2 item elem].
      split; [reflexivity|]. split; [reflexivity|]. intros. apply zero_rel, Tx.
    + refine (kept_ext n _ _ _ (mkM v1 (texts m) (mcon m)) (Dk _ eq_refl) _). intros k' t0 A0. cbn [tables]. unfold set. destruct (key_eq k' k) as [->|]; [congruence|]. exists t0. rewrite Tb. auto.
Qed.

(** ** operators, functions, system variables *)
Lemma kata : forallb (fun x => (0 <=? x) && (x <? 1000)) katakana_char = true. Proof. vm_compute. reflexivity. Qed.
Lemma to_char_range w : -1 <= to_char w < 2000.
Proof.
  unfold to_char. cbv zeta. destruct (_ =? 0); [lia|]. destruct (_ =? 32); [repeat destruct (_ =? _); lia|]. destruct (_ =? 255); [repeat destruct (_ =? _); lia|]. destruct (_ =? 48); [|lia].
  set (q := nth _ _ _). enough (0 <= q < 1000) by lia. subst q. pose proof kata as K. rewrite forallb_forall in K.
  match goal with |- _ <= nth ?a ?l ?d < _ => destruct (nth_in_or_default a l d) as [H|H]; [specialize (K _ H); lia|rewrite H; lia] end.
Qed.
Lemma un_ok o i m v w : SR i m -> er i m v w -> okr (on_value i m) (iun o v i) (mun o w m).
Proof. intros S E. unfold iun, mun. use_num S E. apply retn_ok; [exact S|]. apply unary_ok, F. Qed.
Lemma bin_ok o i m v w v' w' : SR i m -> er i m v w -> er i m v' w' -> okr (on_value i m) (ibin o v v' i) (mbin o w w' m).
Proof.
  intros S E E'. unfold ibin, mbin. pose proof (kind_ok _ _ _ _ E) as K. pose proof (kind_ok _ _ _ _ E') as K'.
  destruct (kind v) as [[]|]; [| |exact I]; destruct (kind v') as [[]|]; try exact I; destruct K as [K1 K2], K' as [K1' K2']; cbn [Loc machine] in *; rewrite K1, K2, K1', K2'; cbn [andb].
  - use_txt S E. use_txt S E'. destruct (o =? OP_ADD); [apply rett_ok; [exact S|]; apply concat_ok; assumption|]. destruct (o =? OP_MULTIPLY); [reflexivity|].
    pose proof (compare_ok o _ _ F F0) as C. destruct (str_cmp o) as [f|]; [apply retn_ok; assumption|]. destruct (compare o t t0); cbn [okr] in C; [destruct C as (? & ? & _); discriminate|discriminate|exact I].
  - destruct (o =? OP_MULTIPLY); [|exact I]. use_txt S E. use_num S E'. apply rett_ok; [exact S|]. apply repeat_ok; assumption.
  - use_num S E. use_num S E'. pose proof (arith_ok o _ _ F F0) as C. destruct (num_op o) as [f|]; [apply retn_ok; assumption|].
    destruct (arith o a a0); cbn [okr] in C; [destruct C as (? & ? & _); discriminate|discriminate|exact I].
Qed.
Lemma SR_app i m t : SR i m -> SR i (mkM (mvars m) (texts m ++ t) (mcon m)).
Proof. intros (s & S & V & C & (r & Tx)). exists s. cbn [mvars texts mcon]. split; [exact S|]. split; [apply Rv_app, V|]. split; [exact C|]. exists (r ++ t). rewrite Tx. reflexivity. Qed.
Lemma sassign_ok i m l p v w : SR i m -> LR i m true l p -> er i m v w -> okr (on_state i m) (isassign l v i) (msassign p w m).
Proof.
  intros S L E. unfold isassign, msassign. use_txt S E. cbv zeta. apply okr_ok.
  set (m1 := mkM (mvars m) (texts m ++ [t]) (mcon m)). assert (S1 : SR i m1) by (apply SR_app, S). assert (L1 : LR i m1 true l p) by exact L.
  assert (V : vrel (texts m1) (Words t) (VStr (Z.of_nat (length (texts m))))).
  { cbn [vrel texts m1]. rewrite app_length, Nat2Z.id, nth_middle. cbn [length]. split; [lia|reflexivity]. }
  exact (on_put i m1 true l p _ _ S1 L1 V).
Qed.
Lemma fun_ok c i m vs ws : SR i m -> Forall2 (er i m) vs ws -> okr (on_value i m) (ifun c vs i) (mfun c ws m).
Proof.
  intros S F. unfold ifun, mfun. destruct F as [|v w vs ws E1 F]; [destruct (c =? FUNC_PI); [apply retn_ok; [exact S|]; apply okr_ok; reflexivity|exact I]|]. destruct F as [|v2 w2 vs ws E2 F].
  { pose proof (kind_ok _ _ _ _ E1) as K.
    assert (N : forall f g, (forall a, fits a = true -> okr (on_value i m) (f a) (g a)) ->
      okr (on_value i m) (let* a := num i v in f a) (if is_num w then let* a := mnum m w in g a else let* s := mstr m w in UB)).
    { intros f g H. destruct (kind v) as [[]|] eqn:Kv.
      - destruct v as [|[]| [] |]; try discriminate; exact I.
      - destruct K as [K1 _]. cbn [Loc machine] in *. rewrite K1. use_num S E1. apply H, F.
      - destruct v as [|[]| [] |]; try discriminate; exact I. }
    assert (T : forall f g, (forall a, textb a = true -> okr (on_value i m) (f a) (g (SChar a))) ->
      okr (on_value i m) (let* a := txt i v in f a) (if is_num w then let* a := mnum m w in UB else let* s := mstr m w in g s)).
    { intros f g H. destruct (kind v) as [[]|] eqn:Kv.
      - destruct K as [K1 _]. cbn [Loc machine] in *. rewrite K1. use_txt S E1. apply H, F.
      - destruct v as [|[]| [] |]; try discriminate; exact I.
      - destruct v as [|[]| [] |]; try discriminate; exact I. }
    cbn [Loc machine] in *.
    destruct (Z.eqb_spec c FUNC_ABS) as [->|N1]. { refine (N _ _ _). intros a F. apply retn_ok; [exact S|apply abs_ok, F]. }
    destruct (Z.eqb_spec c FUNC_FLOOR) as [->|N2]. { refine (N _ _ _). intros a F. apply retn_ok; [exact S|]. rewrite floor_ok by exact F. apply okr_ok. reflexivity. }
    destruct (Z.eqb_spec c FUNC_SGN) as [->|N3]. { refine (N _ _ _). intros a F. apply retn_ok; [exact S|]. rewrite NumProofs.sgn_spec. apply okr_ok. reflexivity. }
    destruct (Z.eqb_spec c FUNC_CHR) as [->|N4]. { refine (N _ _ _). intros a F. apply rett_ok; [exact S|]. apply chr_ok, F. }
    destruct (Z.eqb_spec c FUNC_STR) as [->|N5]. { refine (N _ _ _). intros a F. apply rett_ok; [exact S|]. unfold func_str, strout. pose proof (number_text_ok a F) as G. destruct (fixp_to_char a); exact G. }
    destruct (Z.eqb_spec c FUNC_DEG) as [->|N8]. { refine (N _ _ _). intros a F. apply retn_ok; [exact S|]. apply deg_ok, F. }
    destruct (Z.eqb_spec c FUNC_RAD) as [->|N9]. { refine (N _ _ _). intros a F. apply retn_ok; [exact S|]. rewrite rad_ok by exact F. apply okr_ok. reflexivity. }
    destruct (Z.eqb_spec c FUNC_HEX) as [->|N10]. { refine (N _ _ _). intros a F. apply rett_ok; [exact S|]. apply hex_ok, F. }
    destruct (Z.eqb_spec c FUNC_VAL) as [->|N11]. { refine (T _ _ _). intros a F. apply retn_ok; [exact S|]. apply val_ok, F. }
    destruct (Z.eqb_spec c FUNC_LEN) as [->|N6]. { refine (T _ _ _). intros a F. apply retn_ok; [exact S|]. rewrite len_ok by exact F. apply okr_ok. reflexivity. }
    destruct (Z.eqb_spec c FUNC_ASC) as [->|N7]. { refine (T _ _ _). intros a F. apply retn_ok; [exact S|]. apply asc_ok, F. }
    exact I. }
  destruct F as [|v3 w3 vs ws E3 F].
  { destruct (c =? FUNC_CHKCHR).
    { use_num S E1. use_num S E2. apply retn_ok; [exact S|]. apply okr_ok. destruct S as (s & _ & _ & (CR & _) & _). destruct CR as (_ & _ & Tx & _).
      unfold func_chkchr, FP_TO_INT, CW, CH. set (x := a / 4096). set (y := a0 / 4096). rewrite Tx. 
      replace ((x >=? 0) && (x <? 32) && (y >=? 0) && (y <? 24)) with ((0 <=? x) && (x <? 32) && (0 <=? y) && (y <? 24)) by lia. destruct (_ && _) eqn:B; [|reflexivity].
      replace (y * 32 + x) with (32 * y + x) by lia. change (nth (Z.to_nat (32 * y + x)) (map fst (visible (page i))) 0) with (nth (Z.to_nat (32 * y + x)) (map fst (visible (page i))) (fst (0, 0))). rewrite map_nth. rewrite itf; [reflexivity|].
      match goal with |- _ <= to_char ?w < _ => pose proof (to_char_range w) end. lia. }
    destruct (c =? FUNC_LEFT). { use_txt S E1. use_num S E2. apply rett_ok; [exact S|]. apply left_ok, F. }
    destruct (c =? FUNC_HEX). { use_num S E1. use_num S E2. apply rett_ok; [exact S|]. apply hexw_ok; assumption. }
    destruct (c =? FUNC_RIGHT). { use_txt S E1. use_num S E2. apply rett_ok; [exact S|]. apply right_ok, F. }
    destruct (c =? FUNC_INSTR); [|exact I]. use_txt S E1. use_txt S E2. apply retn_ok; [exact S|]. apply instr_ok; [assumption|assumption|lia]. }
  destruct F as [|v4 w4 vs ws E4 F].
  { destruct (c =? FUNC_MID). { use_txt S E1. use_num S E2. use_num S E3. apply rett_ok; [exact S|]. apply mid_ok, F. }
    destruct (c =? FUNC_INSTR); [|exact I]. use_txt S E1. use_txt S E2. use_num S E3. apply retn_ok; [exact S|]. apply instr_ok; [assumption|assumption|]. unfold FP_TO_INT. apply part. assumption. }
  destruct F as [|v5 w5 vs ws E5 F]; [|exact I]. destruct (c =? FUNC_SUBST); [|exact I]. use_txt S E1. use_num S E2. use_num S E3. use_txt S E4. apply rett_ok; [exact S|]. apply subst_ok; assumption.
Qed.
Lemma sys_ok c i m : SR i m -> n <= 18 -> okr (on_value i m) (isys (2 ^ n) c i) (msys c m).
Proof.
  intros S Hn. unfold isys, msys. destruct (c =? SYS_TRUE). { apply retn_ok; [exact S|]. apply okr_ok; reflexivity. }
  destruct (c =? SYS_FALSE). { apply retn_ok; [exact S|]. apply okr_ok; reflexivity. }
  destruct (c =? SYS_CANCEL). { apply retn_ok; [exact S|]. apply okr_ok; reflexivity. }
  destruct (c =? SYS_FREEVAR).
  { apply retn_ok; [exact S|]. apply okr_ok. destruct S as (s & S & V & _ & _). rewrite (tab_max _ _ (s_tab _ _ _ _ _ S)), (s_count _ _ _ _ _ S eq_refl), (v_names _ _ _ V). symmetry. apply itf.
    pose proof (tab_n _ _ (s_tab _ _ _ _ _ S)) as N0. assert (2 ^ n <= 2 ^ 18) by (apply Z.pow_le_mono_r; lia). assert (0 < 2 ^ n) by (apply Z.pow_pos_nonneg; lia). change (2 ^ 18) with 262144 in *.
    assert (Z.of_nat (length (known s)) <= 2 ^ n); [|lia]. rewrite (sim_full _ _ _ _ _ S). pose proof (tab_len _ _ (s_tab _ _ _ _ _ S)) as L.
    assert (forall l, (length (okeys l) <= length l)%nat) as O; [|specialize (O (vars (mvars m))); lia].
    intros l. clear. induction l as [|x l IH]; [apply le_n|]. unfold okeys in *. cbn. destruct (key_of x); cbn; lia. }
  assert (P : pos (page i) - top (page i) = 32 * cy (mcon m) + cx (mcon m) /\ 0 <= cx (mcon m) < 32 /\ 0 <= cy (mcon m) <= 25).
  { destruct S as (s & _ & _ & (CR & _) & _). destruct CR as (_ & _ & _ & _ & _ & _ & _ & _ & P & X & Y). lia. }
  destruct P as (P & X & Y). destruct (c =? SYS_CSRX).
  { apply retn_ok; [exact S|]. apply okr_ok. rewrite P. unfold sys_csrx. rewrite itf by lia. lia. }
  destruct (c =? SYS_CSRY); [|exact I]. apply retn_ok; [exact S|]. apply okr_ok. rewrite P. unfold sys_csry. rewrite itf by lia. lia.
Qed.

(** ** commands *)
Lemma items_ok i m vs ws : SR i m -> Forall2 (er i m) vs ws -> okr eq (iitems i vs) (mitems m ws).
Proof.
  intros S F. induction F as [|v w vs ws E F IH]; [apply okr_ok; reflexivity|]. cbn [iitems mitems].
  eapply (okr_bind eq); [|intros a ? <-; eapply okr_bind; [exact IH|intros l ? <-; apply okr_ok; reflexivity]].
  unfold iitem, mitem. pose proof (kind_ok _ _ _ _ E) as K. destruct (kind v) as [[]|] eqn:Kv.
  - destruct K as [K1 K2]. destruct w as [y|d y|[] p|y]; cbn [is_num is_str Loc machine] in *; try discriminate; use_txt S E; apply okr_ok; reflexivity.
  - destruct K as [K1 K2]. destruct w as [y|d y|[] p|y]; cbn [is_num is_str Loc machine] in *; try discriminate; use_num S E; (eapply okr_bind; [apply number_text_ok; assumption|]); intros b ? <-; apply okr_ok; reflexivity.
  - destruct v as [x|[] x|[] l|x]; try discriminate; try exact I. destruct w as [y|d y|[] p|y]; cbn [HostSim.er] in E; try contradiction. subst y.
    destruct (x =? OP_COMMA); [apply okr_ok; reflexivity|]. destruct (x =? OP_SEMICOLON); [apply okr_ok; reflexivity|exact I].
Qed.
Lemma page_ok i m o c : SR i m -> step (mcon m) o = Ok c -> okr (on_state i m) (on_page i o) (Ok (with_con m c)).
Proof.
  intros (s & S & V & C & Tx) E. destruct (step_R o _ _ C) as (c' & E' & C'). rewrite E in E'. injection E' as <-. apply okr_ok. split.
  - exists s. split; [exact S|]. split; [|split; [exact C'|exact Tx]]. destruct V. constructor; assumption.
  - exact (kept_ext n i m (with_page i (page_step (page i) o)) (with_con m c) (kept_refl n _) (tkept_eq _ _ eq_refl)).
Qed.
Lemma cmd_ok c i m vs ws : SR i m -> Forall2 (er i m) vs ws -> okr (on_state i m) (icmd c vs i) (mcmd c ws m).
Proof.
  intros S F. unfold icmd, mcmd. destruct (c =? CMD_PRINT).
  { eapply okr_bind; [apply items_ok; eassumption|]. intros l ? <-. destruct S as (s & S & V & C & Tx). destruct (print_R l _ _ C) as (c' & E & _). rewrite E. cbn [bind]. apply page_ok; [|exact E]. exists s. auto. }
  destruct (c =? CMD_LOCATE).
  { destruct F as [|v w vs ws E1 F]; [exact I|]. destruct F as [|v2 w2 vs ws E2 F]; [exact I|]. destruct F as [|v3 w3 vs ws E3 F]; [|exact I]. use_num S E1. use_num S E2. apply page_ok; [exact S|reflexivity]. }
  destruct (c =? CMD_COLOR).
  { destruct F as [|v w vs ws E1 F]; [exact I|]. destruct F as [|v2 w2 vs ws E2 F]; [use_num S E1; apply page_ok; [exact S|reflexivity]|]. destruct F as [|v3 w3 vs ws E3 F]; [|exact I]. use_num S E1. use_num S E2. apply page_ok; [exact S|reflexivity]. }
  destruct (c =? CMD_CLS). { apply page_ok; [exact S|reflexivity]. }
  destruct (c =? CMD_SWAP); [|exact I].
  destruct F as [|v w vs ws E1 F]; [exact I|]. destruct v as [x|d x|q a|x]; try exact I. destruct F as [|v2 w2 vs ws E2 F]; [exact I|]. destruct v2 as [x|d x|q2 a2|x]; try exact I. destruct F as [|v3 w3 vs ws E3 F]; [|exact I].
  destruct (Bool.eqb q q2) eqn:Q; [|exact I]. destruct w as [|d x|q' b|x]; cbn [HostSim.er] in E1; try contradiction. destruct w2 as [|d x|q2' b2|x]; cbn [HostSim.er] in E2; try contradiction.
  destruct E1 as [_ L1], E2 as [_ L2]. cbv zeta. apply okr_ok. pose proof (get_rel _ _ _ _ _ _ _ S L1) as V1. pose proof (get_rel _ _ _ _ _ _ _ S L2) as V2.
  destruct (on_put _ _ _ _ _ _ _ S L1 V2) as [S1 X1]. eapply on_trans; [split; [exact S1|exact X1]|]. eapply on_put; [exact S1|apply X1, L2|exact V1].
Qed.

Lemma machine_agrees : n <= 18 -> hosts_agree h1 h2 SR LR ideal_text mtext.
Proof.
  intros Hn. constructor.
  - intros i m b c l p l' p' S L L'. pose proof (same_rel _ _ _ _ _ _ _ _ _ _ S L L') as E. cbn [same ideal machine]. destruct (iloc_eq l l'), (mloc_eq p p'); tauto || reflexivity.
  - intros i m l p S L. cbn [getn ideal machine]. pose proof (get_rel _ _ _ _ _ _ _ S L) as V. unfold mgetn. destruct (get i l), (mget m p); cbn [vrel] in V; try contradiction; auto.
  - intros i m l p v S L. cbn [setn ideal machine]. unfold msetn. eapply on_put; [exact S|exact L|reflexivity].
  - intros i m l p S L. pose proof (get_rel _ _ _ _ _ _ _ S L) as V. unfold ideal_text, mtext. destruct (get i l), (mget m p); cbn [vrel] in V; try contradiction; try reflexivity. symmetry. apply V.
  - intros r i m S. apply var_ok, S.
  - intros r i m vs ws S F. apply arr_ok; assumption.
  - intros w i m vs ws S F. apply dim_ok; assumption.
  - intros o i m v w S E. apply un_ok; assumption.
  - intros o i m v w v' w' S E E'. apply bin_ok; assumption.
  - intros i m l p v w S L E. apply sassign_ok; assumption.
  - intros c i m vs ws S F. apply fun_ok; assumption.
  - intros c i m S. apply sys_ok; assumption.
  - intros c i m S. exact I.
  - intros c i m vs ws S F. apply cmd_ok; assumption.
Qed.
Lemma start_ok elements : 0 <= n -> 0 <= elements -> cells = elements + 2 * 2 ^ n -> cells < 2 ^ 30 -> SR ideal_start (machine_start (2 ^ n) elements).
Proof.
  intros Hn He -> Hc. exists sinit. cbn [mvars machine_start texts mcon ideal_start page]. split; [apply init_sim; assumption|]. split; [|split; [apply R_init|exists []; reflexivity]].
  constructor; [reflexivity|reflexivity| |intros k; exact I]. intros k Sk. cbn [vals ideal_start sc sinit]. destruct Sk as [E|E]; rewrite E; cbn; [reflexivity|]. unfold empty_handle. split; [lia|reflexivity].
Qed.
End Host.
