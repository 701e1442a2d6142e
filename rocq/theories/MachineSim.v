(** The machine of Machine.v against the ideal computer of Ideal.v *)
From Verif Require Import Base BaseLemmas Hash HashProofs Tokens Runner Codes Vars VarsSpec VarsProofs VarsSim VarsRun Num Strs StrFuncs StrSpec StrProofs NumText Console ConsoleSpec ConsoleProofs Machine Ideal IdealOps HostSim.
Ltac Zify.zify_post_hook ::= Z.div_mod_to_equations.

(** ** values, states, places *)
Definition vrel (tx : list (list Z)) (x : thing) (v : value) : Prop :=
  match x, v with
  | Number a, VNum b => a = b
  | Words t, VStr h => 0 <= h < Z.of_nat (length tx) /\ nth (Z.to_nat h) tx [] = t
  | _, _ => False
  end.
Definition trel (tx : list (list Z)) (x : option table) (y : option arr) : Prop :=
  match x, y with
  | None, None => True
  | Some a, Some b => wide a = d1 b /\ high a = d2 b /\ forall i j, 0 <= i < wide a -> 0 <= j < height a -> vrel tx (item a i j) (elem b i j)
  | _, _ => False
  end.
Record Rv (tx : list (list Z)) (i : istate) (s : sstate) : Prop := {
  v_names : names i = known s; v_room : room i = used s;
  v_vals : forall k, scalar k -> vrel tx (vals i k) (sc s k);
  v_tables : forall k, trel tx (tables i k) (ar s k) }.

Section Sim.
Variables n cells : Z.
Definition SR (i : istate) (m : mstate) : Prop := exists s, sim n cells false (mvars m) s /\ Rv (texts m) i s /\ ConsoleProofs.R (mcon m) (page i) /\ exists r, texts m = [] :: r.
Definition LR (i : istate) (m : mstate) (b : bool) (l : iloc) (p : mloc) : Prop :=
  match l, p with
  | IVar k, LVar p => 0 <= p < 2 ^ n /\ keys (mvars m) p = Some k /\ snd k = (if b then 2 else 1)
  | IElem k x y, LCell c => exists p off a, 0 <= p < 2 ^ n /\ keys (mvars m) p = Some k /\ snd k = (if b then 10 else 9) /\
      v_value (slot (mvars m) p) = VArr off /\ tables i k = Some a /\ 0 <= x < wide a /\ 0 <= y < height a /\ c = off + 2 + (x + y * wide a)
  | _, _ => False
  end.

(** slots in use keep their name, and their array once they have one *)
Definition kept (v w : variables) : Prop := forall p k, 0 <= p < 2 ^ n -> keys v p = Some k ->
  keys w p = Some k /\ forall off, v_value (slot v p) = VArr off -> v_value (slot w p) = VArr off.
Definition tkept (i j : istate) : Prop := forall k a, tables i k = Some a -> exists b, tables j k = Some b /\ wide b = wide a /\ high b = high a.
Lemma kept_ext i m j m' : kept (mvars m) (mvars m') -> tkept i j -> forall b l p, LR i m b l p -> LR j m' b l p.
Proof.
  intros K T b [k|k x y] [p|c]; cbn [LR]; try contradiction.
  - intros (P & E & S). destruct (K p k P E) as [K1 _]. auto.
  - intros (p & off & a & P & E & S & V & A & X & Y & C). destruct (K p k P E) as [K1 K2]. destruct (T k a A) as (a' & A' & W & H).
    exists p, off, a'. unfold height in *. rewrite W, H. repeat split; auto; lia.
Qed.
Lemma kept_refl v : kept v v. Proof. intros p k P E. auto. Qed.
Lemma kept_trans u v w : kept u v -> kept v w -> kept u w.
Proof. intros A B p k P E. destruct (A p k P E) as [A1 A2]. destruct (B p k P A1) as [B1 B2]. split; auto. Qed.
Lemma tkept_refl i : tkept i i. Proof. intros k a A. exists a. auto. Qed.
Lemma tkept_eq i j : tables j = tables i -> tkept i j. Proof. intros E k a A. exists a. rewrite E. auto. Qed.
Lemma tkept_trans i j k : tkept i j -> tkept j k -> tkept i k.
Proof. intros A B x a E. destruct (A x a E) as (b & E1 & W1 & H1). destruct (B x b E1) as (c & E2 & W2 & H2). exists c. repeat split; congruence. Qed.

Lemma get_var_kept v name type w i : length (vars v) = Z.to_nat (2 ^ n) -> get_var v name type = (w, Ok i) -> 0 <= i < 2 ^ n -> kept v w /\ (keys v i <> None -> w = v).
Proof.
  unfold get_var. intros L. destruct (search_name_type v name type) as [q|]; [|discriminate]. cbv zeta. destruct (v_type (slot v q) =? VAR_EMPTY) eqn:E; intros H; injection H as <- ->; intros Hi.
  - assert (N : keys v i = None) by (unfold keys, key_of; rewrite E; reflexivity). split; [|congruence].
    intros p k P K. assert (p <> i) by congruence. assert (S : slot (set_slot (inc_count v) i (mkVar type (set_name (v_name (slot v i)) name) (default_value type))) p = slot v p).
    { rewrite slot_set; [|cbn; lia|lia]. replace (p =? i) with false by lia. reflexivity. }
    unfold keys. rewrite S. split; [exact K|auto].
  - split; [apply kept_refl|reflexivity].
Qed.
Lemma via_ptr_kept v i ix iy type w c : length (vars v) = Z.to_nat (2 ^ n) -> 0 <= i < 2 ^ n -> get_arr_entry_via_ptr v i ix iy type = (w, Ok c) -> kept v w.
Proof.
  unfold get_arr_entry_via_ptr. intros L Hi.
  assert (D : forall u off, match @Ok Z off with
    | Ok off =>
      if ix <? arr_size (arrs u) off 0 then
        let at_ c := if (0 <=? c) && (c <? arr_data_size (arrs u)) then (u, Ok c) else (u, UB) in
        if iy =? ARR_DIM2_UNUSED then at_ (arr_entry (arrs u) off ix 0)
        else if iy <? arr_size (arrs u) off 1 then at_ (arr_entry (arrs u) off ix iy)
        else (set_error u ERR_SUBSCRIPT_OUT_OF_RANGE_Y, Err ERR_SUBSCRIPT_OUT_OF_RANGE_Y)
      else (set_error u ERR_SUBSCRIPT_OUT_OF_RANGE_X, Err ERR_SUBSCRIPT_OUT_OF_RANGE_X)
    | Err e => (u, Err e)
    | UB => (u, UB) end = (w, Ok c) -> w = u).
  { intros u off. cbv zeta. intros E. repeat match type of E with context [if ?b then _ else _] => destruct b end; congruence. }
  assert (G : forall (u : variables) (a : arrays) off, (match v_value (slot v i) with VArr _ => False | _ => True end) ->
     kept v (set_arrs (set_slot v i (mkVar (v_type (slot v i)) (v_name (slot v i)) (VArr off))) a)).
  { intros _ a off NA p k P K. set (x := mkVar (v_type (slot v i)) (v_name (slot v i)) (VArr off)). assert (S : slot (set_arrs (set_slot v i x) a) p = if p =? i then x else slot v p).
    { change (slot (set_arrs (set_slot v i x) a) p) with (slot (set_slot v i x) p). rewrite slot_set by lia. reflexivity. }
    unfold keys. rewrite S. destruct (p =? i) eqn:E; [|split; [exact K|auto]]. assert (p = i) by lia. subst p. split; [exact K|]. intros o V. rewrite V in NA. contradiction. }
  destruct (v_value (slot v i)) as [z|h| |off] eqn:V; try (intros E; apply D in E; subst; apply kept_refl).
  all: destruct (get_init_new_arr _ _ _ _) as [[[a off]|]|e|]; try discriminate; cbv zeta; intros E; apply D in E; subst w; apply G; try exact v; exact I.
Qed.
Lemma entry_kept v name type ix iy w c s : sim n cells false v s -> valid_name name -> (type = 9 \/ type = 10) -> get_arr_entry v name type ix iy = (w, Ok c) -> kept v w.
Proof.
  intros S N T E. unfold get_arr_entry in E. pose proof (get_var_sim _ _ _ _ _ name type S N ltac:(lia)) as G.
  destruct (touch (2 ^ n) s (name, type)) as [s1|].
  - destruct G as (v1 & i & G & S1 & Hi & _). rewrite G in E. eapply kept_trans.
    + eapply get_var_kept; [apply (tab_len _ _ (s_tab _ _ _ _ _ S))|exact G|exact Hi].
    + eapply via_ptr_kept; [apply (tab_len _ _ (s_tab _ _ _ _ _ S1))|exact Hi|exact E].
  - destruct G as [v1 G]. rewrite G in E. discriminate.
Qed.

Lemma dim_kept v name type a b w s : sim n cells false v s -> valid_name name -> (type = 9 \/ type = 10) -> dim v name type a b = (w, Ok tt) -> kept v w.
Proof.
  intros S N T. unfold dim. pose proof (s_tab _ _ _ _ _ S) as Tb. pose proof (tab_len _ _ Tb) as L. pose proof (search_cases n v name type Tb N ltac:(lia)) as SC. cbv zeta in SC.
  assert (Rg : forall i, search_name_type v name type = Some i -> 0 <= i < 2 ^ n).
  { intros i E. destruct SC as [[p [Q [Hp _]]]|[[p [Q [Hp _]]]|[Q _]]]; rewrite Q in E; [injection E as <-; exact Hp|injection E as <-; exact Hp|discriminate]. }
  destruct (search_name_type v name type) as [i|]; [|unfold dim_result; cbn [v_error set_error]; discriminate]. specialize (Rg i eq_refl). cbv zeta. rewrite (s_ids _ _ _ _ _ S). cbn [andb]. rewrite Bool.orb_false_r.
  destruct (v_type (slot v i) =? VAR_EMPTY) eqn:E; [|unfold dim_result; cbn [v_error set_error]; discriminate].
  assert (Ni : keys v i = None) by (unfold keys, key_of; rewrite E; reflexivity).
  assert (G : forall x, kept v (set_slot (inc_count v) i x)).
  { intros x p k P K. assert (p <> i) by congruence. assert (Sl : slot (set_slot (inc_count v) i x) p = slot v p) by (rewrite slot_set; [replace (p =? i) with false by lia; reflexivity|cbn; lia|lia]). unfold keys. rewrite Sl. split; [exact K|auto]. }
  destruct (get_init_new_arr _ _ _ _) as [[[a' off]|]|e|]; try discriminate; intros Q.
  - assert (w = set_arrs (set_slot (inc_count v) i (mkVar type (set_name (v_name (slot v i)) name) (VArr off))) a') as -> by congruence. intros p k P K. apply (G _ p k P K).
  - assert (w = set_slot (inc_count v) i (mkVar type (set_name (v_name (slot v i)) name) VNull)) as -> by congruence. apply G.
Qed.

(** ** reading and writing *)
Lemma vrel_app tx t x v : vrel tx x v -> vrel (tx ++ t) x v.
Proof. destruct x, v; cbn [vrel]; auto. intros [H E]. rewrite app_length, app_nth1 by lia. split; [lia|exact E]. Qed.
Lemma Rv_app tx t i s : Rv tx i s -> Rv (tx ++ t) i s.
Proof.
  intros [A B C D]. constructor; auto using vrel_app. intros k. specialize (D k). unfold trel in *. destruct (tables i k), (ar s k); auto.
  destruct D as (W & H & E). repeat split; auto using vrel_app.
Qed.
Lemma two_scalar k (b : bool) : snd k = (if b then 2 else 1) -> scalar k. Proof. unfold scalar. destruct b; auto. Qed.
Lemma two_arr k (b : bool) : snd k = (if b then 10 else 9) -> isarr k. Proof. unfold isarr. destruct b; auto. Qed.
Lemma get_rel i m b l p : SR i m -> LR i m b l p -> vrel (texts m) (get i l) (mget m p).
Proof.
  intros (s & S & V & _ & _) L. destruct l as [k|k x y], p as [p|c]; cbn [LR] in L; try contradiction; cbn [get mget].
  - destruct L as (P & K & T). rewrite (s_sc _ _ _ _ _ S p k P K (two_scalar _ _ T)). apply V. eapply two_scalar, T.
  - destruct L as (p & off & a & P & K & T & O & A & X & Y & ->). rewrite A. pose proof (s_ar _ _ _ _ _ S p k P K (two_arr _ _ T)) as B.
    pose proof (v_tables _ _ _ V k) as TR. rewrite A in TR. unfold trel in TR. destruct (ar s k) as [a'|]; [|contradiction]. destruct TR as (W & H & E).
    destruct B as (off' & O' & B). rewrite O in O'. injection O' as <-. rewrite W. rewrite (b_el _ _ _ _ B); [|lia|unfold height in Y; rewrite H in Y; unfold rows; exact Y].
    apply E; assumption.
Qed.
Lemma put_rel i m b l p x v : SR i m -> LR i m b l p -> vrel (texts m) x v -> SR (put i l x) (mput m p v) /\ kept (mvars m) (mvars (mput m p v)) /\ tkept i (put i l x).
Proof.
  intros (s & S & V & C & Tx) L XV. pose proof (tab_len _ _ (s_tab _ _ _ _ _ S)) as Len. destruct l as [k|k a b0], p as [p|c]; cbn [LR] in L; try contradiction; cbn [put mput].
  - destruct L as (P & K & T). pose proof (two_scalar _ _ T) as Sc. pose proof (sim_write _ _ _ _ _ p k v S P K Sc) as S'. split; [|split; [|apply tkept_eq; reflexivity]].
    + eexists. split; [exact S'|]. cbn [mvars texts mcon page]. split; [|split; [exact C|exact Tx]]. constructor; cbn [names room vals tables known used sc ar]; try apply V.
      intros k' Sk. unfold set. destruct (key_eq k' k); [exact XV|apply V, Sk].
    + set (z := mkVar (v_type (slot (mvars m) p)) (v_name (slot (mvars m) p)) v). match goal with |- kept _ ?w => change w with (set_slot (mvars m) p z) end. intros q k' Q K'. assert (SL : slot (set_slot (mvars m) p z) q = if q =? p then z else slot (mvars m) q) by (apply slot_set; lia).
      unfold keys. rewrite SL. destruct (q =? p) eqn:E; [|split; [exact K'|auto]]. assert (q = p) by lia. subst q. split; [exact K'|].
      intros off Vo. rewrite (s_sc _ _ _ _ _ S p k P K Sc) in Vo. pose proof (v_vals _ _ _ V k Sc) as R0. rewrite Vo in R0. destruct (vals i k); contradiction.
  - destruct L as (p & off & t & P & K & T & O & A & X & Y & ->). rewrite A. pose proof (two_arr _ _ T) as Ar. pose proof (v_tables _ _ _ V k) as TR. rewrite A in TR. unfold trel in TR.
    destruct (ar s k) as [t'|] eqn:At; [|contradiction]. destruct TR as (W & H & E).
    assert (Y' : 0 <= b0 < rows (d2 t')) by (unfold height in Y; rewrite H in Y; exact Y).
    pose proof (sim_awrite _ _ _ _ _ p k off t' a b0 v S P K Ar O At ltac:(lia) Y') as S'. split; [|split].
    + eexists. split; [cbn [mvars]; unfold set_cell; rewrite W; exact S'|]. cbn [mvars texts mcon page]. split; [|split; [exact C|exact Tx]].
      constructor; cbn [names room vals tables known used sc ar]; try apply V. intros k'. unfold set. destruct (key_eq k' k); [|apply V]. cbn [trel wide high d1 d2]. split; [exact W|]. split; [exact H|].
      intros x0 y0 X0 Y0. cbn [item elem]. unfold set_item, set_elem. destruct (_ && _); [exact XV|apply E; [exact X0|exact Y0]].
    + cbn [mvars]. intros q k' Q K'. split; [exact K'|auto].
    + intros k' t0 A0. cbn [tables]. unfold set. destruct (key_eq k' k) as [->|]; [|eauto]. eexists. split; [reflexivity|]. rewrite A in A0. injection A0 as <-. auto.
Qed.
(** different places are different places *)
Lemma same_rel i m b c l p l' p' : SR i m -> LR i m b l p -> LR i m c l' p' -> (l = l' <-> p = p').
Proof.
  intros (s & S & V & _ & _) L L'. destruct l as [k|k x y], p as [p|u]; cbn [LR] in L; try contradiction; destruct l' as [k'|k' x' y'], p' as [p'|u']; cbn [LR] in L'; try contradiction; try (split; discriminate).
  - destruct L as (P & K & T), L' as (P' & K' & T'). split; intros E; injection E as ->; [|congruence]. f_equal.
    eapply (good_unique key_eq (khash (2 ^ n)) n (keys (mvars m))); eauto; apply (tab_good _ _ (s_tab _ _ _ _ _ S)).
  - destruct L as (p & off & a & P & K & T & O & A & X & Y & ->), L' as (p' & off' & a' & P' & K' & T' & O' & A' & X' & Y' & ->).
    pose proof (v_tables _ _ _ V k) as TR. rewrite A in TR. unfold trel in TR. destruct (ar s k) as [t|] eqn:At; [|contradiction]. destruct TR as (W & H & _).
    pose proof (v_tables _ _ _ V k') as TR. rewrite A' in TR. unfold trel in TR. destruct (ar s k') as [t'|] eqn:At'; [|contradiction]. destruct TR as (W' & H' & _).
    unfold height in Y, Y'. rewrite H in Y. rewrite H' in Y'. fold (rows (d2 t)) in Y. fold (rows (d2 t')) in Y'. rewrite W in *. rewrite W' in *. split; intros E.
    + injection E as -> -> ->. rewrite At in At'. injection At' as <-. assert (p = p') by (eapply (good_unique key_eq (khash (2 ^ n)) n (keys (mvars m))); eauto; apply (tab_good _ _ (s_tab _ _ _ _ _ S))). subst p'. rewrite O in O'. injection O' as <-. reflexivity.
    + injection E as E. destruct (Z.eq_dec p p') as [->|N].
      * rewrite K in K'. injection K' as <-. rewrite O in O'. injection O' as <-. rewrite At in At'. injection At' as <-.
        destruct (pair_unique (d1 t) x y x' y') as [-> ->]; [assumption|assumption|lia|reflexivity].
      * exfalso. pose proof (s_disj _ _ _ _ _ S p p' k k' off off' t t' P P' N K K' (two_arr _ _ T) (two_arr _ _ T') O O' At At') as D. unfold size in D.
        assert (x + y * d1 t < d1 t * rows (d2 t)) by nia. assert (x' + y' * d1 t' < d1 t' * rows (d2 t')) by nia. assert (0 <= y * d1 t) by nia. assert (0 <= y' * d1 t') by nia. lia.
Qed.
End Sim.
