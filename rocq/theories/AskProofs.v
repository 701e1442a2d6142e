(** INPUT and LINPUT on the page: the console after a question and an answer shows what the page of ConsoleSpec.v shows. *)
From Verif Require Import Base BaseLemmas Strs StrProofs NumText NumTextSpec Console LineInput LineInputSpec LineInputProofs LineInputProps LineInputFields Ask IdealAsk ConsoleSpec ConsoleProofs.
Ltac Zify.zify_post_hook ::= Z.div_mod_to_equations.
Open Scope Z_scope.

Lemma need_same p : pos p / 32 < lines p -> need p = p.
Proof. intros H. unfold need. replace (Z.to_nat (pos p / 32 + 1 - lines p)) with 0%nat by lia. destruct p; reflexivity. Qed.
Lemma puts_row : forall ws p, 0 <= pos p -> Z.of_nat (length (cells p)) = 32 * lines p -> pos p + Z.of_nat (length ws) <= Z.of_nat (length (cells p)) ->
  let q := puts p ws in length (cells q) = length (cells p) /\ pos q = pos p + Z.of_nat (length ws) /\ colr q = colr p /\ tab q = tab p /\
  forall j, (j < length (cells p))%nat -> nth j (cells q) (0, 0) = if (pos p <=? Z.of_nat j) && (Z.of_nat j <? pos p + Z.of_nat (length ws)) then (nth (Z.to_nat (Z.of_nat j - pos p)) ws 0, colr p) else nth j (cells p) (0, 0).
Proof.
  induction ws as [|w ws IH]; intros p P L F; cbn [puts].
  - cbn [length]. repeat (split; [first [reflexivity|lia]|]). intros j J. replace ((pos p <=? Z.of_nat j) && (Z.of_nat j <? pos p + Z.of_nat 0)) with false by lia. reflexivity.
  - cbn [length] in F. assert (N : need p = p) by (apply need_same; unfold lines in *; lia). unfold put. rewrite N.
    set (p1 := {| cells := upd (cells p) (Z.to_nat (pos p)) (w, colr p); pos := pos p + 1; colr := colr p; tab := tab p |}).
    assert (L1 : length (cells p1) = length (cells p)) by (unfold p1; cbn [cells]; apply upd_length).
    assert (P1 : pos p1 = pos p + 1) by reflexivity. assert (C1 : colr p1 = colr p) by reflexivity. assert (T1 : tab p1 = tab p) by reflexivity.
    destruct (IH p1) as (A & B & C & D & E); [lia|unfold lines in *; lia|lia|]. cbv zeta. rewrite A, B, C, D, L1, P1, C1, T1. cbn [length]. repeat (split; [first [reflexivity|lia]|]).
    intros j J. rewrite E by lia. rewrite P1, C1. unfold p1. cbn [cells].
    destruct (Z.eqb_spec (Z.of_nat j) (pos p)) as [Q|Q].
    + replace ((pos p + 1 <=? Z.of_nat j) && _) with false by lia. replace ((pos p <=? Z.of_nat j) && _) with true by lia. replace (Z.to_nat (Z.of_nat j - pos p)) with 0%nat by lia. cbn [nth].
      replace (Z.to_nat (pos p)) with j by lia. rewrite nth_upd_same by exact J. reflexivity.
    + replace ((pos p + 1 <=? Z.of_nat j) && (Z.of_nat j <? pos p + 1 + Z.of_nat (length ws))) with ((pos p <=? Z.of_nat j) && (Z.of_nat j <? pos p + Z.of_nat (S (length ws)))) by lia.
      rewrite nth_upd_other by lia. destruct (_ && _) eqn:Z0; [|reflexivity]. replace (Z.to_nat (Z.of_nat j - pos p)) with (S (Z.to_nat (Z.of_nat j - (pos p + 1)))) by lia. reflexivity.
Qed.

(** the cell in column x of the cursor's row *)
Lemma row_cells c p x : R0 c p -> cx c = 0 -> cy c < 24 -> 0 <= x < 32 ->
  nth (Z.to_nat (32 * cy c + x)) (Console.text c) 0 = fst (nth (Z.to_nat (pos p + x)) (cells p) (0, 0)) /\ nth (Z.to_nat (32 * cy c + x)) (Console.color c) 0 = snd (nth (Z.to_nat (pos p + x)) (cells p) (0, 0)).
Proof.
  intros (L & M & T & C & _ & _ & _ & _ & P & X & Y) X0 Y0 Hx. unfold top in P. rewrite T, C. unfold visible, top.
  assert (E : Z.to_nat (pos p + x) = (Z.to_nat (32 * (lines p - 24)) + Z.to_nat (32 * cy c + x))%nat) by lia.
  rewrite E, <- nth_skipn'. split.
  - change 0 with (fst (0, 0)) at 1. apply map_nth.
  - change 0 with (snd (0, 0)) at 1. apply map_nth.
Qed.
Lemma ask_ok c p : R c p ->
  match ask p with
  | Ok p' => exists c', con_prompt c None = Ok c' /\ R c' p' /\ cx c' = 0 /\ cy c' < 24 /\
      forall x, 0 <= x < 32 -> nth (Z.to_nat (32 * cy c' + x)) (Console.text c') 0 = 0 /\ nth (Z.to_nat (32 * cy c' + x)) (Console.color c') 0 = col c'
  | Err _ => False
  | UB => True
  end.
Proof.
  intros [H0 Hc]. unfold ask. destruct (Z.leb_spec (lines p) (pos p / 32)) as [G|G]; [exact I|].
  assert (Y : cy c < 24). { destruct H0 as (_ & _ & _ & _ & _ & _ & _ & _ & P & X & _). unfold top in P. lia. }
  destruct (con_put_R c p (to_wide 63) H0 Y) as (c1 & E1 & R1). set (p1 := put p (to_wide 63)) in *.
  assert (X1 : (pos p1 mod 32 =? 0) = (cx c1 =? 0)). { destruct R1 as [(_ & _ & _ & _ & _ & _ & _ & _ & P & X & _) _]. unfold top in P. lia. }
  rewrite X1. set (p2 := if cx c1 =? 0 then p1 else newline p1). set (c2 := if cx c1 =? 0 then c1 else con_newline c1 true).
  assert (R2 : R c2 p2). { unfold c2, p2. destruct (cx c1 =? 0); [exact R1|apply con_newline_R, R1]. }
  assert (E2 : con_prompt c None = Ok c2). { unfold con_prompt. cbn [bind]. rewrite E1. reflexivity. }
  destruct (Z.leb_spec (lines p2) (pos p2 / 32)) as [G2|G2]; cbn [orb]; [exact I|]. destruct (forallb _ _) eqn:B; cbn [negb]; [|exact I].
  exists c2. split; [exact E2|]. split; [exact R2|].
  assert (P2 : pos p2 mod 32 = 0). { unfold p2. destruct (cx c1 =? 0) eqn:Q; [lia|]. unfold newline, need. cbn [pos with_pos]. lia. }
  destruct R2 as [R2 _]. pose proof R2 as R2'. destruct R2 as (L & M & T & C & K & _ & _ & _ & P & X & Y2). unfold top in P.
  assert (X0 : cx c2 = 0) by lia. assert (Y3 : cy c2 < 24) by lia. split; [exact X0|]. split; [exact Y3|]. intros x Hx.
  destruct (row_cells c2 p2 x R2' X0 Y3 Hx) as [-> ->]. rewrite forallb_forall in B.
  specialize (B (nth (Z.to_nat (pos p2 + x)) (cells p2) (0, 0))). rewrite K.
  assert (Q : In (nth (Z.to_nat (pos p2 + x)) (cells p2) (0, 0)) (firstn 32 (skipn (Z.to_nat (pos p2)) (cells p2)))).
  { replace (Z.to_nat (pos p2 + x)) with (Z.to_nat (pos p2) + Z.to_nat x)%nat by lia. rewrite <- nth_skipn'. rewrite <- (nth_firstn_lt 32 (skipn (Z.to_nat (pos p2)) (cells p2))) by lia.
    apply nth_In. rewrite firstn_length, skipn_length. lia. }
  specialize (B Q). lia.
Qed.

(** ** the colours of the row *)
Definition hued (y k : Z) (c : console) : Prop := forall i, 0 <= i < 32 -> c_at y c i = k.
Lemma step_hued y c0 l e k : 0 <= y <= 23 -> inv y c0 l e -> full l = false -> hued y (col c0) (e_con e) -> forall e', edit_step e k = Ok e' -> hued y (col c0) (e_con e').
Proof.
  intros Hy ((L1 & L2 & L3) & C1 & C2 & Ei & Em & N32 & T & CC & O) F H e'. assert (OK : okc y (e_con e)) by (repeat split; assumption).
  assert (M : e_max e <= 31). { unfold full in F. apply Nat.leb_gt in F. lia. }
  assert (I0 : 0 <= e_i e <= e_max e). { rewrite Ei, Em. unfold cursor, typed. rewrite app_length, rev_length. lia. }
  unfold edit_step. intros E. destruct (edit_keys e k) as [e1| |] eqn:EK; cbn [bind] in E; try discriminate. injection E as <-. cbn [e_con].
  change (hued y (col c0) (e_con e1)). revert EK. unfold edit_keys. destruct (k_lr k); [intros [= <-]; exact H|]. destruct (k_back k).
  { destruct (e_i e >? 0) eqn:Z0; [|intros [= <-]; exact H].
    destruct (back_ok y Hy (Z.to_nat (e_max e - (e_i e - 1))) (e_i e - 1) (e_con e) OK ltac:(lia) ltac:(lia)) as (c1 & E1 & _ & K1 & V1). rewrite E1. cbn [bind].
    destruct (set_text_ok y c1 (e_max e - 1) 0 (kept_ok y Hy _ _ (K1 ltac:(lia))) ltac:(lia)) as (c2 & E2 & _ & V2). rewrite E2. cbn [bind]. intros [= <-]. cbn [e_con]. intros i Hi.
    destruct (V2 i ltac:(lia)) as [_ ->]. destruct (V1 i ltac:(lia)) as [_ ->]. destruct (_ && _) eqn:B; apply H; lia. }
  destruct (k_del k).
  { destruct (e_i e <? e_max e) eqn:Z0; [|intros [= <-]; exact H].
    destruct (back_ok y Hy (Z.to_nat (e_max e - e_i e)) (e_i e) (e_con e) OK ltac:(lia) ltac:(lia)) as (c1 & E1 & _ & K1 & V1). rewrite E1. cbn [bind].
    destruct (set_text_ok y c1 (e_max e - 1) 0 (kept_ok y Hy _ _ (K1 ltac:(lia))) ltac:(lia)) as (c2 & E2 & _ & V2). rewrite E2. cbn [bind]. intros [= <-]. cbn [e_con]. intros i Hi.
    destruct (V2 i ltac:(lia)) as [_ ->]. destruct (V1 i ltac:(lia)) as [_ ->]. destruct (_ && _) eqn:B; apply H; lia. }
  destruct (k_char k =? 13); [intros [= <-]; exact H|]. destruct (_ && _).
  { destruct (on_ok y Hy (Z.to_nat (e_max e - e_i e)) (e_i e) (e_con e) OK ltac:(lia) ltac:(lia)) as (c1 & E1 & N1 & K1 & V1). rewrite E1. cbn [bind].
    assert (OK1 : okc y c1 /\ col c1 = col (e_con e)). { destruct (Z.to_nat (e_max e - e_i e)); [rewrite (N1 eq_refl); auto|]. specialize (K1 ltac:(discriminate)). split; [apply (kept_ok y Hy _ _ K1)|]. apply K1. }
    destruct OK1 as [OK1 Q1]. destruct (set_ok y c1 (e_i e) (k_char k) (col c1) OK1 ltac:(lia)) as (c2 & E2 & _ & V2). rewrite E2. cbn [bind]. intros [= <-]. cbn [e_con]. intros i Hi.
    destruct (V2 i ltac:(lia)) as [_ ->]. destruct (i =? e_i e); [congruence|]. destruct (V1 i ltac:(lia)) as [_ ->]. destruct (_ && _) eqn:B; apply H; lia. }
  destruct (k_left k); [intros [= <-]; exact H|]. destruct (k_right k); intros [= <-]; exact H.
Qed.
Lemma loop_hued c0 : sound c0 -> forall l ks l' b r, typing l ks l' b r -> forall e, inv (cy c0) c0 l e -> never_full l ks = true -> hued (cy c0) (col c0) (e_con e) ->
  exists e', edit_loop e ks = Ok (Some (e_con e', b, r)) /\ inv (cy c0) c0 l' e' /\ cx (e_con e') = cursor l' /\ hued (cy c0) (col c0) (e_con e').
Proof.
  intros (S1 & S2 & S3) l ks l' b r T. induction T as [l k t B|l k t B F|l k t l' b r B F T IH]; intros e I R H; cbn [edit_loop]; cbn [never_full] in R; apply andb_true_iff in R; destruct R as (R & R2); apply negb_true_iff in R;
    destruct (step_inv (cy c0) S3 c0 l e k I ltac:(right; exact R)) as (e1 & E1 & I1 & X1); pose proof (step_hued _ _ _ _ _ S3 I R H _ E1) as H1; rewrite E1; cbn [bind]; unfold breaks in B; rewrite B.
  - exists e1. auto.
  - unfold finishes in F. rewrite F. exists e1. auto.
  - unfold finishes in F. rewrite F. apply IH; [exact I1| |exact H1]. unfold breaks, finishes in R2. rewrite B, F in R2. exact R2.
Qed.
(** ** an answer on the page *)
Definition empty_row (c : console) : Prop := forall x, 0 <= x < 32 -> nth (Z.to_nat (32 * cy c + x)) (Console.text c) 0 = 0 /\ nth (Z.to_nat (32 * cy c + x)) (Console.color c) 0 = col c.
Lemma R0_sound c p : R0 c p -> cy c < 24 -> sound c.
Proof. intros (L & M & T & C & _ & _ & _ & _ & P & X & Y) Y0. unfold sound. rewrite T, C, !map_length, visible_length by assumption. lia. Qed.
Lemma line_ok c p ks l rest t : R c p -> cx c = 0 -> cy c < 24 -> empty_row c -> typing ([], []) ks l false rest -> never_full ([], []) ks = true ->
  typed l = map to_wide t -> (length t <= 31)%nat ->
  exists c1, shared_input c ks = Ok (Some (c1, false, rest)) /\ row c1 = map to_wide (t ++ repeat 0 (32 - length t)) /\ R (con_newline c1 true) (written p t) /\ shows c c1 (typed l).
Proof.
  intros [HR HRc] X0 Y0 Em T NF Ty Lt. pose proof (R0_sound c p HR Y0) as S.
  assert (B : blank_row c (cy c)). { intros x Hx. unfold LineInputSpec.cell. apply Em, Hx. }
  destruct (loop_hued c S _ _ _ _ _ T _ (inv_start c S B) NF ltac:(intros i Hi; apply Em, Hi)) as (e & E & I & X & H). pose proof (inv_shows c l e S I) as Sh.
  exists (e_con e). split; [exact E|]. split; [rewrite Ty in Sh; apply (row_bytes _ _ _ Sh); lia|]. split; [|exact Sh].
  set (c1 := e_con e) in *. set (ws := map to_wide t). assert (Lw : length ws = length t) by apply map_length.
  destruct HR as (L & M & Tx & C & K & Tb & T1 & C1 & P & X1 & Y1). unfold top in P.
  assert (Hcur : 0 <= cx c1 <= 31). { rewrite X. unfold cursor. pose proof (f_equal (@length Z) Ty) as Q. unfold typed in Q. rewrite app_length, rev_length, map_length in Q. lia. }
  destruct (puts_row ws p ltac:(lia) L ltac:(lia)) as (Lq & Pq & Cq & Tq & Nq). set (q := puts p ws) in *.
  assert (Li : lines q = lines p) by (unfold lines; rewrite Lq; reflexivity).
  destruct Sh as ((S1 & S2 & S3) & Ey & Ec & Et & Tt & _ & Ot).
  assert (R1 : R c1 (with_pos q (pos p + cx c1))).
  { split; [|left; lia]. unfold R0. assert (Li2 : lines (with_pos q (pos p + cx c1)) = lines p) by exact Li.
    assert (Lc : length (visible (with_pos q (pos p + cx c1))) = 768%nat) by (apply visible_length; [cbn [cells with_pos]|]; lia).
    assert (Nth : forall i, (i < 768)%nat -> nth i (visible (with_pos q (pos p + cx c1))) (0, 0) = (nth i (Console.text c1) 0, nth i (Console.color c1) 0)).
    { intros i Hi. unfold visible, top. rewrite Li2. cbn [cells with_pos]. rewrite nth_skipn'. rewrite Nq by lia.
      assert (Old : forall j, (j < 768)%nat -> nth (Z.to_nat (32 * (lines p - 24)) + j) (cells p) (0, 0) = (nth j (Console.text c) 0, nth j (Console.color c) 0)).
      { intros j Hj. rewrite Tx, C. unfold visible, top. rewrite <- nth_skipn'. change 0 with (fst (0, 0)) at 3. change 0 with (snd (0, 0)) at 5. rewrite !map_nth. apply surjective_pairing. }
      assert (Iy : Z.of_nat i / 32 <> cy c -> nth i (Console.text c1) 0 = nth i (Console.text c) 0 /\ nth i (Console.color c1) 0 = nth i (Console.color c) 0).
      { intros N. specialize (Ot (Z.of_nat i mod 32) (Z.of_nat i / 32) ltac:(lia) ltac:(lia) N). unfold LineInputSpec.cell, hue in Ot. replace (Z.to_nat (32 * (Z.of_nat i / 32) + Z.of_nat i mod 32)) with i in Ot by lia. exact Ot. }
      destruct (Z.eq_dec (Z.of_nat i / 32) (cy c)) as [Q|Q].
      - assert (Cl : nth i (Console.color c1) 0 = colr p). { specialize (H (Z.of_nat i mod 32) ltac:(lia)). unfold c_at in H. replace (Z.to_nat (32 * cy c + Z.of_nat i mod 32)) with i in H by lia. congruence. }
        assert (Tl : nth i (Console.text c1) 0 = nth (Z.to_nat (Z.of_nat i mod 32)) ws 0). { specialize (Tt (Z.of_nat i mod 32) ltac:(lia)). unfold LineInputSpec.cell in Tt. replace (Z.to_nat (32 * cy c + Z.of_nat i mod 32)) with i in Tt by lia. rewrite Tt, Ty. reflexivity. }
        rewrite Cl, Tl. destruct (_ && _) eqn:Z0.
        + f_equal. f_equal. lia.
        + rewrite Old by exact Hi. destruct (Em (Z.of_nat i mod 32) ltac:(lia)) as [E1 E2]. replace (Z.to_nat (32 * cy c + Z.of_nat i mod 32)) with i in E1, E2 by lia. rewrite E1, E2, K. f_equal. symmetry. apply nth_overflow. lia.
      - destruct (Iy Q) as [-> ->]. replace (_ && _) with false by lia. apply Old, Hi. }
    unfold top. rewrite Li2. split; [cbn [cells with_pos]; rewrite Lq; exact L|]. split; [exact M|]. split; [|split].
    - apply (nth_ext _ _ 0 (fst (0, 0))); [rewrite map_length; exact (eq_trans S1 (eq_sym Lc))|]. intros i Hi. rewrite map_nth, Nth by lia. reflexivity.
    - apply (nth_ext _ _ 0 (snd (0, 0))); [rewrite map_length; exact (eq_trans S2 (eq_sym Lc))|]. intros i Hi. rewrite map_nth, Nth by lia. reflexivity.
    - cbn [colr tab pos with_pos]. rewrite Cq, Tq, Ec, Et. repeat split; try assumption; lia. }
  pose proof (con_newline_R _ _ R1) as G. assert (En : newline (with_pos q (pos p + cx c1)) = written p t).
  { unfold written, newline. fold ws. fold q. cbn [pos with_pos]. rewrite Pq, Lw. replace ((pos p + cx c1) / 32) with ((pos p + Z.of_nat (length t)) / 32) by lia. reflexivity. }
  rewrite En in G. exact G.
Qed.

(** ** the line cut at its commas *)
From Verif Require Machine.
From Verif Require Import Tokens Bytecode Runner NumTextProofs ProgSpec Ideal HostData IdealData IdealVal.
Lemma cut_nonempty t : cut t <> [].
Proof. induction t as [|c t IH]; cbn [cut]; [discriminate|]. destruct (c =? 44); [discriminate|]. destruct (cut t); discriminate. Qed.
Lemma cut_line t : line_of (cut t) = t.
Proof.
  induction t as [|c t IH]; [reflexivity|]. cbn [cut]. pose proof (cut_nonempty t) as N. destruct (Z.eqb_spec c 44) as [->|C].
  - destruct (cut t) as [|f fs]; [contradiction|]. change (line_of ([] :: f :: fs)) with ([] ++ [44] ++ line_of (f :: fs)). rewrite IH. reflexivity.
  - destruct (cut t) as [|f fs]; [contradiction|]. rewrite <- IH. destruct fs; reflexivity.
Qed.
Lemma cut_chars (P : Z -> Prop) t : Forall P t -> Forall (Forall (fun c => P c /\ c <> 44)) (cut t).
Proof.
  induction 1 as [|c t Pc F IH]; cbn [cut]; [repeat constructor|]. destruct (Z.eqb_spec c 44) as [->|C]; [constructor; [constructor|exact IH]|].
  destruct (cut t) as [|f fs]; [repeat constructor; assumption|]. inversion IH; subst. constructor; [constructor; auto|assumption].
Qed.
Lemma cut_commas t : Forall byte_ok t -> (comma_count (map to_wide t) + 1)%nat = length (cut t).
Proof.
  induction 1 as [|c t Pc F IH]; [reflexivity|]. change (c :: t) with ([c] ++ t). rewrite map_app, count_app. cbn [app cut]. pose proof (cut_nonempty t) as N. destruct (Z.eqb_spec c 44) as [->|C].
  - change (comma_count (map to_wide [44])) with 1%nat. cbn [length]. lia.
  - rewrite (count_none [c]) by (repeat constructor; [apply Pc|apply Pc|exact C]). destruct (cut t); [contradiction|]. cbn [length] in *. lia.
Qed.
(** ** the fields *)
Definition amatch (x : thing) (v : ival) : Prop := match x, v with Number z, IVNum w => z = w | Words t, IVStr s => Machine.bytes_of s = t | _, _ => False end.
Definition kind_of (b : bool) : LineInput.ivar := if b then IStr else INum.
Lemma plain_field t z : Forall byte_ok t -> answer_number t = Ok z -> field_value INum t (IVNum z).
Proof.
  intros F2. unfold answer_number, plain_number. set (neg := Ideal.is_char 45 t). assert (T : t = (if neg then [45] else []) ++ (if neg then tl t else t)).
  { unfold neg. destruct t as [|c t]; [reflexivity|]. cbn [Ideal.is_char tl]. destruct (Z.eqb_spec c 45); [subst; reflexivity|reflexivity]. }
  clearbody neg. assert (F3 : Forall (fun c => 0 <= c < 256) (if neg then tl t else t)). { destruct neg; [|exact F2]. destruct F2; [constructor|assumption]. }
  cbv zeta. destruct (leading 10 (if neg then tl t else t)) as [ds r] eqn:L. destruct (leading_spec 10 ltac:(lia) _ _ _ L F3) as (E & D & R & _). destruct ds as [|d ds]; [discriminate|].
  assert (V : forall fs, digits 10 fs -> t = decimal_text neg (d :: ds) fs ->
    (if (524288 <=? numeral 10 (d :: ds)) || (6 <? Z.of_nat (length fs)) || (16 <? Z.of_nat (length t)) then UB
     else Ok (if neg then - (numeral 10 (d :: ds) * 4096 + 4096 * numeral 10 fs / 10 ^ Z.of_nat (length fs)) else numeral 10 (d :: ds) * 4096 + 4096 * numeral 10 fs / 10 ^ Z.of_nat (length fs))) = Ok z -> field_value INum t (IVNum z)).
  { intros fs Df Et. destruct (_ || _) eqn:B; [discriminate|]. rewrite !Bool.orb_false_iff in B. destruct B as [[B1 B2] B3]. intros [= <-].
    pose proof (fv_num neg (d :: ds) fs ltac:(discriminate) D Df ltac:(lia) ltac:(lia)) as I. cbv zeta in I. rewrite <- Et in I. exact I. }
  rewrite E in T. destruct r as [|c r].
  - apply V; [constructor|]. rewrite T. unfold decimal_text. rewrite app_nil_r. reflexivity.
  - destruct (Z.eqb_spec c 46) as [->|]; [|discriminate]. destruct (leading 10 r) as [fs u] eqn:L2. destruct (leading_spec 10 ltac:(lia) _ _ _ L2 (Forall_inv_tail R)) as (E2 & D2 & _).
    destruct fs as [|f fs]; [discriminate|]. destruct u; [|discriminate]. apply V; [exact D2|]. rewrite T. unfold decimal_text. rewrite E2, app_nil_r. reflexivity.
Qed.
Lemma answer_number_err t e : answer_number t <> Err e.
Proof.
  unfold answer_number, plain_number. cbv zeta. destruct (leading 10 _) as [[|d ds] [|c r]]; try discriminate; [destruct (_ || _); discriminate|]. destruct (c =? 46); [|discriminate].
  destruct (leading 10 r) as [[|f fs] [|]]; try discriminate. destruct (_ || _); discriminate.
Qed.
Lemma answers_fields : forall ks fs, Forall (Forall (fun c => 0 < c < 256 /\ c <> 44)) fs -> length fs = length ks ->
  match answers ks fs with
  | Ok xs => exists vals, Forall2 (fun vf x => field_value (fst vf) (snd vf) x) (combine (map kind_of ks) fs) vals /\ Forall2 amatch xs vals
  | Err _ => False | UB => True end.
Proof.
  induction ks as [|k ks IH]; intros [|f fs] F L; cbn [answers]; try exact I; [exists []; split; constructor|]. inversion F as [|? ? F1 F2]; subst. cbn [length] in L. specialize (IH fs F2 ltac:(lia)). cbn [map combine].
  assert (X : match (if k then Ok (Words f) else let* z := answer_number f in Ok (Number z)) with Ok x => exists v, field_value (kind_of k) f v /\ amatch x v | Err _ => False | UB => True end).
  { destruct k; [exists (IVStr (SChar f)); split; [constructor; exact F1|reflexivity]|]. destruct (answer_number f) as [z|e|] eqn:Q; cbn [bind]; [| |exact I].
    - exists (IVNum z). split; [apply plain_field; [eapply Forall_impl; [|exact F1]; intros c Hc; cbn beta in Hc; unfold byte_ok; lia|exact Q]|reflexivity].
    - exact (answer_number_err _ _ Q). }
  destruct (if k then Ok (Words f) else let* z := answer_number f in Ok (Number z)) as [x|e|]; cbn [bind]; [|exact X|exact I]. destruct X as (v & V & M).
  destruct (answers ks fs) as [xs|e|]; cbn [bind]; [|exact IH|exact I]. destruct IH as (vals & V2 & M2). exists (v :: vals). split; constructor; assumption.
Qed.
Lemma bytes_pos t : Forall (fun c => 0 < c < 256) t -> Forall byte_ok t.
Proof. apply Forall_impl. intros c Hc. unfold byte_ok. lia. Qed.
(** the fields of a line that is an answer *)
Lemma fields_answer ks t xs : Forall (fun c => 0 < c < 256) t -> (length t <= 31)%nat -> length (cut t) = length ks -> answers ks (cut t) = Ok xs ->
  exists vals, fields 40 (map to_wide (t ++ repeat 0 (32 - length t))) (map kind_of ks) 0 0 [] = Ok (vals, true) /\ Forall2 amatch xs vals /\ length vals = length ks.
Proof.
  intros F L C A. pose proof (answers_fields ks (cut t) (cut_chars _ _ F) C) as X. rewrite A in X. destruct X as (vals & V & M). exists vals.
  assert (Lv : length vals = length ks). { clear - V C. assert (L2 : length (combine (map kind_of ks) (cut t)) = length vals) by (induction V; cbn [length]; congruence). rewrite combine_length, map_length in L2. lia. }
  split; [|auto]. apply (all_fields (cut t) (map kind_of ks) vals V ltac:(rewrite map_length; exact C) (cut_nonempty t) (t ++ repeat 0 (32 - length t)) [] (32 - length t) []); rewrite ?cut_line; try (cbn [app length]; lia); [|reflexivity].
  apply zeros_ok, bytes_pos, F.
Qed.
(** the first variable is a number and the line does not look like one *)
Lemma fields_redo ks t n : Forall (fun c => 0 < c < 256) t -> (match t with c :: _ => negb (numeric c) | [] => true end) = true ->
  fields 40 (map to_wide (t ++ repeat 0 n)) (INum :: ks) 0 0 [] = Ok ([], false).
Proof.
  intros F N. change 40%nat with (S 39). generalize 39%nat as fu. intros fu. cbn [fields]. rewrite nth_wide by (apply zeros_ok, bytes_pos, F). change (Nat.leb 32 0) with false.
  set (b := nth 0 (t ++ repeat 0 n) 0). assert (B : is_digit b || (b =? 46) || (b =? 45) = false).
  { unfold b. destruct t as [|c t]; [destruct n; reflexivity|]. cbn [app nth]. unfold numeric in N. unfold is_digit. inversion F; subst. lia. }
  rewrite B. change (1 - 0 - 1)%nat with 0%nat. rewrite Nat.eqb_refl. destruct (_ || _ || _ || _); reflexivity.
Qed.

(** ** a question *)
Lemma line_short c ks l e rest : shared_input c ks = Ok (Some (l, e, rest)) -> (length rest < length ks)%nat.
Proof. apply loop_rest. Qed.
Lemma reprompt_page c p t : R (con_newline c true) (written p t) ->
  match ask (print (written p t) [Console.Text (map to_wide redo)]) with
  | Ok p' => exists c', con_reprompt c None = Ok c' /\ R c' p' /\ cx c' = 0 /\ cy c' < 24 /\ empty_row c'
  | Err _ => False | UB => True end.
Proof.
  intros H. destruct (con_puts_R _ _ redo_text H) as (c1 & E & R1). pose proof (ask_ok _ _ (con_newline_R _ _ R1)) as A.
  change (print (written p t) [Console.Text (map to_wide redo)]) with (ConsoleSpec.newline (puts (need (written p t)) redo_text)).
  destruct (ask _) as [p'|e|]; [|exact A|exact I]. destruct A as (c' & E2 & R2 & X). exists c'. unfold con_reprompt. rewrite E. cbn [bind]. auto.
Qed.
Lemma broken_ok c p ks : R c p -> cy c < 24 -> empty_row c -> breaks_off ks -> exists c1 rest, shared_input c ks = Ok (Some (c1, true, rest)).
Proof.
  intros [HR _] Y Em (l & rest & T & N). destruct (C49_editing_partial c ks l true rest (R0_sound _ _ HR Y) ltac:(intros x Hx; unfold LineInputSpec.cell; apply Em, Hx) T ltac:(auto)) as (c1 & E & _). eauto.
Qed.
Lemma question_ok kinds : forall n todo ks c p vals, player todo ks -> (length ks < n)%nat -> length vals = length kinds -> R c p -> cx c = 0 -> cy c < 24 -> empty_row c ->
  match question kinds p todo with
  | Ok (xs, p', todo') => exists c' vs ks', input_rest n c None (map kind_of kinds) vals ks = Ok (Answer c' (vs, ks')) /\ R c' p' /\ player todo' ks' /\ Forall2 amatch xs vs
  | Err e => e = ERR_BREAK /\ exists c' a, input_rest n c None (map kind_of kinds) vals ks = Ok (Broken c' a)
  | UB => True
  end.
Proof.
  induction n as [|n IH]; intros todo ks c p vals P N Lv H X Y Em; [lia|]. destruct P as [ks|t todo ks rest (l & T & NF & Ty & Ft & Lt) P|todo ks B]; cbn [question].
  - exact I.
  - destruct (line_ok c p ks l rest t H X Y Em T NF Ty Lt) as (c1 & E & Rw & R1 & _). cbn [input_rest]. rewrite E. cbn [bind]. rewrite Rw, commas_row, map_length. pose proof (line_short _ _ _ _ _ E) as Sh.
    assert (Cc : (Z.of_nat (length kinds) =? Z.of_nat (comma_count (map to_wide t)) + 1) = (length (cut t) =? length kinds)%nat). { rewrite <- (cut_commas t (bytes_pos _ Ft)). lia. }
    rewrite Cc. unfold no_answer. destruct (Nat.eqb_spec (length (cut t)) (length kinds)) as [C|C]; cbn [negb orb].
    + destruct (match kinds with false :: _ => _ | _ => false end) eqn:Nn.
      * destruct kinds as [|[|] kinds]; try discriminate Nn. cbn [map]. change (kind_of false) with INum. rewrite fields_redo by assumption. cbn [bind fst snd].
        pose proof (reprompt_page c1 p t R1) as Q. destruct (ask _) as [p'|e|]; cbn [bind]; [|contradiction|exact I]. destruct Q as (c2 & -> & R2 & X2 & Y2 & Em2). cbn [bind]. unfold overlay. cbn [app length skipn].
        change (INum :: map kind_of kinds) with (map kind_of (false :: kinds)). apply IH; auto. lia.
      * pose proof (answers_fields kinds (cut t) (cut_chars _ _ Ft) C) as A0. destruct (answers kinds (cut t)) as [xs|e|] eqn:A; cbn [bind]; [|contradiction|exact I]. clear A0.
        destruct (fields_answer kinds t xs Ft Lt C A) as (vs & -> & M & Lvs). cbn [bind fst snd]. exists (con_newline c1 true), vs, rest. unfold overlay. rewrite skipn_all2 by lia. rewrite app_nil_r. auto.
    + pose proof (reprompt_page c1 p t R1) as Q. destruct (ask _) as [p'|e|]; cbn [bind]; [|contradiction|exact I]. destruct Q as (c2 & -> & R2 & X2 & Y2 & Em2). cbn [bind]. apply IH; auto. lia.
  - split; [reflexivity|]. destruct (broken_ok c p ks H Y Em B) as (c1 & rest & E). cbn [input_rest]. rewrite E. cbn [bind]. eauto.
Qed.
