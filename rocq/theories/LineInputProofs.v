(** The line editor of INPUT and LINPUT refines the specification. *)
From Verif Require Import Base BaseLemmas Strs StrProofs NumText Console LineInput LineInputSpec.
Ltac Zify.zify_post_hook ::= Z.div_mod_to_equations.
Open Scope Z_scope.

(** cells by their index in the row; the row [y] *)
Section Cells.
Variable y : Z.
Hypothesis Hy : 0 <= y <= 23.
Definition t_at (c : console) (i : Z) : Z := nth (Z.to_nat (32 * y + i)) (text c) 0.
Definition c_at (c : console) (i : Z) : Z := nth (Z.to_nat (32 * y + i)) (color c) 0.
(** lengths, row and settings *)
Definition kept (c c' : console) : Prop :=
  length (text c') = 768%nat /\ length (color c') = 768%nat /\ cy c' = y /\ col c' = col c /\ tabstep c' = tabstep c.
Definition okc (c : console) : Prop := length (text c) = 768%nat /\ length (color c) = 768%nat /\ cy c = y.
Lemma get_ok c i : okc c -> 0 <= 32 * y + i < 768 -> get_cell c i = Ok (t_at c i, c_at c i).
Proof. intros (_ & _ & E) H. unfold get_cell, CW. rewrite E. replace (y * 32 + i) with (32 * y + i) by ring. replace ((0 <=? 32 * y + i) && (32 * y + i <? 768)) with true by lia. reflexivity. Qed.
Lemma set_ok c i t cl : okc c -> 0 <= 32 * y + i < 768 ->
  exists c', set_cell c i t cl = Ok c' /\ kept c c' /\ (forall j, 0 <= 32 * y + j < 768 -> t_at c' j = (if j =? i then t else t_at c j) /\ c_at c' j = (if j =? i then cl else c_at c j)).
Proof.
  intros (L1 & L2 & E) H. unfold set_cell, CW. rewrite E. replace (y * 32 + i) with (32 * y + i) by ring. replace ((0 <=? 32 * y + i) && (32 * y + i <? 768)) with true by lia.
  eexists. split; [reflexivity|]. split.
  - unfold kept, with_cells. cbn [text color cy col tabstep]. rewrite !upd_length. auto.
  - intros j Hj. unfold t_at, c_at, with_cells. cbn [text color]. destruct (Z.eqb_spec j i) as [->|N]; [split; apply nth_upd_same; lia|split; apply nth_upd_other; lia].
Qed.
Lemma set_text_ok c i t : okc c -> 0 <= 32 * y + i < 768 ->
  exists c', set_text c i t = Ok c' /\ kept c c' /\ (forall j, 0 <= 32 * y + j < 768 -> t_at c' j = (if j =? i then t else t_at c j) /\ c_at c' j = c_at c j).
Proof.
  intros (L1 & L2 & E) H. unfold set_text, CW. rewrite E. replace (y * 32 + i) with (32 * y + i) by ring. replace ((0 <=? 32 * y + i) && (32 * y + i <? 768)) with true by lia.
  eexists. split; [reflexivity|]. split.
  - unfold kept, with_cells. cbn [text color cy col tabstep]. rewrite !upd_length. auto.
  - intros j Hj. unfold t_at, c_at, with_cells. cbn [text color]. destruct (Z.eqb_spec j i) as [->|N]; (split; [|reflexivity]); [apply nth_upd_same; lia|apply nth_upd_other; lia].
Qed.
Lemma kept_ok c c' : kept c c' -> okc c'. Proof. unfold kept, okc. tauto. Qed.
Lemma kept_trans a b c : kept a b -> kept b c -> kept a c. Proof. unfold kept. intuition congruence. Qed.
Lemma back_ok : forall n i c, okc c -> 0 <= 32 * y + i -> 32 * y + i + Z.of_nat n < 768 ->
  exists c', move_back n i c = Ok c' /\ (n = O -> c' = c) /\ (n <> O -> kept c c') /\
   (forall j, 0 <= 32 * y + j < 768 -> t_at c' j = (if (i <=? j) && (j <? i + Z.of_nat n) then t_at c (j + 1) else t_at c j) /\ c_at c' j = (if (i <=? j) && (j <? i + Z.of_nat n) then c_at c (j + 1) else c_at c j)).
Proof.
  induction n as [|n IH]; intros i c O A B.
  - exists c. split; [reflexivity|]. split; [reflexivity|]. split; [congruence|]. intros j Hj. replace ((i <=? j) && (j <? i + Z.of_nat 0)) with false by lia. auto.
  - cbn [move_back]. rewrite get_ok by (assumption || lia). cbn [bind fst snd]. destruct (set_ok c i (t_at c (i + 1)) (c_at c (i + 1)) O ltac:(lia)) as (c1 & E1 & K1 & V1).
    rewrite E1. cbn [bind]. destruct (IH (i + 1) c1 (kept_ok _ _ K1) ltac:(lia) ltac:(lia)) as (c2 & E2 & N2 & K2 & V2). exists c2. split; [exact E2|]. split; [discriminate|]. split.
    + intros _. destruct n as [|n]; [rewrite (N2 eq_refl); exact K1|]. apply kept_trans with c1; [exact K1|apply K2; discriminate].
    + intros j Hj. destruct (V2 j Hj) as (W1 & W2). rewrite W1, W2. destruct (V1 j Hj) as (X1 & X2).
      destruct (Z.eq_dec j i) as [->|N].
      * replace ((i + 1 <=? i) && (i <? i + 1 + Z.of_nat n)) with false by lia. replace ((i <=? i) && (i <? i + Z.of_nat (S n))) with true by lia. rewrite X1, X2, Z.eqb_refl. auto.
      * replace ((i <=? j) && (j <? i + Z.of_nat (S n))) with ((i + 1 <=? j) && (j <? i + 1 + Z.of_nat n)) by lia.
        destruct ((i + 1 <=? j) && (j <? i + 1 + Z.of_nat n)) eqn:G.
        -- destruct (V1 (j + 1) ltac:(lia)) as (Y1 & Y2). rewrite Y1, Y2. replace (j + 1 =? i) with false by lia. auto.
        -- rewrite X1, X2. replace (j =? i) with false by lia. auto.
Qed.
Lemma on_ok : forall n i c, okc c -> 0 <= 32 * y + i -> 32 * y + i + Z.of_nat n < 768 ->
  exists c', move_on n i c = Ok c' /\ (n = O -> c' = c) /\ (n <> O -> kept c c') /\
   (forall j, 0 <= 32 * y + j < 768 -> t_at c' j = (if (i <? j) && (j <=? i + Z.of_nat n) then t_at c (j - 1) else t_at c j) /\ c_at c' j = (if (i <? j) && (j <=? i + Z.of_nat n) then c_at c (j - 1) else c_at c j)).
Proof.
  induction n as [|n IH]; intros i c O A B.
  - exists c. split; [reflexivity|]. split; [reflexivity|]. split; [congruence|]. intros j Hj. replace ((i <? j) && (j <=? i + Z.of_nat 0)) with false by lia. auto.
  - cbn [move_on]. rewrite get_ok by (assumption || lia). cbn [bind fst snd]. destruct (set_ok c (i + Z.of_nat n + 1) (t_at c (i + Z.of_nat n)) (c_at c (i + Z.of_nat n)) O ltac:(lia)) as (c1 & E1 & K1 & V1).
    rewrite E1. cbn [bind]. destruct (IH i c1 (kept_ok _ _ K1) ltac:(lia) ltac:(lia)) as (c2 & E2 & N2 & K2 & V2). exists c2. split; [exact E2|]. split; [discriminate|]. split.
    + intros _. destruct n as [|n]; [rewrite (N2 eq_refl); exact K1|]. apply kept_trans with c1; [exact K1|apply K2; discriminate].
    + intros j Hj. destruct (V2 j Hj) as (W1 & W2). rewrite W1, W2. destruct (V1 j Hj) as (X1 & X2).
      destruct (Z.eq_dec j (i + Z.of_nat n + 1)) as [->|N].
      * replace ((i <? i + Z.of_nat n + 1) && (i + Z.of_nat n + 1 <=? i + Z.of_nat n)) with false by lia. replace ((i <? i + Z.of_nat n + 1) && (i + Z.of_nat n + 1 <=? i + Z.of_nat (S n))) with true by lia.
        rewrite X1, X2, Z.eqb_refl. replace (i + Z.of_nat n + 1 - 1) with (i + Z.of_nat n) by lia. auto.
      * replace ((i <? j) && (j <=? i + Z.of_nat (S n))) with ((i <? j) && (j <=? i + Z.of_nat n)) by lia.
        destruct ((i <? j) && (j <=? i + Z.of_nat n)) eqn:G.
        -- destruct (V1 (j - 1) ltac:(lia)) as (Y1 & Y2). rewrite Y1, Y2. replace (j - 1 =? i + Z.of_nat n + 1) with false by lia. auto.
        -- rewrite X1, X2. replace (j =? i + Z.of_nat n + 1) with false by lia. auto.
Qed.

(** ** The invariant *)
Variable c0 : console.
Definition inv (l : line) (e : edit) : Prop :=
  let n := Z.of_nat (length (typed l)) in
  okc (e_con e) /\ col (e_con e) = col c0 /\ tabstep (e_con e) = tabstep c0 /\ e_i e = cursor l /\ e_max e = n /\ n <= 32 /\
  (forall i, 0 <= i < 32 -> t_at (e_con e) i = nth (Z.to_nat i) (typed l) 0) /\ (forall i, 0 <= i < n -> c_at (e_con e) i = col c0) /\
  (forall i, 0 <= 32 * y + i < 768 -> ~ 0 <= i < 32 -> t_at (e_con e) i = t_at c0 i /\ c_at (e_con e) i = c_at c0 i).
Lemma typed_length b a : length (typed (b, a)) = (length b + length a)%nat.
Proof. unfold typed. cbn [fst snd]. rewrite app_length, rev_length. reflexivity. Qed.
Lemma nth_typed b a i : nth i (typed (b, a)) 0 = if Nat.ltb i (length b) then nth (length b - S i) b 0 else nth (i - length b) a 0.
Proof.
  unfold typed. cbn [fst snd]. destruct (Nat.ltb_spec i (length b)) as [L|L].
  - rewrite app_nth1 by (rewrite rev_length; exact L). rewrite rev_nth by exact L. reflexivity.
  - rewrite app_nth2 by (rewrite rev_length; exact L). rewrite rev_length. reflexivity.
Qed.
(** no cell below the screen is looked at: not the last row, or not full *)
Definition room (l : line) : Prop := y < 23 \/ full l = false.
Lemma step_inv l e k : inv l e -> room l -> exists e', edit_step e k = Ok e' /\ inv (press l k) e' /\ cx (e_con e') = cursor (press l k).
Proof.
  intros I R. unfold edit_step.
  assert (G : forall q, (exists e', edit_keys e k = Ok e' /\ inv q e') -> exists e', (let* e := edit_keys e k in Ok {| e_con := set_cursor (e_con e) (e_i e) (cy (e_con e)); e_i := e_i e; e_max := e_max e |}) = Ok e' /\ inv q e' /\ cx (e_con e') = cursor q).
  { intros q (e' & E & I'). rewrite E. cbn [bind]. eexists. split; [reflexivity|]. destruct I' as ((A1 & A2 & A3) & A4 & A5 & A6 & A7). cbn [e_con e_i e_max].
    split; [|unfold set_cursor; cbn [cx]; exact A6]. split; [|split; [|split; [|split; [exact A6|exact A7]]]]; [|exact A4|exact A5]. repeat split; assumption. }
  apply G. clear G. destruct l as [b a]. unfold press, edit_keys.
  pose proof I as ((L1 & L2 & L3) & C1 & C2 & Ei & Em & N32 & T & CC & O). assert (OK : okc (e_con e)) by (repeat split; assumption).
  unfold cursor in Ei. cbn [fst] in Ei. rewrite typed_length in Em, N32. rewrite typed_length in CC.
  assert (RM : y < 23 \/ (length b + length a < 32)%nat) by (destruct R as [R|R]; [left; exact R|right; unfold full in R; rewrite typed_length in R; apply Nat.leb_gt in R; lia]).
  destruct (k_lr k); [exists e; auto|]. destruct (k_back k).
  - destruct b as [|x b].
    { replace (e_i e >? 0) with false by (cbn [length] in Ei; lia). exists e. auto. }
    cbn [length] in Ei, Em, N32, CC, RM. replace (e_i e >? 0) with true by lia. rewrite Ei, Em.
    destruct (back_ok (Z.to_nat (Z.of_nat (S (length b) + length a) - (Z.of_nat (S (length b)) - 1))) (Z.of_nat (S (length b)) - 1) (e_con e) OK ltac:(lia) ltac:(lia)) as (c1 & E1 & N1 & K1 & V1).
    rewrite E1. cbn [bind].
    assert (K1' : kept (e_con e) c1) by (apply K1; lia).
    destruct (set_text_ok c1 (Z.of_nat (S (length b) + length a) - 1) 0 (kept_ok _ _ K1') ltac:(lia)) as (c2 & E2 & K2 & V2). rewrite E2. cbn [bind]. eexists. split; [reflexivity|].
    pose proof (kept_trans _ _ _ K1' K2) as (M1 & M2 & M3 & M4 & M5).
    split; [repeat split; assumption|]. cbn [e_con e_i e_max]. rewrite typed_length. unfold cursor. cbn [fst].
    split; [congruence|]. split; [congruence|]. split; [lia|]. split; [lia|]. split; [lia|]. split; [|split].
    + intros i Hi. destruct (V2 i ltac:(lia)) as (W & _). rewrite W. destruct (Z.eqb_spec i (Z.of_nat (S (length b) + length a) - 1)) as [Q|Q].
      * rewrite nth_overflow; [reflexivity|]. rewrite typed_length. lia.
      * destruct (V1 i ltac:(lia)) as (W' & _). rewrite W'. clear W W'.
        destruct ((Z.of_nat (S (length b)) - 1 <=? i) && (i <? Z.of_nat (S (length b)) - 1 + Z.of_nat (Z.to_nat (Z.of_nat (S (length b) + length a) - (Z.of_nat (S (length b)) - 1))))) eqn:B.
        -- rewrite T by lia. rewrite !nth_typed. cbn [length]. replace (Nat.ltb (Z.to_nat (i + 1)) (S (length b))) with false by (symmetry; apply Nat.ltb_ge; lia).
           replace (Nat.ltb (Z.to_nat i) (length b)) with false by (symmetry; apply Nat.ltb_ge; lia). f_equal. lia.
        -- rewrite T by lia. rewrite !nth_typed. cbn [length]. destruct (Z_lt_dec i (Z.of_nat (length b))) as [Lb|Lb].
           ++ replace (Nat.ltb (Z.to_nat i) (S (length b))) with true by (symmetry; apply Nat.ltb_lt; lia). replace (Nat.ltb (Z.to_nat i) (length b)) with true by (symmetry; apply Nat.ltb_lt; lia).
              replace (S (length b) - S (Z.to_nat i))%nat with (S (length b - S (Z.to_nat i))) by lia. reflexivity.
           ++ replace (Nat.ltb (Z.to_nat i) (S (length b))) with false by (symmetry; apply Nat.ltb_ge; lia). replace (Nat.ltb (Z.to_nat i) (length b)) with false by (symmetry; apply Nat.ltb_ge; lia).
              rewrite !nth_overflow by lia. reflexivity.
    + intros i Hi. destruct (V2 i ltac:(lia)) as (_ & W). rewrite W. destruct (V1 i ltac:(lia)) as (_ & W'). rewrite W'. destruct (_ && _); apply CC; lia.
    + intros i Hi Hn. destruct (V2 i Hi) as (W & W2). rewrite W, W2. replace (i =? _) with false by lia. destruct (V1 i Hi) as (W' & W2'). rewrite W', W2'.
      replace ((Z.of_nat (S (length b)) - 1 <=? i) && (i <? Z.of_nat (S (length b)) - 1 + Z.of_nat (Z.to_nat (Z.of_nat (S (length b) + length a) - (Z.of_nat (S (length b)) - 1))))) with false by lia. apply O; assumption.
  - destruct (k_del k).
    + destruct a as [|x a].
      { replace (e_i e <? e_max e) with false by (cbn [length] in *; lia). exists e. auto. }
      cbn [length] in Em, N32, CC, RM. replace (e_i e <? e_max e) with true by lia. rewrite Ei, Em.
      destruct (back_ok (Z.to_nat (Z.of_nat (length b + S (length a)) - Z.of_nat (length b))) (Z.of_nat (length b)) (e_con e) OK ltac:(lia) ltac:(lia)) as (c1 & E1 & N1 & K1 & V1).
      rewrite E1. cbn [bind].
      assert (K1' : kept (e_con e) c1) by (apply K1; lia).
      destruct (set_text_ok c1 (Z.of_nat (length b + S (length a)) - 1) 0 (kept_ok _ _ K1') ltac:(lia)) as (c2 & E2 & K2 & V2). rewrite E2. cbn [bind]. eexists. split; [reflexivity|].
      pose proof (kept_trans _ _ _ K1' K2) as (M1 & M2 & M3 & M4 & M5).
      split; [repeat split; assumption|]. cbn [e_con e_i e_max]. rewrite typed_length. unfold cursor. cbn [fst].
      split; [congruence|]. split; [congruence|]. split; [lia|]. split; [lia|]. split; [lia|]. split; [|split].
      * intros i Hi. destruct (V2 i ltac:(lia)) as (W & _). rewrite W. destruct (Z.eqb_spec i (Z.of_nat (length b + S (length a)) - 1)) as [Q|Q].
        -- rewrite nth_overflow; [reflexivity|]. rewrite typed_length. lia.
        -- destruct (V1 i ltac:(lia)) as (W' & _). rewrite W'. clear W W'.
           destruct ((Z.of_nat (length b) <=? i) && (i <? Z.of_nat (length b) + Z.of_nat (Z.to_nat (Z.of_nat (length b + S (length a)) - Z.of_nat (length b))))) eqn:B.
           ++ rewrite T by lia. rewrite !nth_typed. replace (Nat.ltb (Z.to_nat (i + 1)) (length b)) with false by (symmetry; apply Nat.ltb_ge; lia).
              replace (Nat.ltb (Z.to_nat i) (length b)) with false by (symmetry; apply Nat.ltb_ge; lia). replace (Z.to_nat (i + 1) - length b)%nat with (S (Z.to_nat i - length b)) by lia. reflexivity.
           ++ rewrite T by lia. rewrite !nth_typed. destruct (Z_lt_dec i (Z.of_nat (length b))) as [Lb|Lb].
              ** replace (Nat.ltb (Z.to_nat i) (length b)) with true by (symmetry; apply Nat.ltb_lt; lia). reflexivity.
              ** replace (Nat.ltb (Z.to_nat i) (length b)) with false by (symmetry; apply Nat.ltb_ge; lia). rewrite !nth_overflow by (cbn [length]; lia). reflexivity.
      * intros i Hi. destruct (V2 i ltac:(lia)) as (_ & W). rewrite W. destruct (V1 i ltac:(lia)) as (_ & W'). rewrite W'. destruct (_ && _); apply CC; lia.
      * intros i Hi Hn. destruct (V2 i Hi) as (W & W2). rewrite W, W2. replace (i =? _) with false by lia. destruct (V1 i Hi) as (W' & W2'). rewrite W', W2'.
        replace ((Z.of_nat (length b) <=? i) && (i <? Z.of_nat (length b) + Z.of_nat (Z.to_nat (Z.of_nat (length b + S (length a)) - Z.of_nat (length b))))) with false by lia. apply O; assumption.
    + destruct (k_char k =? 13); [exists e; auto|].
      replace (negb (k_char k =? 0) && negb (full (b, a))) with (negb (k_char k =? 0) && (e_max e <? CW)).
      2:{ f_equal. unfold full, CW. rewrite typed_length, Em. destruct (Nat.leb_spec 32 (length b + length a)); cbn [negb]; lia. }
      destruct (negb (k_char k =? 0) && (e_max e <? CW)) eqn:F.
      * apply andb_true_iff in F. destruct F as (_ & F). unfold CW in F. rewrite Ei, Em.
        destruct (on_ok (Z.to_nat (Z.of_nat (length b + length a) - Z.of_nat (length b))) (Z.of_nat (length b)) (e_con e) OK ltac:(lia) ltac:(lia)) as (c1 & E1 & N1 & K1 & V1).
        rewrite E1. cbn [bind].
        assert (OK1 : okc c1 /\ col c1 = col (e_con e) /\ tabstep c1 = tabstep (e_con e)).
        { destruct (Z.to_nat (Z.of_nat (length b + length a) - Z.of_nat (length b))); [rewrite (N1 eq_refl); auto|]. assert (Kx := K1 ltac:(discriminate)). split; [apply (kept_ok _ _ Kx)|]. destruct Kx as (_ & _ & _ & Kx). exact Kx. }
        destruct OK1 as (OK1 & Q1 & Q2).
        destruct (set_ok c1 (Z.of_nat (length b)) (k_char k) (col c1) OK1 ltac:(lia)) as (c2 & E2 & K2 & V2). rewrite E2. cbn [bind]. eexists. split; [reflexivity|].
        destruct K2 as (M1 & M2 & M3 & M4 & M5).
        split; [repeat split; assumption|]. cbn [e_con e_i e_max]. rewrite typed_length. unfold cursor. cbn [fst length].
        split; [congruence|]. split; [congruence|]. split; [lia|]. split; [lia|]. split; [lia|]. split; [|split].
        -- intros i Hi. destruct (V2 i ltac:(lia)) as (W & _). rewrite W. rewrite nth_typed. cbn [length]. destruct (Z.eqb_spec i (Z.of_nat (length b))) as [Q|Q].
           ++ replace (Nat.ltb (Z.to_nat i) (S (length b))) with true by (symmetry; apply Nat.ltb_lt; lia). replace (S (length b) - S (Z.to_nat i))%nat with 0%nat by lia. reflexivity.
           ++ destruct (V1 i ltac:(lia)) as (W' & _). rewrite W'. clear W W'.
              destruct ((Z.of_nat (length b) <? i) && (i <=? Z.of_nat (length b) + Z.of_nat (Z.to_nat (Z.of_nat (length b + length a) - Z.of_nat (length b))))) eqn:B.
              ** rewrite T by lia. rewrite nth_typed. replace (Nat.ltb (Z.to_nat (i - 1)) (length b)) with false by (symmetry; apply Nat.ltb_ge; lia).
                 replace (Nat.ltb (Z.to_nat i) (S (length b))) with false by (symmetry; apply Nat.ltb_ge; lia). f_equal. lia.
              ** rewrite T by lia. rewrite nth_typed. destruct (Z_lt_dec i (Z.of_nat (length b))) as [Lb|Lb].
                 --- replace (Nat.ltb (Z.to_nat i) (length b)) with true by (symmetry; apply Nat.ltb_lt; lia). replace (Nat.ltb (Z.to_nat i) (S (length b))) with true by (symmetry; apply Nat.ltb_lt; lia).
                     replace (S (length b) - S (Z.to_nat i))%nat with (S (length b - S (Z.to_nat i))) by lia. reflexivity.
                 --- replace (Nat.ltb (Z.to_nat i) (length b)) with false by (symmetry; apply Nat.ltb_ge; lia). replace (Nat.ltb (Z.to_nat i) (S (length b))) with false by (symmetry; apply Nat.ltb_ge; lia).
                     rewrite !nth_overflow by lia. reflexivity.
        -- intros i Hi. destruct (V2 i ltac:(lia)) as (_ & W). rewrite W. destruct (Z.eqb_spec i (Z.of_nat (length b))) as [Q|Q]; [congruence|]. destruct (V1 i ltac:(lia)) as (_ & W'). rewrite W'.
           destruct ((Z.of_nat (length b) <? i) && _) eqn:B; apply CC; lia.
        -- intros i Hi Hn. destruct (V2 i Hi) as (W & W2). rewrite W, W2. replace (i =? _) with false by lia. destruct (V1 i Hi) as (W' & W2'). rewrite W', W2'.
           replace ((Z.of_nat (length b) <? i) && (i <=? Z.of_nat (length b) + Z.of_nat (Z.to_nat (Z.of_nat (length b + length a) - Z.of_nat (length b))))) with false by lia. apply O; assumption.
      * clear F. assert (MV : forall b' a', typed (b', a') = typed (b, a) -> inv (b', a') {| e_con := e_con e; e_i := Z.of_nat (length b'); e_max := e_max e |}).
        { intros b' a' Q. unfold inv. cbn [e_con e_i e_max]. rewrite Q. split; [exact OK|]. split; [exact C1|]. split; [exact C2|]. split; [reflexivity|].
          rewrite typed_length. split; [exact Em|]. split; [exact N32|]. split; [exact T|]. split; [exact CC|exact O]. }
        destruct (k_left k); [|destruct (k_right k); [|exists e; auto]].
        -- destruct b as [|x b]; cbn [length] in *; eexists; (split; [reflexivity|]).
           ++ replace (e_i e - b2z (e_i e >? 0)) with (Z.of_nat 0) by (rewrite Ei; reflexivity). apply (MV [] a). reflexivity.
           ++ replace (e_i e - b2z (e_i e >? 0)) with (Z.of_nat (length b)). 2:{ replace (e_i e >? 0) with true by lia. change (b2z true) with 1. lia. }
              apply (MV b (x :: a)). unfold typed. cbn [fst snd rev]. rewrite <- app_assoc. reflexivity.
        -- destruct a as [|x a]; cbn [length] in *; eexists; (split; [reflexivity|]).
           ++ replace (e_i e + b2z (e_i e <? e_max e)) with (Z.of_nat (length b)). 2:{ replace (e_i e <? e_max e) with false by lia. change (b2z false) with 0. lia. } apply (MV b []). reflexivity.
           ++ replace (e_i e + b2z (e_i e <? e_max e)) with (Z.of_nat (length (x :: b))). 2:{ replace (e_i e <? e_max e) with true by lia. change (b2z true) with 1. cbn [length]. lia. }
              apply (MV (x :: b) a). unfold typed. cbn [fst snd rev]. rewrite <- app_assoc. reflexivity.
Qed.
End Cells.
