From Verif Require Import Base BaseLemmas Strs StrFuncs StrSpec Num NumProofs.
Ltac Zify.zify_post_hook ::= Z.div_mod_to_equations.

Definition all_codes : list Z := map Z.of_nat (seq 0 256).
Lemma all_codes_in c : 0 <= c < 256 -> In c all_codes.
Proof. intros H. unfold all_codes. replace c with (Z.of_nat (Z.to_nat c)) by lia.
  apply in_map. apply in_seq. lia. Qed.

Lemma codes_roundtrip_b : forallb (fun c => to_char (to_wide c) =? c) all_codes = true.
Proof. vm_compute. reflexivity. Qed.

Lemma to_char_to_wide c : 0 <= c < 256 -> to_char (to_wide c) = c.
Proof. intros H. pose proof codes_roundtrip_b as B. rewrite forallb_forall in B.
  apply Z.eqb_eq, B, all_codes_in, H. Qed.

Lemma to_wide_inj a b : 0 <= a < 256 -> 0 <= b < 256 -> to_wide a = to_wide b -> a = b.
Proof. intros Ha Hb E. rewrite <- (to_char_to_wide a Ha), <- (to_char_to_wide b Hb), E. reflexivity. Qed.

Lemma wide_range_b : forallb (fun c => (0 <=? to_wide c) && (to_wide c <? 65536)) all_codes = true.
Proof. vm_compute. reflexivity. Qed.
Lemma to_wide_range c : 0 <= c < 256 -> 0 <= to_wide c < 65536.
Proof. intros H. pose proof wide_range_b as B. rewrite forallb_forall in B.
  specialize (B c (all_codes_in c H)). lia. Qed.

Lemma zlen_nonneg {A} (l : list A) : 0 <= zlen l.
Proof. unfold zlen. lia. Qed.
Lemma zlen_app {A} (a b : list A) : zlen (a ++ b) = zlen a + zlen b.
Proof. unfold zlen. rewrite app_length. lia. Qed.
Lemma zlen_map {A B} (f : A -> B) l : zlen (map f l) = zlen l.
Proof. unfold zlen. rewrite map_length. reflexivity. Qed.

Lemma spells_len s cs : spells s cs -> str_len s = zlen cs.
Proof. intros [_ H]. destruct s; simpl in *; subst; try (destruct H as [-> _]); auto. apply zlen_map. Qed.

Lemma spells_text s cs : spells s cs -> ptc_text cs.
Proof. intros [H _]. exact H. Qed.

Lemma u16_small n : 0 <= n < 65536 -> u16 n = n.
Proof. unfold u16. change (2^16) with 65536. lia. Qed.

Lemma spells_at_wide s cs i : spells s cs -> 0 <= i < zlen cs ->
  str_at_wide s i = Ok (to_wide (nth (Z.to_nat i) cs 0)).
Proof.
  intros [[_ L] H] Hi. unfold zlen in Hi. unfold str_at_wide. rewrite u16_small by lia.
  assert (Hn : (Z.to_nat i < length cs)%nat) by lia.
  pose proof (nth_error_nth' cs 0 Hn) as E.
  destruct s; simpl in H; [subst | subst | destruct H as [-> _]].
  - rewrite E. reflexivity.
  - rewrite nth_error_map, E. reflexivity.
  - rewrite E. reflexivity.
Qed.

Lemma map_char_wide cs : Forall (fun c => 0 <= c < 256) cs ->
  map (fun x => u8 (to_char x)) (map to_wide cs) = cs.
Proof. induction 1 as [|c cs Hc _ IH]; simpl; auto. rewrite IH, to_char_to_wide by exact Hc.
  unfold u8. change (2^8) with 256. f_equal. lia. Qed.

Lemma Forall_firstn {A} (P : A -> Prop) n l : Forall P l -> Forall P (firstn n l).
Proof. intros H; revert n; induction H; destruct n; simpl; auto. Qed.
Lemma Forall_skipn {A} (P : A -> Prop) n l : Forall P l -> Forall P (skipn n l).
Proof. intros H; revert n; induction H; destruct n; simpl; auto. Qed.

Lemma spells_char_copy s cs : spells s cs -> str_char_copy s = cs.
Proof. intros [[F _] H]. destruct s; simpl in *; subst; auto.
  - apply map_char_wide; exact F.
  - destruct H as [-> _]; reflexivity. Qed.

Lemma spells_wide_copy s cs : spells s cs -> str_wide_copy s = map to_wide cs.
Proof. intros [[F _] H]. destruct s; simpl in *; subst; auto. destruct H as [-> _]; reflexivity. Qed.

Lemma spells_copy s cs off n : spells s cs -> 0 <= off -> 0 <= n -> off + n <= zlen cs ->
  copy_bytes s off n = Ok (firstn (Z.to_nat n) (skipn (Z.to_nat off) cs)).
Proof.
  intros Hs H1 H2 H3. pose proof (spells_len s cs Hs) as L. destruct Hs as [[F B] H].
  unfold zlen in *. unfold copy_bytes. rewrite !u16_small by lia. rewrite L.
  destruct (Z.leb_spec (off + n) (Z.of_nat (length cs))); [|lia].
  destruct s; simpl in H; [subst; reflexivity | subst | destruct H as [-> _]; reflexivity].
  f_equal. rewrite skipn_map, firstn_map. apply map_char_wide.
  apply Forall_firstn, Forall_skipn; exact F.
Qed.

Lemma text_app a b : ptc_text a -> ptc_text b -> (length (a ++ b) <= 256)%nat -> ptc_text (a ++ b).
Proof. intros [A _] [B _] H. split; [apply Forall_app; auto|exact H]. Qed.

Lemma text_slice cs n m : ptc_text cs -> ptc_text (firstn n (skipn m cs)).
Proof. intros [F L]. split; [apply Forall_firstn, Forall_skipn; exact F|].
  rewrite firstn_length, skipn_length. lia. Qed.

Lemma spells_schar cs : ptc_text cs -> spells (SChar cs) cs.
Proof. intros H. split; [exact H|reflexivity]. Qed.

Lemma text_nil : ptc_text [].
Proof. split; [constructor|simpl; lia]. Qed.

Lemma spells_empty : spells empty_str [].
Proof. split; [apply text_nil|]. split; [reflexivity|simpl; lia]. Qed.

(** comparison *)
Lemma comp_loop_spec a b x y n i :
  spells a x -> spells b y -> 0 <= i -> i + Z.of_nat n = zlen x -> zlen x = zlen y ->
  exists r, comp_loop n i a b = Ok r /\
   (r = true <-> skipn (Z.to_nat i) x = skipn (Z.to_nat i) y).
Proof.
  intros Ha Hb. revert i. induction n as [|n IH]; intros i Hi Hn Hl.
  - exists true. split; [reflexivity|]. split; [intros _|auto].
    rewrite !skipn_all2; auto; unfold zlen in *; lia.
  - simpl. rewrite (spells_at_wide a x i Ha), (spells_at_wide b y i Hb) by lia. simpl.
    assert (Dx : skipn (Z.to_nat i) x = nth (Z.to_nat i) x 0 :: skipn (Z.to_nat (i+1)) x).
    { replace (Z.to_nat (i+1)) with (S (Z.to_nat i)) by lia.
      assert (Hx : (Z.to_nat i < length x)%nat) by (unfold zlen in *; lia).
      revert Hx. generalize (Z.to_nat i). clear. intros k. revert k.
      induction x as [|h t IHt]; destruct k; simpl; intros; try lia; auto. apply IHt; lia. }
    assert (Dy : skipn (Z.to_nat i) y = nth (Z.to_nat i) y 0 :: skipn (Z.to_nat (i+1)) y).
    { replace (Z.to_nat (i+1)) with (S (Z.to_nat i)) by lia.
      assert (Hx : (Z.to_nat i < length y)%nat) by (unfold zlen in *; lia).
      revert Hx. generalize (Z.to_nat i). clear. intros k. revert k.
      induction y as [|h t IHt]; destruct k; simpl; intros; try lia; auto. apply IHt; lia. }
    rewrite Dx, Dy.
    assert (Rx : 0 <= nth (Z.to_nat i) x 0 < 256).
    { destruct (spells_text _ _ Ha) as [F _]. rewrite Forall_forall in F. apply F, nth_In. unfold zlen in *; lia. }
    assert (Ry : 0 <= nth (Z.to_nat i) y 0 < 256).
    { destruct (spells_text _ _ Hb) as [F _]. rewrite Forall_forall in F. apply F, nth_In. unfold zlen in *; lia. }
    destruct (Z.eqb_spec (to_wide (nth (Z.to_nat i) x 0)) (to_wide (nth (Z.to_nat i) y 0))) as [E|E].
    + apply to_wide_inj in E; auto. destruct (IH (i+1)) as (r & Hr & Hiff); try lia.
      exists r. split; [exact Hr|]. rewrite Hiff, E. split; intros H; [rewrite H; auto | injection H; auto].
    + exists false. split; [reflexivity|]. split; [discriminate|]. intros H. injection H. intros _ H'.
      exfalso. apply E. rewrite H'. reflexivity.
Qed.

Lemma str_comp_spec a b x y : spells a x -> spells b y ->
  exists r, str_comp a b = Ok r /\ (r = true <-> x = y).
Proof.
  intros Ha Hb. unfold str_comp. rewrite (spells_len a x Ha), (spells_len b y Hb).
  destruct (Z.eqb_spec (zlen x) (zlen y)) as [E|E].
  - destruct (comp_loop_spec a b x y (Z.to_nat (zlen x)) 0 Ha Hb) as (r & Hr & Hi); auto; try lia.
    { pose proof (zlen_nonneg x). lia. }
    exists r. split; [exact Hr|]. exact Hi.
  - exists false. split; [reflexivity|]. split; [discriminate|]. intros ->. congruence.
Qed.

Lemma skipn_cons_nth {A} (l : list A) k d : (k < length l)%nat ->
  skipn k l = nth k l d :: skipn (S k) l.
Proof. revert k; induction l as [|h t IH]; destruct k; simpl; intros; try lia; auto. apply IH; lia. Qed.

Lemma lex_lt_irrefl a : ~ lex_lt a a.
Proof. induction a; intros H; inversion H; subst; try lia; auto. Qed.

Lemma lex_trans a b c : lex_lt a b -> lex_lt b c -> lex_lt a c.
Proof. intros H; revert c; induction H as [b t|a b s t H|a s t H IH]; intros c Hc; inversion Hc; subst;
  first [ apply lex_nil | apply lex_head; lia | apply lex_tail; apply IH; assumption ]. Qed.

Lemma lex_total a b : lex_lt a b \/ a = b \/ lex_lt b a.
Proof. revert b; induction a as [|x a IH]; destruct b as [|y b]; auto.
  - left; constructor.
  - right; right; constructor.
  - destruct (Z.lt_trichotomy x y) as [H|[->|H]].
    + left; constructor; auto.
    + destruct (IH b) as [H|[->|H]]; auto.
      * left; constructor 3; auto.
      * right; right; constructor 3; auto.
    + right; right; constructor; auto.
Qed.

Lemma lex_loop_spec a b x y n i :
  spells a x -> spells b y -> 0 <= i -> i + Z.of_nat n = Z.min (zlen x) (zlen y) ->
  exists r, lex_loop n i a b = Ok r /\
   let u := map to_wide (skipn (Z.to_nat i) x) in let v := map to_wide (skipn (Z.to_nat i) y) in
   (r < 0 /\ lex_lt u v \/ r = 0 /\ u = v \/ r > 0 /\ lex_lt v u).
Proof.
  intros Ha Hb. revert i. induction n as [|n IH]; intros i Hi Hn.
  - simpl. rewrite (spells_len a x Ha), (spells_len b y Hb). eexists. split; [reflexivity|].
    unfold zlen in *.
    destruct (Z.ltb_spec (Z.of_nat (length x)) (Z.of_nat (length y))).
    + left. split; [lia|]. rewrite (skipn_all2 x) by lia.
      rewrite (skipn_cons_nth y (Z.to_nat i) 0) by lia. simpl. constructor.
    + destruct (Z.ltb_spec (Z.of_nat (length y)) (Z.of_nat (length x))).
      * right; right. split; [lia|]. rewrite (skipn_all2 y) by lia.
        rewrite (skipn_cons_nth x (Z.to_nat i) 0) by lia. simpl. constructor.
      * right; left. split; auto. rewrite !skipn_all2 by lia. reflexivity.
  - cbn [lex_loop]. rewrite (spells_at_wide a x i Ha), (spells_at_wide b y i Hb) by lia. cbn [bind].
    rewrite (skipn_cons_nth x (Z.to_nat i) 0), (skipn_cons_nth y (Z.to_nat i) 0) by (unfold zlen in *; lia).
    cbv zeta. cbn [map].
    destruct (Z.ltb_spec (to_wide (nth (Z.to_nat i) x 0)) (to_wide (nth (Z.to_nat i) y 0))) as [L|L].
    + eexists. split; [reflexivity|]. left. split; [lia|]. constructor; auto.
    + destruct (Z.ltb_spec (to_wide (nth (Z.to_nat i) y 0)) (to_wide (nth (Z.to_nat i) x 0))) as [L'|L'].
      * eexists. split; [reflexivity|]. right; right. split; [lia|]. constructor; auto.
      * destruct (IH (i+1)) as (r & Hr & Hc); try lia. exists r. split; [exact Hr|].
        cbv zeta in Hc. replace (Z.to_nat (i+1)) with (S (Z.to_nat i)) in Hc by lia.
        replace (to_wide (nth (Z.to_nat i) y 0)) with (to_wide (nth (Z.to_nat i) x 0)) by lia.
        destruct Hc as [[A B]|[[A B]|[A B]]].
        -- left; split; auto; constructor 3; auto.
        -- right; left; split; auto; f_equal; auto.
        -- right; right; split; auto; constructor 3; auto.
Qed.

Lemma str_lex_spec a b x y : spells a x -> spells b y ->
  exists r, str_lex a b = Ok r /\
   (r < 0 /\ lex_lt (map to_wide x) (map to_wide y) \/ r = 0 /\ x = y \/
    r > 0 /\ lex_lt (map to_wide y) (map to_wide x)).
Proof.
  intros Ha Hb. unfold str_lex. rewrite (spells_len a x Ha), (spells_len b y Hb).
  destruct (lex_loop_spec a b x y (Z.to_nat (Z.min (zlen x) (zlen y))) 0 Ha Hb) as (r & Hr & H); try lia.
  { pose proof (zlen_nonneg x). pose proof (zlen_nonneg y). lia. }
  exists r. split; [exact Hr|]. cbv zeta in H. change (Z.to_nat 0) with 0%nat in H. simpl in H.
  destruct H as [H|[[A B]|H]]; auto. right; left. split; auto.
  destruct (spells_text _ _ Ha) as [Fx _], (spells_text _ _ Hb) as [Fy _].
  rewrite <- (map_char_wide x Fx), <- (map_char_wide y Fy), B. reflexivity.
Qed.

Lemma compare_strings a b x y : spells a x -> spells b y ->
  let X := map to_wide x in let Y := map to_wide y in
  (x = y -> op_equal_str a b = Ok 4096) /\ (x <> y -> op_equal_str a b = Ok 0) /\
  (x <> y -> op_inequal_str a b = Ok 4096) /\ (x = y -> op_inequal_str a b = Ok 0) /\
  (lex_lt X Y -> op_less_str a b = Ok 4096) /\ (~ lex_lt X Y -> op_less_str a b = Ok 0) /\
  (lex_lt Y X -> op_greater_str a b = Ok 4096) /\ (~ lex_lt Y X -> op_greater_str a b = Ok 0) /\
  (lex_lt X Y \/ x = y -> op_less_equal_str a b = Ok 4096) /\
  (~ (lex_lt X Y \/ x = y) -> op_less_equal_str a b = Ok 0) /\
  (lex_lt Y X \/ x = y -> op_greater_equal_str a b = Ok 4096) /\
  (~ (lex_lt Y X \/ x = y) -> op_greater_equal_str a b = Ok 0).
Proof.
  intros Ha Hb X Y. destruct (str_comp_spec a b x y Ha Hb) as (r & Hr & Hi).
  destruct (str_lex_spec a b x y Ha Hb) as (k & Hk & Hc).
  unfold op_equal_str, op_inequal_str, op_less_str, op_greater_str, op_less_equal_str, op_greater_equal_str.
  rewrite Hr, Hk. cbn [bind]. rewrite !truth_val.
  assert (NE : forall u v, lex_lt u v -> u <> v) by (intros u v H E; subst; eapply lex_lt_irrefl; eauto).
  assert (AS : forall u v, lex_lt u v -> ~ lex_lt v u) by (intros u v H1 H2; eapply lex_lt_irrefl, lex_trans; eauto).
  assert (T : forall b' (P : Prop), (P -> b' = true) -> (~ P -> b' = false) ->
     (P -> Ok (if b' then 4096 else 0) = Ok 4096) /\ (~ P -> Ok (if b' then 4096 else 0) = Ok 0)).
  { intros b' P H1 H2. split; intros H; [rewrite H1|rewrite H2]; auto. }
  destruct Hc as [[S L]|[[S L]|[S L]]].
  - assert (D : x <> y) by (intros E; apply (NE _ _ L); subst X Y; rewrite E; reflexivity).
    assert (R : r = false) by (destruct r; auto; exfalso; apply D, Hi; auto). subst r.
    pose proof (AS _ _ L) as NL. fold X Y in L, NL.
    repeat split; intros H; repeat match goal with |- context [if ?b then _ else _] => destruct b eqn:? end; try reflexivity; exfalso; try lia; intuition.
  - assert (R : r = true) by (apply Hi; exact L). subst r y k.
    pose proof (lex_lt_irrefl X) as NL. fold X in Y. subst Y.
    repeat split; intros H; repeat match goal with |- context [if ?b then _ else _] => destruct b eqn:? end; try reflexivity; exfalso; try lia; intuition.
  - assert (D : x <> y) by (intros E; apply (NE _ _ L); rewrite E; reflexivity).
    assert (R : r = false) by (destruct r; auto; exfalso; apply D, Hi; auto). subst r.
    pose proof (AS _ _ L) as NL. fold X Y in L, NL.
    repeat split; intros H; repeat match goal with |- context [if ?b then _ else _] => destruct b eqn:? end; try reflexivity; exfalso; try lia; intuition.
Qed.

(** concatenation *)
Lemma add_str_spec a b x y : spells a x -> spells b y ->
  ((length (x ++ y) <= 256)%nat -> exists r, op_add_str a b = Ok r /\ spells r (x ++ y)) /\
  ((256 < length (x ++ y))%nat -> op_add_str a b = Err ERR_STRING_TOO_LONG).
Proof.
  intros Ha Hb. unfold op_add_str, str_concat, MAX_STRLEN.
  rewrite (spells_len a x Ha), (spells_len b y Hb), (spells_char_copy a x Ha), (spells_char_copy b y Hb).
  rewrite app_length. unfold zlen.
  destruct (Z.gtb_spec (Z.of_nat (length x) + Z.of_nat (length y)) 256) as [G|G]; split; intros H; try lia; auto.
  exists (SChar (x ++ y)). split; [reflexivity|]. apply spells_schar, text_app;
   [eapply spells_text; eauto|eapply spells_text; eauto|rewrite app_length; lia].
Qed.

Lemma copies_length n x : length (copies n x) = (n * length x)%nat.
Proof. induction n; simpl; auto. rewrite app_length. lia. Qed.
Lemma copies_snoc n x : copies (S n) x = copies n x ++ x.
Proof. induction n; simpl in *. - rewrite app_nil_r. reflexivity. - rewrite IHn at 1. rewrite app_assoc. reflexivity. Qed.

Lemma mult_loop_spec n m x s cs : spells x cs -> spells s (copies m cs) ->
  ((n + m) * length cs <= 256)%nat -> spells (mult_loop n s x) (copies (n + m) cs).
Proof.
  revert m s. induction n as [|n IH]; intros m s Hx Hs Hl; simpl; [exact Hs|].
  unfold str_concat. rewrite (spells_len s _ Hs), (spells_len x _ Hx).
  unfold zlen, MAX_STRLEN. rewrite copies_length.
  destruct (Z.gtb_spec (Z.of_nat (m * length cs) + Z.of_nat (length cs)) 256) as [G|G].
  { exfalso. simpl in Hl. nia. }
  rewrite (spells_char_copy s _ Hs), (spells_char_copy x _ Hx).
  change (cs ++ copies (n + m) cs) with (copies (S (n + m)) cs).
  replace (S (n + m)) with (n + S m)%nat by lia. apply IH; auto.
  - rewrite <- copies_snoc. apply spells_schar. split.
    + clear -Hx. destruct (spells_text _ _ Hx) as [F _].
      generalize (S m). induction n; simpl; [constructor|]. apply Forall_app; auto.
    + rewrite copies_length. nia.
  - nia.
Qed.

Lemma mult_str_spec x cs num : spells x cs ->
  NumSpec.fixp num ->
  let n := Z.max 0 (num / 4096) in
  (n * zlen cs <= 256 -> exists r, op_mult_str x num = Ok r /\ spells r (copies (Z.to_nat n) cs)) /\
  (256 < n * zlen cs -> op_mult_str x num = Err ERR_STRING_TOO_LONG).
Proof.
  intros Hx Hn n. unfold NumSpec.fixp in Hn. change (2^31) with 2147483648 in Hn.
  unfold op_mult_str, FP_TO_INT, MAX_STRLEN. rewrite (spells_len x cs Hx).
  replace (if num / 4096 <? 0 then 0 else num / 4096) with n
    by (unfold n; destruct (Z.ltb_spec (num / 4096) 0); lia).
  destruct (spells_text _ _ Hx) as [_ Lc].
  assert (B : 0 <= n <= 524288) by (unfold n; lia).
  assert (P : 0 <= n * zlen cs <= 134217728) by (unfold zlen; nia).
  unfold u32. rewrite Z.mod_small by (change (2^32) with 4294967296; lia).
  destruct (Z.gtb_spec (n * zlen cs) 256) as [G|G]; split; intros H'; try lia; auto.
  eexists. split; [reflexivity|].
  pose proof (mult_loop_spec (Z.to_nat n) 0 x (SChar []) cs Hx) as M. rewrite Nat.add_0_r in M.
  apply M.
  - simpl. apply spells_schar, text_nil.
  - unfold zlen in *. nia.
Qed.

(** slices *)
Lemma left_spec s cs v : spells s cs ->
  let n := v / 4096 in
  (n < 0 -> func_left s v = Err ERR_OUT_OF_RANGE) /\
  (0 <= n -> exists r, func_left s v = Ok r /\ spells r (firstn (Z.to_nat n) cs)).
Proof.
  intros Hs n. unfold func_left, func_substring, FP_TO_INT. fold n.
  split; intros H.
  - destruct (Z.ltb_spec n 0); [reflexivity|lia].
  - destruct (Z.ltb_spec n 0); [lia|]. rewrite (spells_len s cs Hs).
    destruct (Z.eqb_spec n 0) as [->|N]; [exists empty_str; split; [reflexivity|apply spells_empty]|].
    pose proof (zlen_nonneg cs) as Z0.
    set (c := if n >? zlen cs then zlen cs else n).
    assert (Hc : 0 <= c <= zlen cs) by (unfold c; destruct (Z.gtb_spec n (zlen cs)); lia).
    rewrite (spells_copy s cs 0 c Hs) by lia. cbn [bind].
    eexists. split; [reflexivity|]. change (Z.to_nat 0) with 0%nat. rewrite skipn_O.
    replace (firstn (Z.to_nat c) cs) with (firstn (Z.to_nat n) cs).
    2:{ unfold c. destruct (Z.gtb_spec n (zlen cs)); auto. unfold zlen in *.
        rewrite !firstn_all2; auto; lia. }
    apply spells_schar. rewrite <- (skipn_O cs). apply text_slice. eapply spells_text; eauto.
Qed.

Lemma right_spec s cs v : spells s cs ->
  let n := v / 4096 in
  (n < 0 -> func_right s v = Err ERR_OUT_OF_RANGE) /\
  (0 <= n -> exists r, func_right s v = Ok r /\ spells r (skipn (length cs - Z.to_nat n) cs)).
Proof.
  intros Hs n. unfold func_right, func_substring, FP_TO_INT. fold n.
  split; intros H.
  - destruct (Z.ltb_spec n 0); [reflexivity|lia].
  - destruct (Z.ltb_spec n 0); [lia|]. rewrite (spells_len s cs Hs).
    destruct (Z.eqb_spec n 0) as [->|N].
    { exists empty_str. split; [reflexivity|]. rewrite skipn_all2 by lia. apply spells_empty. }
    pose proof (zlen_nonneg cs) as Z0.
    set (c := if n >? zlen cs then zlen cs else n).
    assert (Hc : 0 <= c <= zlen cs) by (unfold c; destruct (Z.gtb_spec n (zlen cs)); lia).
    rewrite (spells_copy s cs (zlen cs - c) c Hs) by lia. cbn [bind].
    eexists. split; [reflexivity|].
    replace (Z.to_nat (zlen cs - c)) with (length cs - Z.to_nat n)%nat
      by (unfold c, zlen in *; destruct (Z.gtb_spec n (Z.of_nat (length cs))); lia).
    rewrite firstn_all2.
    2:{ rewrite skipn_length. unfold c, zlen in *; destruct (Z.gtb_spec n (Z.of_nat (length cs))); lia. }
    apply spells_schar. rewrite <- (firstn_all (skipn _ cs)). apply text_slice. eapply spells_text; eauto.
Qed.

Lemma s16_small z : -32768 <= z < 32768 -> s16 z = z.
Proof. unfold s16. change (2^15) with 32768. change (2^16) with 65536. lia. Qed.

Lemma mid_spec s cs sv lv : spells s cs ->
  let st := sv / 4096 in let n := lv / 4096 in
  (st < 0 \/ n < 0 -> func_mid s sv lv = Err ERR_OUT_OF_RANGE) /\
  (0 <= st < 32768 -> 0 <= n < 32768 ->
   exists r, func_mid s sv lv = Ok r /\ spells r (firstn (Z.to_nat n) (skipn (Z.to_nat st) cs))).
Proof.
  intros Hs st n. unfold func_mid, FP_TO_INT, MAX_STRLEN. fold st n.
  split.
  - intros H. destruct (Z.ltb_spec st 0); [reflexivity|]. destruct (Z.ltb_spec n 0); [reflexivity|lia].
  - intros H1 H2. destruct (Z.ltb_spec st 0); [lia|]. destruct (Z.ltb_spec n 0); [lia|].
    rewrite (spells_len s cs Hs). destruct (spells_text _ _ Hs) as [F L]. unfold zlen.
    rewrite (s16_small st), (s16_small n), (s16_small (Z.of_nat (length cs))) by lia.
    rewrite s16_small by lia.
    destruct (Z.leb_spec (Z.of_nat (length cs) - st) 0).
    { exists empty_str. split; [reflexivity|]. rewrite skipn_all2 by lia. rewrite firstn_nil. apply spells_empty. }
    set (c := if Z.of_nat (length cs) - st <=? n then Z.of_nat (length cs) - st else n).
    assert (Hc : 0 <= c <= Z.of_nat (length cs) - st)
      by (unfold c; destruct (Z.leb_spec (Z.of_nat (length cs) - st) n); lia).
    destruct (Z.gtb_spec c 256); [lia|].
    rewrite (spells_copy s cs st c Hs) by (unfold zlen; lia). cbn [bind].
    eexists. split; [reflexivity|].
    replace (firstn (Z.to_nat c) (skipn (Z.to_nat st) cs)) with (firstn (Z.to_nat n) (skipn (Z.to_nat st) cs)).
    2:{ unfold c. destruct (Z.leb_spec (Z.of_nat (length cs) - st) n); auto.
        rewrite !firstn_all2; auto; rewrite skipn_length; lia. }
    apply spells_schar, text_slice. split; auto.
Qed.

(** substitution *)
Lemma subst_spec s cs r rs sv cv : spells s cs -> spells r rs ->
  let st := sv / 4096 in
  let cnt := let c := cv / 4096 in if (c <? 0) || (zlen cs <? c) then length cs else Z.to_nat c in
  (st < 0 \/ zlen cs < st -> func_subst s sv cv r = Err ERR_OUT_OF_RANGE) /\
  (0 <= st <= zlen cs ->
   let res := firstn (Z.to_nat st) cs ++ rs ++ skipn (Z.to_nat st + cnt) cs in
   ((length res <= 256)%nat -> exists z, func_subst s sv cv r = Ok z /\ spells z res) /\
   (st + zlen rs > 256 -> func_subst s sv cv r = Err ERR_STRING_TOO_LONG)).
Proof.
  intros Hs Hr st cnt. unfold func_subst, FP_TO_INT, MAX_STRLEN. fold st.
  rewrite (spells_len s cs Hs), (spells_len r rs Hr). split.
  { intros H. destruct (Z.ltb_spec st 0); [reflexivity|]. destruct (Z.gtb_spec st (zlen cs)); [reflexivity|lia]. }
  intros Hst. destruct (Z.ltb_spec st 0); [lia|]. destruct (Z.gtb_spec st (zlen cs)); [lia|].
  cbn [orb]. set (c := cv / 4096) in *.
  set (k := if (c <? 0) || (c >? zlen cs) then zlen cs else c).
  assert (K : Z.of_nat cnt = k /\ 0 <= k).
  { unfold k, cnt, zlen. rewrite Z.gtb_ltb. destruct ((c <? 0) || (Z.of_nat (length cs) <? c)) eqn:E; lia. }
  destruct K as [K K0]. cbv zeta.
  pose proof (zlen_nonneg cs) as Zc. pose proof (zlen_nonneg rs) as Zr.
  split.
  - rewrite !app_length, firstn_length, skipn_length. intros HL. unfold zlen in *.
    destruct (Z.gtb_spec (st + Z.of_nat (length rs)) 256); [lia|].
    rewrite (spells_copy s cs 0 st Hs) by (unfold zlen; lia). cbn [bind].
    rewrite (spells_copy r rs 0 (Z.of_nat (length rs)) Hr) by (unfold zlen; lia). cbn [bind].
    change (Z.to_nat 0) with 0%nat. rewrite !skipn_O, Nat2Z.id, firstn_all.
    assert (TX : ptc_text (firstn (Z.to_nat st) cs ++ rs ++ skipn (Z.to_nat st + cnt) cs)).
    { destruct (spells_text _ _ Hs) as [F1 _], (spells_text _ _ Hr) as [F2 _]. split.
      - apply Forall_app; split; [apply Forall_firstn; auto|]. apply Forall_app; split; auto. apply Forall_skipn; auto.
      - rewrite !app_length, firstn_length, skipn_length. lia. }
    destruct (Z.gtb_spec (Z.of_nat (length cs) - st - k) 0).
    + destruct (Z.gtb_spec (st + Z.of_nat (length rs) + (Z.of_nat (length cs) - st - k)) 256); [lia|].
      rewrite (spells_copy s cs (st + k) (Z.of_nat (length cs) - st - k) Hs) by (unfold zlen; lia). cbn [bind].
      eexists. split; [reflexivity|].
      replace (Z.to_nat (st + k)) with (Z.to_nat st + cnt)%nat by lia.
      rewrite (firstn_all2 (n := Z.to_nat (Z.of_nat (length cs) - st - k))) by (rewrite skipn_length; lia).
      apply spells_schar, TX.
    + eexists. split; [reflexivity|]. rewrite (skipn_all2 (n := (Z.to_nat st + cnt)%nat)) in TX |- * by lia.
      rewrite app_nil_r in *. apply spells_schar, TX.
  - intros HL. destruct (Z.gtb_spec (st + zlen rs) 256); [reflexivity|lia].
Qed.

(** search *)
Lemma nth_firstn_lt {A} n (l : list A) k d : (k < n)%nat -> nth k (firstn n l) d = nth k l d.
Proof. revert l k; induction n; destruct l, k; simpl; intros; try lia; auto. apply IHn; lia. Qed.
Lemma nth_skipn' {A} n (l : list A) k d : nth k (skipn n l) d = nth (n + k) l d.
Proof. revert l; induction n; destruct l; simpl; intros; auto. destruct k; auto. Qed.

Lemma occurs_nth t s i : occurs_at t s i <->
  (i + length t <= length s)%nat /\ forall k, (k < length t)%nat -> nth (i + k) s 0 = nth k t 0.
Proof.
  split.
  - intros (pre & post & -> & <-). rewrite !app_length. split; [lia|]. intros k Hk.
    rewrite app_nth2 by lia. replace (length pre + k - length pre)%nat with k by lia.
    rewrite app_nth1 by lia. reflexivity.
  - intros [L N]. exists (firstn i s), (skipn (length t) (skipn i s)). split; [|rewrite firstn_length; lia].
    rewrite <- (firstn_skipn i s) at 1. f_equal.
    rewrite <- (firstn_skipn (length t) (skipn i s)) at 1. f_equal.
    apply nth_ext with (d := 0) (d' := 0); [rewrite firstn_length, skipn_length; lia|].
    intros k Hk. rewrite firstn_length, skipn_length in Hk.
    rewrite nth_firstn_lt by lia. rewrite nth_skipn'. apply N. lia.
Qed.

Definition partial_match (t s : list Z) (i j : Z) : Prop :=
  forall k, 0 <= k < j -> nth (Z.to_nat (i - j + k)) s 0 = nth (Z.to_nat k) t 0.

Lemma instr_loop_spec s t x y start : spells s x -> spells t y -> 0 < zlen y -> 0 <= start ->
  forall fuel i j,
  0 <= j <= zlen y -> start <= i - j -> i <= zlen x \/ j = 0 ->
  partial_match y x i j ->
  (forall p, start <= p < i - j -> ~ occurs_at y x (Z.to_nat p)) ->
  (zlen x + 1 - (i - j)) * (zlen y + 1) - j < Z.of_nat fuel \/ zlen x < i ->
  (0 < fuel)%nat ->
  exists i' j', instr_loop fuel s t i j = Some (Ok (i', j')) /\
    ((j' = zlen y /\ start <= i' - j' /\ occurs_at y x (Z.to_nat (i' - j')) /\
      forall p, start <= p < i' - j' -> ~ occurs_at y x (Z.to_nat p)) \/
     (j' <> zlen y /\ forall p, start <= p -> ~ occurs_at y x (Z.to_nat p))).
Proof.
  intros Hs Ht Hy Hst. induction fuel as [|fuel IH]; intros i j Hj Hij Hi PM NO Hf F0; [lia|].
  cbn [instr_loop]. rewrite (spells_len s x Hs), (spells_len t y Ht).
  assert (OC : j = zlen y -> i <= zlen x -> occurs_at y x (Z.to_nat (i - j))).
  { intros -> Hil. apply occurs_nth. unfold zlen in *. split; [lia|]. intros k Hk.
    specialize (PM (Z.of_nat k)). rewrite Nat2Z.id in PM. rewrite <- PM by (unfold zlen; lia). f_equal. lia. }
  destruct (Z.ltb_spec i (zlen x)) as [L|L].
  - destruct (Z.gtb_spec (zlen y - j) (zlen x - i)) as [G|G].
    + exists i, j. split; [reflexivity|]. right. split; [lia|]. intros p Hp O.
      destruct (Z.lt_ge_cases p (i - j)); [apply (NO p); auto; lia|].
      apply occurs_nth in O. unfold zlen in *. lia.
    + destruct (Z.eqb_spec j (zlen y)) as [E|E].
      * exists i, j. split; [reflexivity|]. left. split; [auto|]. split; [lia|]. split; [apply OC; auto; lia|exact NO].
      * rewrite (spells_at_wide s x i Hs), (spells_at_wide t y j Ht) by lia.
        assert (FF : (0 < fuel)%nat).
        { destruct Hf as [Hf|Hf]; [|lia].
          assert (2 * (zlen y + 1) <= (zlen x + 1 - (i - j)) * (zlen y + 1)) by (apply Z.mul_le_mono_nonneg_r; lia).
          lia. }
        assert (Rx : 0 <= nth (Z.to_nat i) x 0 < 256).
        { destruct (spells_text _ _ Hs) as [F _]. rewrite Forall_forall in F. apply F, nth_In. unfold zlen in *; lia. }
        assert (Ry : 0 <= nth (Z.to_nat j) y 0 < 256).
        { destruct (spells_text _ _ Ht) as [F _]. rewrite Forall_forall in F. apply F, nth_In. unfold zlen in *; lia. }
        destruct (Z.eqb_spec (to_wide (nth (Z.to_nat i) x 0)) (to_wide (nth (Z.to_nat j) y 0))) as [W|W].
        -- apply to_wide_inj in W; auto. apply IH; try lia.
           ++ intros k Hk. destruct (Z.eq_dec k j) as [->|Nk].
              ** replace (i + 1 - (j + 1) + j) with i by lia. exact W.
              ** replace (i + 1 - (j + 1) + k) with (i - j + k) by lia. apply PM. lia.
           ++ intros p Hp. apply NO. lia.
        -- apply IH; try lia.
           ++ intros k Hk. lia.
           ++ intros p Hp. destruct (Z.eq_dec p (i - j)) as [->|Np]; [|apply NO; lia].
              intros O. apply W. apply occurs_nth in O. destruct O as [_ O].
              rewrite <- (O (Z.to_nat j)) by (unfold zlen in *; lia). do 2 f_equal. lia.
  - exists i, j. split; [reflexivity|].
    destruct (Z.eq_dec j (zlen y)) as [E|E].
    + destruct Hi as [Hi|Hi]; [|lia]. left. split; [auto|]. split; [lia|]. split; [apply OC; auto|exact NO].
    + right. split; [exact E|]. intros p Hp O. destruct (Z.lt_ge_cases p (i - j)); [apply (NO p); auto; lia|].
      apply occurs_nth in O. unfold zlen in *. lia.
Qed.

Lemma instr_spec s t x y start : spells s x -> spells t y -> y <> [] -> 0 <= start < 2 ^ 19 ->
  (forall i, start <= Z.of_nat i -> occurs_at y x i ->
     (forall k, start <= Z.of_nat k -> (k < i)%nat -> ~ occurs_at y x k) ->
     func_instr s t start = Ok (Z.of_nat i * 4096)) /\
  ((forall i, start <= Z.of_nat i -> ~ occurs_at y x i) -> func_instr s t start = Ok (- 4096)).
Proof.
  intros Hs Ht Hy Hst. change (2^19) with 524288 in Hst.
  assert (Ly : 0 < zlen y) by (unfold zlen; destruct y; simpl; [congruence|lia]).
  destruct (spells_text _ _ Hs) as [_ Lx]. destruct (spells_text _ _ Ht) as [_ Lt].
  destruct (instr_loop_spec s t x y start Hs Ht Ly ltac:(lia) (instr_fuel s t) start 0)
    as (i' & j' & E & C); try lia.
  - intros k Hk. lia.
  - unfold instr_fuel. rewrite (spells_len s x Hs), (spells_len t y Ht). unfold zlen in *. nia.
  - unfold instr_fuel. lia.
  - unfold func_instr. rewrite E. rewrite (spells_len t y Ht).
    destruct (Z.eqb_spec (zlen y) 0); [lia|].
    destruct C as [(-> & P1 & P2 & P3)|(P1 & P2)].
    + rewrite Z.eqb_refl. pose proof P2 as P2'. apply occurs_nth in P2'. destruct P2' as [P2' _].
      rewrite INT_TO_FP_exact by (unfold zlen in *; change (2^19) with 524288; lia).
      split.
      * intros i H1 H2 H3. f_equal.
        destruct (Z.lt_trichotomy (Z.of_nat i) (i' - zlen y)) as [T|[T|T]].
        -- exfalso. apply (P3 (Z.of_nat i)); [lia|]. rewrite Nat2Z.id. exact H2.
        -- lia.
        -- exfalso. apply (H3 (Z.to_nat (i' - zlen y))); auto; lia.
      * intros H. exfalso. apply (H (Z.to_nat (i' - zlen y))); auto. lia.
    + destruct (Z.eqb_spec j' (zlen y)); [congruence|]. split; auto.
      intros i H1 H2 _. exfalso. apply (P2 (Z.of_nat i)); auto. rewrite Nat2Z.id. exact H2.
Qed.

Lemma chr_asc c : 0 <= c < 256 ->
  exists s, func_chr (c * 4096) = Ok s /\ spells s [c] /\ func_asc s = Ok (c * 4096).
Proof.
  intros H. unfold func_chr, FP_TO_INT. rewrite Z.div_mul by lia.
  destruct (Z.ltb_spec c 0); [lia|]. destruct (Z.gtb_spec c 255); [lia|]. cbn [orb].
  exists (SBc [c]). split; [reflexivity|]. split.
  - split; [split; [repeat constructor; lia|simpl; lia]|]. simpl. split; [reflexivity|lia].
  - unfold func_asc. simpl. rewrite INT_TO_FP_exact; [reflexivity|]. change (2^19) with 524288. lia.
Qed.

Lemma chr_range v : v / 4096 < 0 \/ 255 < v / 4096 -> func_chr v = Err ERR_OUT_OF_RANGE.
Proof. intros H. unfold func_chr, FP_TO_INT. destruct (Z.ltb_spec (v/4096) 0); [reflexivity|].
  destruct (Z.gtb_spec (v/4096) 255); [reflexivity|lia]. Qed.

Lemma asc_spec s c cs : spells s (c :: cs) -> (forall w, s <> SWide w) -> func_asc s = Ok (c * 4096).
Proof.
  intros Hs Hw. pose proof (spells_len _ _ Hs) as L. destruct Hs as [[F _] H].
  inversion F; subst. unfold func_asc. rewrite L.
  destruct (Z.eqb_spec (zlen (c :: cs)) 0) as [E|E]; [unfold zlen in E; simpl in E; lia|].
  destruct s; simpl in H; [subst| exfalso; eapply Hw; eauto| destruct H as [-> _]]; simpl;
    rewrite INT_TO_FP_exact; auto; change (2^19) with 524288; lia.
Qed.

Lemma len_spec s cs : spells s cs -> func_len s = Z.of_nat (length cs) * 4096.
Proof. intros H. unfold func_len. rewrite (spells_len _ _ H). destruct (spells_text _ _ H) as [_ L].
  apply INT_TO_FP_exact. unfold zlen. change (2^19) with 524288. lia. Qed.
