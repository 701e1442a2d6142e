(** The operators and functions of the code on the numbers and texts of the ideal computer (Ideal.v). *)
From Verif Require Import Base BaseLemmas Tokens Runner Codes Num NumSpec NumProofs Strs StrFuncs StrSpec StrProofs StrProps NumText NumTextSpec NumTextProofs NumPrintProofs Console ConsoleSpec ConsoleProofs Machine Ideal HostSim.
Ltac Zify.zify_post_hook ::= Z.div_mod_to_equations.

Lemma fits_fixp z : fits z = true <-> fixp z.
Proof. unfold fits, fixp. change (2 ^ 31) with 2147483648. lia. Qed.
Lemma fits_min z : fits z = negb ((z <? INT_MIN) || (INT_MAX <? z)).
Proof. unfold fits, INT_MIN, INT_MAX. change (2 ^ 31) with 2147483648. lia. Qed.
Lemma itf n : -524288 <= n < 524288 -> INT_TO_FP n = 4096 * n.
Proof. intros H. rewrite INT_TO_FP_exact by (change (2 ^ 19) with 524288; lia). lia. Qed.
Lemma part z : fits z = true -> -524288 <= z / 4096 < 524288.
Proof. unfold fits. lia. Qed.
Lemma bits (g : Z -> Z -> Z) x y : (forall a b, - 2 ^ 19 <= a < 2 ^ 19 -> - 2 ^ 19 <= b < 2 ^ 19 -> - 2 ^ 19 <= g a b < 2 ^ 19) ->
  fits x = true -> fits y = true -> INT_TO_FP (g (FP_TO_INT x) (FP_TO_INT y)) = 4096 * g (x / 4096) (y / 4096).
Proof. intros G X Y. apply itf. unfold FP_TO_INT. apply (G (x / 4096) (y / 4096)); change (2 ^ 19) with 524288; apply part; assumption. Qed.

Lemma truth_ok b : INT_TO_FP (b2z b) = truth b.
Proof. rewrite truth_val. reflexivity. Qed.
Lemma clip_ok z (y : outcome Z) : (fits z = true -> y = Ok z) -> (fits z = false -> y = Err ERR_OVERFLOW) -> okr eq (clip z) y.
Proof. intros A B. unfold clip. destruct (fits z); [rewrite A by reflexivity; apply okr_ok; reflexivity|apply B; reflexivity]. Qed.
Lemma not_fits z : fits z = false -> ~ fixp z.
Proof. intros E H. apply fits_fixp in H. congruence. Qed.
Ltac eqs := repeat match goal with |- context [?o =? ?c] => is_var o; destruct (Z.eqb_spec o c) as [?|?]; [subst o|] end.
Lemma arith_ok o x y : fits x = true -> fits y = true -> okr eq (arith o x y) (match num_op o with Some f => f x y | None => UB end).
Proof.
  intros X Y. unfold arith, num_op.
  destruct (o =? OP_ADD). { apply clip_ok; intros E; [apply op_add_ok, fits_fixp, E|apply op_add_err, not_fits, E]. }
  destruct (o =? OP_SUBTRACT). { apply clip_ok; intros E; [apply op_sub_ok, fits_fixp, E|apply op_sub_err, not_fits, E]. }
  destruct (o =? OP_MULTIPLY).
  { unfold op_mult. cbv zeta. rewrite Z.shiftr_div_pow2 by lia. change (2 ^ 12) with 4096. apply clip_ok; intros E; rewrite fits_min in E; destruct (_ || _); discriminate || reflexivity. }
  destruct (o =? OP_DIVIDE).
  { unfold op_div. cbv zeta. destruct (y =? 0); [reflexivity|]. apply clip_ok; intros E; rewrite fits_min in E; destruct (_ || _); discriminate || reflexivity. }
  destruct (o =? OP_MODULO).
  { unfold op_modulo. cbv zeta. destruct (y =? 0); [reflexivity|]. change INT_MIN with (-2147483648). destruct (_ && _); [exact I|]. apply okr_ok; reflexivity. }
  destruct (o =? OP_EQUAL). { unfold op_equal. rewrite truth_ok. apply okr_ok; reflexivity. }
  destruct (o =? OP_NOT_EQUAL). { unfold op_inequal. rewrite truth_ok. apply okr_ok; reflexivity. }
  destruct (o =? OP_LESS). { unfold op_less. rewrite truth_ok. apply okr_ok; reflexivity. }
  destruct (o =? OP_GREATER). { unfold op_greater. rewrite truth_ok. apply okr_ok. f_equal. lia. }
  destruct (o =? OP_LESS_EQUAL). { unfold op_less_equal. rewrite truth_ok. apply okr_ok; reflexivity. }
  destruct (o =? OP_GREATER_EQUAL). { unfold op_greater_equal. rewrite truth_ok. apply okr_ok. f_equal. lia. }
  destruct (o =? OP_AND). { unfold op_and. rewrite bits by (try assumption; intros; apply land_range; solve [assumption | lia]). apply okr_ok; reflexivity. }
  destruct (o =? OP_OR). { unfold op_or. rewrite bits by (try assumption; intros; apply lor_range; solve [assumption | lia]). apply okr_ok; reflexivity. }
  destruct (o =? OP_XOR). { unfold op_xor. rewrite bits by (try assumption; intros; apply lxor_range; solve [assumption | lia]). apply okr_ok; reflexivity. }
  exact I.
Qed.
Lemma unary_ok o x : fits x = true ->
  okr eq (unary o x) (if o =? OP_NEGATE then op_negate x else if o =? OP_NOT then op_not x else if o =? OP_LOGICAL_NOT then op_logical_not x else UB).
Proof.
  intros X. unfold unary. destruct (o =? OP_NEGATE).
  { destruct (x =? -2147483648) eqn:E; [exact I|]. unfold op_negate, c_int, s32b. change INT_MIN with (-2147483648). change INT_MAX with 2147483647. unfold fits in X.
    replace ((-2147483648 <=? - x) && (- x <=? 2147483647)) with true by lia. apply okr_ok. reflexivity. }
  destruct (o =? OP_NOT).
  { unfold op_not. rewrite itf; [apply okr_ok; reflexivity|]. pose proof (part _ X). unfold FP_TO_INT, Z.lnot. lia. }
  destruct (o =? OP_LOGICAL_NOT); [|exact I]. unfold op_logical_not. rewrite truth_ok. apply okr_ok; reflexivity.
Qed.

(** ** texts *)
Lemma textb_ptc t : textb t = true <-> ptc_text t.
Proof.
  unfold textb, ptc_text. rewrite Bool.andb_true_iff, forallb_forall, Forall_forall, Nat.leb_le.
  split; intros [A B]; (split; [|exact B]); intros c H; specialize (A c H); lia.
Qed.
Lemma spell t : textb t = true -> spells (SChar t) t.
Proof. intros H. split; [apply textb_ptc, H|reflexivity]. Qed.
(** what a string result of the code is, as bytes *)
Definition strout (x : outcome str) : outcome (list Z) := let* s := x in Ok (bytes_of s).
Lemma strout_ok x r t : x = Ok r -> spells r t -> strout x = Ok t.
Proof. intros -> S. cbn [strout bind]. f_equal. apply (proj1 (C21_copies r t S)). Qed.
Lemma before_lex a : forall b, before a b = true <-> lex_lt a b.
Proof.
  induction a as [|x a IH]; intros [|y b]; cbn [before]; split; intros H; try discriminate; try (inversion H; fail); [constructor|reflexivity| |].
  - destruct (x <? y) eqn:E; [apply lex_head; lia|]. destruct (x =? y) eqn:F; [|discriminate]. assert (x = y) by lia. subst. apply lex_tail, IH, H.
  - inversion H; subst; [replace (x <? y) with true by lia; reflexivity|]. rewrite Z.ltb_irrefl, Z.eqb_refl. apply IH. assumption.
Qed.
Lemma same_text_eq a b : same_text a b = true <-> a = b.
Proof. unfold same_text. destruct (list_eq_dec Z.eq_dec a b); split; congruence. Qed.
Lemma truth_of (b : bool) (P : Prop) (y : outcome Z) : (b = true <-> P) -> (P -> y = Ok 4096) -> (~ P -> y = Ok 0) -> okr eq (Ok (truth b)) y.
Proof. intros E A B. destruct b; [rewrite A by (apply E; reflexivity)|rewrite B by (intros H; apply E in H; discriminate)]; apply okr_ok; reflexivity. Qed.
Lemma compare_ok o a b : textb a = true -> textb b = true -> okr eq (compare o a b) (match str_cmp o with Some f => f (SChar a) (SChar b) | None => UB end).
Proof.
  intros A B. destruct (C04_compare_strings _ _ _ _ (spell a A) (spell b B)) as (e1 & e2 & n1 & n2 & l1 & l2 & g1 & g2 & le1 & le2 & ge1 & ge2).
  unfold compare, str_cmp, sorted_before.
  destruct (o =? OP_EQUAL). { apply (truth_of _ (a = b)); [apply same_text_eq|exact e1|exact e2]. }
  destruct (o =? OP_NOT_EQUAL). { apply (truth_of _ (a <> b)); [|exact n1|intros H; apply n2; destruct (list_eq_dec Z.eq_dec a b); [assumption|contradiction]].
    unfold same_text. destruct (list_eq_dec Z.eq_dec a b); cbn; split; congruence. }
  destruct (o =? OP_LESS). { eapply truth_of; [apply before_lex|exact l1|exact l2]. }
  destruct (o =? OP_GREATER). { eapply truth_of; [apply before_lex|exact g1|exact g2]. }
  destruct (o =? OP_LESS_EQUAL). { eapply truth_of; [rewrite Bool.orb_true_iff, before_lex, same_text_eq; reflexivity|exact le1|exact le2]. }
  destruct (o =? OP_GREATER_EQUAL). { eapply truth_of; [rewrite Bool.orb_true_iff, before_lex, same_text_eq; reflexivity|exact ge1|exact ge2]. }
  exact I.
Qed.
Lemma concat_ok a b : textb a = true -> textb b = true -> okr eq (fit_text (a ++ b)) (strout (op_add_str (SChar a) (SChar b))).
Proof.
  intros A B. destruct (C16_concat _ _ _ _ (spell a A) (spell b B)) as [P Q]. unfold fit_text. destruct (length (a ++ b) <=? 256)%nat eqn:E.
  - apply Nat.leb_le in E. destruct (P E) as (r & H & S). rewrite (strout_ok _ _ _ H S). apply okr_ok; reflexivity.
  - apply Nat.leb_gt in E. rewrite (Q E). reflexivity.
Qed.
Lemma many_copies n t : many n t = copies n t. Proof. induction n; cbn [many copies]; congruence. Qed.
Lemma repeat_ok a y : textb a = true -> fits y = true -> let n := Z.max 0 (y / 4096) in
  okr eq (if n * Z.of_nat (length a) <=? 256 then Ok (many (Z.to_nat n) a) else Err ERR_STRING_TOO_LONG) (strout (op_mult_str (SChar a) y)).
Proof.
  intros A Y n. apply fits_fixp in Y. destruct (C16_repeat _ _ y (spell a A) Y) as [P Q]. fold n in P, Q. destruct (_ <=? 256) eqn:E.
  - destruct (P ltac:(lia)) as (r & H & S). rewrite (strout_ok _ _ _ H S), many_copies. apply okr_ok; reflexivity.
  - rewrite (Q ltac:(lia)). reflexivity.
Qed.
Lemma starts_pre t : forall s, starts t s = true <-> exists r, s = t ++ r.
Proof.
  induction t as [|c t IH]; intros s; cbn [starts app]; [split; [eauto|reflexivity]|].
  destruct s as [|d s]; [split; [discriminate|intros [r E]; discriminate]|]. rewrite Bool.andb_true_iff, IH. split.
  - intros [E [r ->]]. exists r. f_equal. lia.
  - intros [r E]. injection E as -> ->. split; [lia|eauto].
Qed.
Lemma starts_occurs t s i : starts t (skipn i s) = true -> t <> [] -> occurs_at t s i.
Proof.
  intros H T. apply starts_pre in H. destruct H as [r E]. exists (firstn i s), r. rewrite <- E, firstn_skipn. split; [reflexivity|].
  apply firstn_length_le. destruct (Nat.le_gt_cases i (length s)) as [L|L]; [exact L|]. rewrite skipn_all2 in E by lia. destruct t; [congruence|discriminate].
Qed.
Lemma occurs_starts t s i : occurs_at t s i -> starts t (skipn i s) = true.
Proof. intros (p & q & -> & L). apply starts_pre. exists q. subst i. rewrite skipn_app, skipn_all, Nat.sub_diag. reflexivity. Qed.
Lemma find_spec t : forall s i, match find t s i with
  | Some k => exists j, k = i + Z.of_nat j /\ starts t (skipn j s) = true /\ forall m, (m < j)%nat -> starts t (skipn m s) = false
  | None => forall j, starts t (skipn j s) = false end.
Proof.
  induction s as [|c s IH]; intros i; cbn [find].
  - destruct (starts t []) eqn:E.
    + exists 0%nat. cbn [skipn]. repeat split; [lia|exact E|]. lia.
    + intros j. rewrite skipn_nil. exact E.
  - destruct (starts t (c :: s)) eqn:E.
    + exists 0%nat. cbn [skipn]. repeat split; [lia|exact E|]. lia.
    + specialize (IH (i + 1)). destruct (find t s (i + 1)) as [k|].
      * destruct IH as (j & -> & A & B). exists (S j). repeat split; [lia|exact A|]. intros [|m] H; cbn [skipn]; [exact E|apply B; lia].
      * intros [|j]; cbn [skipn]; [exact E|apply IH].
Qed.
Lemma instr_ok a b from : textb a = true -> textb b = true -> from < 524288 -> okr eq (instr a b from) (func_instr (SChar a) (SChar b) from).
Proof.
  intros A B F. unfold instr. destruct b as [|c b]; [exact I|]. set (t := c :: b) in *. assert (T : t <> []) by discriminate. destruct (from <? 0) eqn:E; [exact I|].
  destruct (C19_instr_partial _ _ _ _ from (spell a A) (spell t B) T ltac:(change (2 ^ 19) with 524288; lia)) as [P Q].
  assert (K : forall j, skipn j (skipn (Z.to_nat from) a) = skipn (Z.to_nat from + j) a) by (intros; apply skipn_skipn').
  pose proof (find_spec t (skipn (Z.to_nat from) a) from) as S. destruct (find _ _ _) as [k|].
  - destruct S as (j & -> & S1 & S2). rewrite K in S1. rewrite (P (Z.to_nat from + j)%nat); [apply okr_ok; lia|lia|apply starts_occurs; assumption|].
    intros k K1 K2 O. apply occurs_starts in O. specialize (S2 (k - Z.to_nat from)%nat ltac:(lia)). rewrite K in S2. replace (Z.to_nat from + (k - Z.to_nat from))%nat with k in S2 by lia. congruence.
  - rewrite Q; [apply okr_ok; reflexivity|]. intros i Hi O. apply occurs_starts in O. specialize (S (i - Z.to_nat from)%nat). rewrite K in S.
    replace (Z.to_nat from + (i - Z.to_nat from))%nat with i in S by lia. congruence.
Qed.
Lemma subst_ok s st n t : textb s = true -> textb t = true -> okr eq (subst s (st / 4096) (n / 4096) t) (strout (func_subst (SChar s) st n (SChar t))).
Proof.
  intros A B. destruct (C18_subst_partial _ _ _ _ st n (spell s A) (spell t B)) as [P Q]. unfold subst. cbv zeta. destruct ((st / 4096 <? 0) || _) eqn:E.
  - rewrite P by lia. reflexivity.
  - destruct (Q ltac:(lia)) as [Q1 Q2]. cbv zeta. set (c := n / 4096) in *.
    assert (C : Z.to_nat (if (c <? 0) || (Z.of_nat (length s) <? c) then Z.of_nat (length s) else c) = if (c <? 0) || (Z.of_nat (length s) <? c) then length s else Z.to_nat c) by (destruct ((c <? 0) || (Z.of_nat (length s) <? c)); [apply Nat2Z.id|reflexivity]).
    rewrite C. clear C. destruct (_ <=? 256)%nat eqn:L.
    + apply Nat.leb_le in L. destruct (Q1 L) as (r & H & S). rewrite (strout_ok _ _ _ H S). apply okr_ok; reflexivity.
    + destruct (256 <? _) eqn:M; [|exact I]. rewrite Q2 by lia. reflexivity.
Qed.
Lemma left_ok s v : textb s = true -> okr eq (if v / 4096 <? 0 then Err ERR_OUT_OF_RANGE else Ok (firstn (Z.to_nat (v / 4096)) s)) (strout (func_left (SChar s) v)).
Proof.
  intros A. destruct (C17_left _ _ v (spell s A)) as [P Q]. destruct (_ <? 0) eqn:E; [rewrite P by lia; reflexivity|].
  destruct (Q ltac:(lia)) as (r & H & S). rewrite (strout_ok _ _ _ H S). apply okr_ok; reflexivity.
Qed.
Lemma right_ok s v : textb s = true -> okr eq (if v / 4096 <? 0 then Err ERR_OUT_OF_RANGE else Ok (skipn (length s - Z.to_nat (v / 4096)) s)) (strout (func_right (SChar s) v)).
Proof.
  intros A. destruct (C17_right _ _ v (spell s A)) as [P Q]. destruct (_ <? 0) eqn:E; [rewrite P by lia; reflexivity|].
  destruct (Q ltac:(lia)) as (r & H & S). rewrite (strout_ok _ _ _ H S). apply okr_ok; reflexivity.
Qed.
Lemma mid_ok s v w : textb s = true -> let p := v / 4096 in let n := w / 4096 in
  okr eq (if (p <? 0) || (n <? 0) then Err ERR_OUT_OF_RANGE else if below p && below n then Ok (firstn (Z.to_nat n) (skipn (Z.to_nat p) s)) else UB)
    (strout (func_mid (SChar s) v w)).
Proof.
  intros A p n. destruct (C17_mid_partial _ _ v w (spell s A)) as [P Q]. fold p n in P, Q. destruct (_ || _) eqn:E; [rewrite P by lia; reflexivity|].
  unfold below. destruct (_ && _) eqn:F; [|exact I]. destruct (Q ltac:(lia) ltac:(lia)) as (r & H & S). rewrite (strout_ok _ _ _ H S). apply okr_ok; reflexivity.
Qed.
Lemma chr_ok v : fits v = true -> okr eq (if (0 <=? v / 4096) && (v / 4096 <? 256) then Ok [v / 4096] else Err ERR_OUT_OF_RANGE) (strout (func_chr v)).
Proof.
  intros F. destruct (_ && _) eqn:E.
  - unfold func_chr, FP_TO_INT in *. set (c := v / 4096) in *. replace ((c <? 0) || (c >? 255)) with false by lia. apply okr_ok. cbn. f_equal. 
  - rewrite (C20_chr_range v) by lia. reflexivity.
Qed.
Lemma asc_ok s : textb s = true -> okr eq (match s with [] => Err ERR_SYNTAX | c :: _ => Ok (4096 * c) end) (func_asc (SChar s)).
Proof.
  intros A. destruct s as [|c s]; [rewrite (C20_asc_empty _ (spell [] A)); reflexivity|].
  rewrite (C20_asc_partial _ _ _ (spell _ A)) by discriminate. apply okr_ok. lia.
Qed.
Lemma len_ok s : textb s = true -> func_len (SChar s) = 4096 * Z.of_nat (length s).
Proof. intros A. rewrite (C17_len _ _ (spell s A)). lia. Qed.
Lemma abs_ok v : fits v = true -> okr eq (Ok (if v =? -2147483648 then v else Z.abs v)) (func_abs v).
Proof.
  intros F. apply fits_fixp in F. change (-2147483648) with (- 2 ^ 31). destruct (v =? - 2 ^ 31) eqn:E; [assert (v = - 2 ^ 31) by lia; subst v; rewrite abs_min|rewrite (proj1 (abs_spec v F ltac:(lia)))]; apply okr_ok; reflexivity.
Qed.
Lemma floor_ok v : fits v = true -> func_floor v = 4096 * (v / 4096).
Proof. intros F. unfold func_floor, FP_TO_INT. apply itf, part, F. Qed.

(** ** numbers as text *)
Lemma numeral_snoc l d : numeral 10 (l ++ [d]) = 10 * numeral 10 l + d.
Proof. unfold numeral. assert (H : forall a, num_of 10 a (l ++ [d]) = 10 * num_of 10 a l + d); [|apply H]. induction l as [|e l IH]; intros a; cbn [num_of app]; [lia|apply IH]. Qed.
Lemma numeral_pos l : digits 10 l -> 0 <= numeral 10 l.
Proof. induction l as [|d l IH] using rev_ind; intros H; [unfold numeral; cbn; lia|]. rewrite numeral_snoc. unfold digits in *. apply Forall_app in H. destruct H as [A B]. inversion B; subst. specialize (IH A). lia. Qed.
Definition lead (l : list Z) : Prop := l = [0] \/ exists d t, l = d :: t /\ d <> 0.
Lemma lead_snoc l d : l <> [] -> lead (l ++ [d]) -> lead l /\ (digits 10 l -> 0 < numeral 10 l).
Proof.
  intros N L. destruct l as [|e l]; [congruence|]. destruct L as [L|(f & t & L & H)]; cbn [app] in L.
  - injection L as -> L. destruct l; discriminate.
  - injection L as <- _. split; [right; eauto|]. intros D. inversion D; subst. rewrite num_cons. assert (0 < 10 ^ Z.of_nat (length l)) by (apply Z.pow_pos_nonneg; lia).
    pose proof (numeral_pos l ltac:(assumption)). nia.
Qed.
Lemma decimal_of f : forall ds, digits 10 ds -> lead ds -> (length ds <= f)%nat -> decimal f (numeral 10 ds) = ds.
Proof.
  induction f as [|f IH]; intros ds D L Len.
  - destruct ds; cbn in Len; [|lia]. destruct L as [L|(? & ? & L & _)]; discriminate.
  - destruct ds as [|d0 l0] using rev_ind; [destruct L as [L|(? & ? & L & _)]; discriminate|]. clear IHl0. rewrite numeral_snoc. cbn [decimal].
    unfold digits in D. apply Forall_app in D. destruct D as [D1 D2]. inversion D2; subst. destruct l0 as [|e l0].
    + unfold numeral; cbn [num_of app]. replace (10 * 0 + d0 <? 10) with true by lia. reflexivity.
    + destruct (lead_snoc (e :: l0) d0 ltac:(discriminate) L) as [L1 P]. specialize (P D1). rewrite app_length in Len. cbn [length] in Len.
      set (m := numeral 10 (e :: l0)) in *. replace (10 * m + d0 <? 10) with false by lia. replace ((10 * m + d0) / 10) with m by lia. replace ((10 * m + d0) mod 10) with d0 by lia.
      subst m. rewrite IH; [reflexivity|exact D1|exact L1|cbn [length]; lia].
Qed.
Lemma trim_zeros l m : trim (l ++ repeat 0 m) = trim l.
Proof. induction l as [|d l IH]; cbn [trim app]; [|rewrite IH; reflexivity]. induction m; cbn [repeat trim]; [reflexivity|rewrite IHm; reflexivity]. Qed.
Lemma trim_canon l : (l = [] \/ exists t d, l = t ++ [d] /\ d <> 0) -> trim l = l.
Proof.
  intros [->|(t & d & -> & N)]; [reflexivity|]. induction t as [|e t IH]; cbn [trim app]; [replace (d =? 0) with false by lia; reflexivity|].
  rewrite IH. destruct t; reflexivity.
Qed.
Lemma three fs m q : digits 10 fs -> (length fs + m = 3)%nat -> numeral 10 fs * 10 ^ Z.of_nat m = q -> [q / 100; q / 10 mod 10; q mod 10] = fs ++ repeat 0 m.
Proof.
  intros D L E. subst q. unfold digits in D. destruct fs as [|a [|b [|c [|? ?]]]]; cbn [length] in L; try lia;
  repeat match goal with H : Forall _ (_ :: _) |- _ => inversion H; clear H; subst end; unfold numeral; cbn [num_of];
  [replace m with 3%nat by lia|replace m with 2%nat by lia|replace m with 1%nat by lia|replace m with 0%nat by lia]; cbn [repeat app].
  - reflexivity.
  - change (10 ^ Z.of_nat 2) with 100. repeat f_equal; lia.
  - change (10 ^ Z.of_nat 1) with 10. repeat f_equal; lia.
  - change (10 ^ Z.of_nat 0) with 1. repeat f_equal; lia.
Qed.
Lemma number_text_ok v : fits v = true -> okr eq (number_text v) (fixp_to_char v).
Proof.
  intros F. unfold number_text. destruct (_ || _) eqn:E; [exact I|].
  destruct (print_shape v (proj1 (fits_fixp v) F) ltac:(lia) ltac:(lia)) as (ds & fs & m & H & D1 & D2 & C & L1 & L2 & N1 & N2). rewrite H.
  rewrite (three fs m _ D2 L2 N2), trim_zeros, (trim_canon fs (proj2 C)), <- N1, (decimal_of 10 ds D1 (proj1 C) ltac:(lia)). apply okr_ok; reflexivity.
Qed.
