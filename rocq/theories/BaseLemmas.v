(** Lemmas about Base.v. *)
From Verif Require Import Base.
Ltac Zify.zify_post_hook ::= Z.div_mod_to_equations.

Lemma s32_id z : is_s32 z -> s32 z = z.
Proof. unfold is_s32, s32, INT_MIN, INT_MAX. lia. Qed.

Lemma s32_range z : is_s32 (s32 z).
Proof. unfold is_s32, s32, INT_MIN, INT_MAX. lia. Qed.

Lemma s32b_spec z : s32b z = true <-> is_s32 z.
Proof. unfold s32b, is_s32. lia. Qed.

Lemma s32b_false z : s32b z = false <-> ~ is_s32 z.
Proof. unfold s32b, is_s32. lia. Qed.

Lemma INT_TO_FP_exact n : - 2 ^ 19 <= n < 2 ^ 19 -> INT_TO_FP n = n * 4096.
Proof. unfold INT_TO_FP, s32, u32. intros H.
  change (2^19) with 524288 in H. change (2^31) with 2147483648. change (2^32) with 4294967296. lia. Qed.

Lemma FP_TO_INT_range n : is_s32 n -> - 2 ^ 19 <= FP_TO_INT n < 2 ^ 19.
Proof. unfold is_s32, INT_MIN, INT_MAX, FP_TO_INT. intros H.
  change (2^19) with 524288. change (2^31) with 2147483648 in H. lia. Qed.

Lemma FP_INT_inv n : - 2 ^ 19 <= n < 2 ^ 19 -> FP_TO_INT (INT_TO_FP n) = n.
Proof. intros H. rewrite INT_TO_FP_exact by exact H. unfold FP_TO_INT. lia. Qed.

Lemma upd_length {A} (l : list A) i v : length (upd l i v) = length l.
Proof. revert i; induction l as [|h t IH]; destruct i; simpl; auto. Qed.

Lemma nth_error_upd_same {A} (l : list A) i v :
  (i < length l)%nat -> nth_error (upd l i v) i = Some v.
Proof. revert i; induction l as [|h t IH]; destruct i; simpl; intros H; try lia; auto.
  apply IH; lia. Qed.

Lemma nth_error_upd_other {A} (l : list A) i j v :
  i <> j -> nth_error (upd l i v) j = nth_error l j.
Proof. revert i j; induction l as [|h t IH]; destruct i, j; simpl; intros H; try congruence; auto. Qed.

Lemma nth_upd_same {A} (l : list A) i v d :
  (i < length l)%nat -> nth i (upd l i v) d = v.
Proof. revert i; induction l as [|h t IH]; destruct i; simpl; intros H; try lia; auto.
  apply IH; lia. Qed.

Lemma nth_upd_other {A} (l : list A) i j v d :
  i <> j -> nth j (upd l i v) d = nth j l d.
Proof. revert i j; induction l as [|h t IH]; destruct i, j; simpl; intros H; try congruence; auto. Qed.

Lemma upd_same_id {A} (l : list A) i v d :
  (i < length l)%nat -> nth i l d = v -> upd l i v = l.
Proof. revert i; induction l as [|h t IH]; destruct i; simpl; intros H E; try lia; auto.
  - congruence.
  - f_equal. apply IH; [lia|exact E]. Qed.

Lemma upd_app_l {A} (l1 l2 : list A) i v :
  (i < length l1)%nat -> upd (l1 ++ l2) i v = upd l1 i v ++ l2.
Proof. revert i; induction l1 as [|h t IH]; destruct i; simpl; intros H; try lia; auto.
  f_equal. apply IH; lia. Qed.

Lemma upd_app_r {A} (l1 l2 : list A) i v :
  (length l1 <= i)%nat -> upd (l1 ++ l2) i v = l1 ++ upd l2 (i - length l1) v.
Proof. revert i; induction l1 as [|h t IH]; simpl; intros i H; [f_equal; lia|].
  destruct i; [lia|]. simpl. f_equal. apply IH; lia. Qed.

Lemma bind_ok {A B} (m : outcome A) (f : A -> outcome B) b :
  bind m f = Ok b -> exists a, m = Ok a /\ f a = Ok b.
Proof. destruct m; simpl; intros H; try discriminate. eauto. Qed.
