(** DEG, RAD, HEX$ and VAL of the code on the numbers and texts of the ideal computer (Ideal.v). *)
From Verif Require Import Base BaseLemmas Tokens Runner Codes Num NumSpec NumProofs Strs StrFuncs StrSpec StrProofs StrProps NumText NumTextSpec NumTextProofs NumConstProofs NumTextProps Console ConsoleSpec Machine Ideal HostSim IdealOps.
Open Scope Z_scope.
Ltac Zify.zify_post_hook ::= Z.div_mod_to_equations.

Lemma deg_ok v : fits v = true -> okr eq (let d := Z.quot (v * (180 * 4096)) 12867 in if fits d then Ok d else UB) (Ok (func_deg v)).
Proof.
  intros _. cbv zeta. unfold func_deg, FIXP_PI. change (INT_TO_FP 180) with 737280. change (180 * 4096) with 737280. destruct (fits _) eqn:E; [|exact I].
  apply okr_ok. symmetry. apply s32_id. unfold is_s32, INT_MIN, INT_MAX. change (2 ^ 31) with 2147483648. unfold fits in E. lia.
Qed.
Lemma rad_ok v : fits v = true -> Z.quot (v * 12867) (180 * 4096) = func_rad v.
Proof.
  intros F. unfold func_rad, FIXP_PI. change (INT_TO_FP 180) with 737280. change (180 * 4096) with 737280. symmetry. apply s32_id.
  unfold is_s32, INT_MIN, INT_MAX. change (2 ^ 31) with 2147483648. unfold fits in F.
  pose proof (Z.quot_rem' (v * 12867) 737280) as Q. pose proof (Z.rem_bound_abs (v * 12867) 737280 ltac:(lia)) as R. generalize dependent (Z.quot (v * 12867) 737280).
  generalize dependent (Z.rem (v * 12867) 737280). intros r R q Q. lia.
Qed.

(** ** HEX$ *)
Lemma snoc16 l d : numeral 16 (l ++ [d]) = 16 * numeral 16 l + d.
Proof. unfold numeral. assert (H : forall a, num_of 16 a (l ++ [d]) = 16 * num_of 16 a l + d); [|apply H]. induction l as [|e l IH]; intros a; cbn [num_of app]; [lia|apply IH]. Qed.
Lemma last_digits_of : forall k l n, digits 16 l -> length l = k -> numeral 16 l = n mod 16 ^ Z.of_nat k -> last_digits 16 k n = l.
Proof.
  induction k as [|k IH]; intros l n D L E; [destruct l; [reflexivity|discriminate]|].
  destruct l as [|d l _] using rev_ind; [discriminate|]. rewrite app_length in L. cbn [length] in L. unfold digits in D. apply Forall_app in D. destruct D as [D1 D2]. inversion D2; subst.
  rewrite snoc16 in E. rewrite Nat2Z.inj_succ, Z.pow_succ_r in E by lia. cbn [last_digits].
  assert (0 < 16 ^ Z.of_nat k) by (apply Z.pow_pos_nonneg; lia). set (p := 16 ^ Z.of_nat k) in *.
  assert (Q : n mod (16 * p) = n mod 16 + 16 * (n / 16 mod p)) by (apply Z.rem_mul_r; lia). rewrite Q in E.
  assert (A : d = n mod 16 /\ numeral 16 l = n / 16 mod p) by lia. destruct A as [-> A]. rewrite (IH l (n / 16) D1); [reflexivity|lia|exact A].
Qed.
Lemma numeral_zeros m l : numeral 16 (repeat 0 m ++ l) = numeral 16 l.
Proof. unfold numeral. induction m as [|m IH]; [reflexivity|]. cbn [repeat app num_of]. exact IH. Qed.
Lemma no_zeros_repeat m d t : d <> 0 -> no_zeros (repeat 0 m ++ d :: t) = d :: t.
Proof.
  intros N. induction m as [|m IH]; cbn [repeat app].
  - cbn [no_zeros]. destruct t; [reflexivity|]. replace (d =? 0) with false by lia. reflexivity.
  - cbn [no_zeros]. destruct (repeat 0 m ++ d :: t) eqn:E; [destruct m; discriminate|]. exact IH.
Qed.
Lemma hex_ok v : fits v = true -> okr eq (Ok (hex_text (v / 4096))) (strout (func_hex v None)).
Proof.
  intros F. pose proof (part _ F) as P. set (n := v / 4096) in *.
  assert (E : func_hex v None = func_hex (n * 4096) None). { unfold func_hex, FP_TO_INT. rewrite Z.div_mul by lia. reflexivity. }
  rewrite E. destruct (Z.eq_dec n 0) as [->|N]; [apply okr_ok; reflexivity|].
  destruct (C20_hex n ltac:(lia)) as (ds & -> & D & L & V & H). destruct (H N) as (d & t & -> & Nd).
  unfold hex_text. rewrite (last_digits_of 5 (repeat 0 (5 - length (d :: t)) ++ d :: t) n).
  - rewrite no_zeros_repeat by exact Nd. apply okr_ok. reflexivity.
  - unfold digits. apply Forall_app. split; [apply Forall_forall; intros x X; apply repeat_spec in X; lia|exact D].
  - rewrite app_length, repeat_length. lia.
  - rewrite numeral_zeros, V. reflexivity.
Qed.
Lemma hexw_ok v w : fits v = true -> fits w = true -> okr eq (hex_fixed (v / 4096) (w / 4096)) (strout (func_hex v (Some w))).
Proof.
  intros F G. pose proof (part _ F) as P. pose proof (part _ G) as Q. set (n := v / 4096) in *. set (d := w / 4096) in *.
  assert (E : func_hex v (Some w) = func_hex (n * 4096) (Some (d * 4096))). { unfold func_hex, FP_TO_INT. rewrite !Z.div_mul by lia. reflexivity. }
  rewrite E. unfold hex_fixed. destruct (_ || _) eqn:R.
  - unfold func_hex, FP_TO_INT. rewrite !Z.div_mul by lia. cbv zeta. replace ((d <? 1) || (d >? 5)) with true by lia. reflexivity.
  - destruct (C20_hex_width n d ltac:(lia) ltac:(lia)) as [A B]. destruct (_ && _) eqn:S.
    + destruct (A ltac:(lia)) as (ds & -> & D & L & V). rewrite (last_digits_of (Z.to_nat d) ds n D); [apply okr_ok; reflexivity|lia|]. rewrite Z2Nat.id by lia. exact V.
    + rewrite B by lia. reflexivity.
Qed.

(** ** VAL *)
Lemma digit_of_spec base c : 2 <= base <= 16 -> match digit_of base c with
  | Some d => 0 <= d < base /\ c = digit_char d
  | None => ~ ((48 <= c <= 57 /\ c - 48 < base) \/ (65 <= c <= 70 /\ c - 55 < base)) end.
Proof.
  intros B. unfold digit_of, digit_char. destruct ((48 <=? c) && (c <=? 57)) eqn:E1; [|destruct ((65 <=? c) && (c <=? 70)) eqn:E2]; (destruct (_ <? base) eqn:E3; [split; [lia|]|lia]).
  - destruct (c - 48 <? 10) eqn:E4; lia.
  - destruct (c - 55 <? 10) eqn:E4; lia.
  - lia.
Qed.
Lemma leading_spec base : 2 <= base <= 16 -> forall t ds r, leading base t = (ds, r) -> Forall (fun c => 0 <= c < 256) t ->
  t = map digit_char ds ++ r /\ digits base ds /\ Forall (fun c => 0 <= c < 256) r /\ stops (fun c => (48 <= c <= 57 /\ c - 48 < base) \/ (65 <= c <= 70 /\ c - 55 < base)) r.
Proof.
  intros B. induction t as [|c t IH]; intros ds r E F; cbn [leading] in E.
  - injection E as <- <-. repeat split; constructor.
  - inversion F; subst. pose proof (digit_of_spec base c B) as S. destruct (digit_of base c) as [d|].
    + destruct (leading base t) as [ds' r'] eqn:L. injection E as <- <-. destruct (IH _ _ eq_refl ltac:(assumption)) as (A & D & R & St). destruct S as [S1 S2]. cbn [map app].
      split; [rewrite S2, A at 1; reflexivity|]. split; [constructor; assumption|]. split; assumption.
    + injection E as <- <-. split; [reflexivity|]. split; [constructor|]. split; [exact F|]. split; assumption.
Qed.
Lemma stops_or (P Q : Z -> Prop) r : stops P r -> (forall c t, r = c :: t -> ~ Q c) -> stops (fun c => P c \/ Q c) r.
Proof. destruct r as [|c t]; [auto|]. intros [A B] H. split; [exact A|]. intros [X|X]; [auto|]. exact (H c t eq_refl X). Qed.
Lemma is_char_not k r : is_char k r = false -> forall c t, r = c :: t -> c <> k.
Proof. intros E c t ->. cbn in E. lia. Qed.
Lemma textb_chars t : textb t = true -> Forall (fun c => 0 <= c < 256) t.
Proof. unfold textb. rewrite Bool.andb_true_iff, forallb_forall, Forall_forall. intros [A _] c H. specialize (A c H). lia. Qed.
Lemma decimal_ok g s neg t : spells s (sgn_text neg ++ t) -> Forall (fun c => 0 <= c < 256) t -> sgn_text neg ++ t <> [] -> (forall u, sgn_text neg ++ t <> 38 :: u) ->
  okr eq (decimal_number neg t) (func_val g s).
Proof.
  intros S C N M. unfold decimal_number. destruct (leading 10 t) as [ds r] eqn:L. destruct (leading_spec 10 ltac:(lia) _ _ _ L C) as (-> & D & R & St). cbv zeta.
  destruct (524288 <=? _) eqn:B; [exact I|].
  assert (St' : stops dec_char r). { eapply stops_mono; [|exact St]. unfold dec_char. intros c. lia. }
  destruct (is_char 46 r) eqn:P.
  - destruct r as [|e r]; [discriminate|]. cbn [is_char] in P. assert (e = 46) by lia. subst e. cbn [tl]. destruct (leading 10 r) as [fs u] eqn:L2. inversion R; subst.
    destruct (leading_spec 10 ltac:(lia) _ _ _ L2 ltac:(assumption)) as (-> & D2 & _ & St2). destruct (_ <=? 6)%nat eqn:B6; [|exact I]. apply Nat.leb_le in B6.
    rewrite (C08_val_decimal_partial g s neg ds fs u); [apply okr_ok; reflexivity| | | | | |]; try assumption; [lia|]. eapply stops_mono; [|exact St2]. unfold dec_char. intros c. lia.
  - destruct (is_char 45 r) eqn:Q; [exact I|]. rewrite (C08_val_integer_partial g s neg ds r); [apply okr_ok; destruct neg; reflexivity| | | | | |]; try assumption; [lia|].
    apply stops_or; [exact St'|]. intros c u E [X|X]; [exact (is_char_not _ _ P c u E X)|exact (is_char_not _ _ Q c u E X)].
Qed.
Lemma based_ok g s base pre t : spells s (38 :: pre :: t) -> Forall (fun c => 0 <= c < 256) t -> pre = 72 /\ base = 16 \/ pre = 66 /\ base = 2 ->
  okr eq (based_number base t) (func_val g s).
Proof.
  intros S C B. unfold based_number. destruct (leading base t) as [ds r] eqn:L. destruct (leading_spec base ltac:(lia) _ _ _ L C) as (-> & D & R & St). cbv zeta.
  destruct (_ || _) eqn:E; [exact I|]. rewrite Bool.orb_false_iff in E. destruct E as [E1 E2].
  rewrite (C08_val_prefixed g s base pre ds r S B D ltac:(lia)).
  - apply okr_ok. lia.
  - eapply stops_mono; [|apply (stops_or _ (fun c => c = 45) _ St); intros c u Q X; exact (is_char_not _ _ E1 c u Q X)]. intros c. tauto.
Qed.
Lemma val_ok g t : textb t = true -> okr eq (number_of t) (func_val g (SChar t)).
Proof.
  intros T. pose proof (textb_chars _ T) as C. pose proof (spell _ T) as S. unfold number_of. destruct t as [|c r]; [exact I|]. inversion C; subst.
  destruct (c =? 38) eqn:E1.
  - assert (c = 38) by lia. subst c. destruct r as [|p r]; [exact I|]. inversion H2; subst. destruct (p =? 72) eqn:E2; [|destruct (p =? 66) eqn:E3].
    + assert (p = 72) by lia. subst p. apply (based_ok g _ 16 72); auto.
    + assert (p = 66) by lia. subst p. apply (based_ok g _ 2 66); auto.
    + unfold func_val. rewrite (spells_char_copy _ _ S). cbv zeta. cbn [app nth length skipn]. rewrite E2, E3. reflexivity.
  - destruct (c =? 45) eqn:E2.
    + assert (c = 45) by lia. subst c. apply decimal_ok; try assumption; discriminate.
    + apply (decimal_ok g _ false (c :: r)); try assumption; [discriminate|]. intros u U. injection U as U _. lia.
Qed.
