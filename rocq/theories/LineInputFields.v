(** C50: INPUT splits the line. *)
From Verif Require Import Base BaseLemmas Strs StrProofs NumText NumTextSpec NumTextProofs Console LineInput LineInputSpec LineInputProofs LineInputProps DataProofs.
Ltac Zify.zify_post_hook ::= Z.div_mod_to_equations.
Open Scope Z_scope.

Definition byte_ok (b : Z) : Prop := 0 <= b < 256.
Lemma nth_wide R i : Forall byte_ok R -> u8 (to_char (nth i (map to_wide R) 0)) = nth i R 0.
Proof.
  intros F. change 0 with (to_wide 0) at 1. rewrite map_nth. assert (B : byte_ok (nth i R 0)).
  { destruct (nth_in_or_default i R 0) as [I|E]; [rewrite Forall_forall in F; exact (F _ I)|rewrite E; split; reflexivity || (vm_compute; congruence)]. }
  rewrite to_char_to_wide by exact B. apply Z.mod_small, B.
Qed.
Lemma map_back R : Forall byte_ok R -> map (fun w => u8 (to_char w)) (map to_wide R) = R.
Proof. intros F. rewrite map_map. rewrite <- (map_id R) at 2. apply map_ext_in. intros b I. rewrite Forall_forall in F. rewrite to_char_to_wide by exact (F b I). apply Z.mod_small, (F b I). Qed.
Lemma all_char R : Forall byte_ok R -> forallb is_char (map to_wide R) = true.
Proof. intros F. apply forallb_forall. intros w I. apply in_map_iff in I. destruct I as (b & <- & I). rewrite Forall_forall in F. unfold is_char. rewrite to_char_to_wide by exact (F b I). specialize (F b I). unfold byte_ok in F. lia. Qed.
Lemma mid {A} (P D Q : list A) n : n = length D -> firstn n (skipn (length P) (P ++ D ++ Q)) = D.
Proof. intros ->. rewrite skipn_app, skipn_all, Nat.sub_diag. cbn [app skipn]. rewrite firstn_app, firstn_all, Nat.sub_diag. cbn [firstn]. apply app_nil_r. Qed.

(** one field, up to its end *)
Lemma scan_num R vs acc : Forall byte_ok R -> forall f P D Q fuel, R = P ++ D ++ f ++ Q -> (length (P ++ D ++ f) <= 31)%nat -> Forall (fun c => 48 <= c <= 57 \/ c = 45 \/ c = 46) f ->
  fields (length f + S fuel) (map to_wide R) (INum :: vs) (length P) (length (P ++ D)) acc = fields (S fuel) (map to_wide R) (INum :: vs) (length P) (length (P ++ D ++ f)) acc.
Proof.
  intros F. induction f as [|c f IH]; intros P D Q fuel E L G; [rewrite app_nil_r; reflexivity|].
  cbn [length Nat.add]. match goal with |- _ = ?r => set (rhs := r) end. cbn [fields]. rewrite nth_wide by exact F.
  assert (EC : nth (length (P ++ D)) R 0 = c). { rewrite E. rewrite app_assoc. rewrite app_nth2 by lia. rewrite Nat.sub_diag. reflexivity. }
  rewrite EC. rewrite !app_length in L. cbn [length] in L. replace (Nat.leb 32 (length (P ++ D))) with false by (symmetry; apply Nat.leb_gt; rewrite app_length; lia).
  pose proof (Forall_inv G) as Gc. pose proof (Forall_inv_tail G) as Gf. cbn beta in Gc. replace (is_digit c || (c =? 46) || (c =? 45)) with true by (unfold is_digit; lia).
  specialize (IH P (D ++ [c]) Q fuel). replace (S (length (P ++ D))) with (length (P ++ D ++ [c])) by (rewrite !app_length; cbn [length]; lia).
  rewrite <- app_assoc in IH. cbn [app] in IH. rewrite IH; [|exact E| |exact Gf].
  - unfold rhs. replace (length (P ++ (D ++ [c]) ++ f)) with (length (P ++ D ++ c :: f)) by (rewrite !app_length; cbn [length]; lia). reflexivity.
  - rewrite !app_length. cbn [length]. lia.
Qed.
Lemma scan_str R vs acc : Forall byte_ok R -> forall f P D Q fuel, R = P ++ D ++ f ++ Q -> (length (P ++ D ++ f) <= 31)%nat -> Forall (fun b => 0 < b < 256 /\ b <> 44) f ->
  fields (length f + S fuel) (map to_wide R) (IStr :: vs) (length P) (length (P ++ D)) acc = fields (S fuel) (map to_wide R) (IStr :: vs) (length P) (length (P ++ D ++ f)) acc.
Proof.
  intros F. induction f as [|c f IH]; intros P D Q fuel E L G; [rewrite app_nil_r; reflexivity|].
  cbn [length Nat.add]. match goal with |- _ = ?r => set (rhs := r) end. cbn [fields]. rewrite nth_wide by exact F.
  assert (EC : nth (length (P ++ D)) R 0 = c). { rewrite E. rewrite app_assoc. rewrite app_nth2 by lia. rewrite Nat.sub_diag. reflexivity. }
  rewrite EC. rewrite !app_length in L. cbn [length] in L. replace (Nat.leb 32 (length (P ++ D))) with false by (symmetry; apply Nat.leb_gt; rewrite app_length; lia).
  replace (Nat.leb 32 (S (length (P ++ D)))) with false by (symmetry; apply Nat.leb_gt; rewrite app_length; lia).
  pose proof (Forall_inv G) as Gc. pose proof (Forall_inv_tail G) as Gf. cbn beta in Gc. replace ((c =? 44) || (c =? 0) || false) with false by lia.
  specialize (IH P (D ++ [c]) Q fuel). replace (S (length (P ++ D))) with (length (P ++ D ++ [c])) by (rewrite !app_length; cbn [length]; lia).
  rewrite <- app_assoc in IH. cbn [app] in IH. rewrite IH; [|exact E| |exact Gf].
  - unfold rhs. replace (length (P ++ (D ++ [c]) ++ f)) with (length (P ++ D ++ c :: f)) by (rewrite !app_length; cbn [length]; lia). reflexivity.
  - rewrite !app_length. cbn [length]. lia.
Qed.
Lemma decimal_nonempty neg ds fs : ds <> [] -> (length (decimal_text neg ds fs) > 0)%nat.
Proof. intros N. unfold decimal_text. rewrite !app_length, map_length. destruct ds; [contradiction|cbn [length]; lia]. Qed.
Lemma one_field R v vs acc f val P sep Q fuel : Forall byte_ok R -> R = P ++ f ++ sep :: Q -> (length (P ++ f) <= 31)%nat -> sep = 44 \/ sep = 0 -> field_value v f val ->
  fields (length f + S fuel) (map to_wide R) (v :: vs) (length P) (length P) acc = fields fuel (map to_wide R) vs (S (length (P ++ f))) (S (length (P ++ f))) (acc ++ [val]).
Proof.
  intros F E L S V.
  assert (EC : nth (length (P ++ f)) R 0 = sep). { rewrite E. rewrite app_assoc. rewrite app_nth2 by lia. rewrite Nat.sub_diag. reflexivity. }
  assert (EN : (Datatypes.S (length (P ++ f)) - length P - 1)%nat = length f) by (rewrite app_length; lia).
  destruct V as [neg ds fs N Hd Hf Hn Hl|bs G].
  - set (f := decimal_text neg ds fs) in *. pose proof (scan_num R vs acc F f P [] (sep :: Q) fuel E L (decimal_chars neg ds fs Hd Hf)) as Sc. rewrite app_nil_r in Sc. cbn [app] in Sc. rewrite Sc. clear Sc.
    cbn [fields]. rewrite nth_wide by exact F. rewrite EC, EN. replace (Nat.leb 32 (length (P ++ f))) with false by (symmetry; apply Nat.leb_gt; lia).
    replace (is_digit sep || (sep =? 46) || (sep =? 45)) with false by (unfold is_digit; lia). replace ((sep =? 44) || (sep =? 0) || (sep =? 32) || _) with true by lia.
    pose proof (decimal_nonempty neg ds fs N) as NE. fold f in NE. destruct (Nat.eqb_spec (length f) 0); [lia|].
    rewrite <- (map_length to_wide P), E, !map_app, mid by (rewrite map_length; reflexivity). rewrite map_back by (rewrite E in F; apply Forall_app in F; destruct F as (_ & F); apply Forall_app in F; apply F).
    destruct (u8_decimal neg ds fs Hd Hf Hn Hl) as (x & E1 & E2). unfold f at 1. rewrite E1. cbn [bind]. rewrite E2. rewrite <- ?map_app. rewrite ?map_length. reflexivity.
  - pose proof (scan_str R vs acc F bs P [] (sep :: Q) fuel E L G) as Sc. rewrite app_nil_r in Sc. cbn [app] in Sc. rewrite Sc. clear Sc.
    cbn [fields]. rewrite nth_wide by exact F. rewrite EC, EN. replace (Nat.leb 32 (length (P ++ bs))) with false by (symmetry; apply Nat.leb_gt; lia).
    replace ((sep =? 44) || (sep =? 0) || _) with true by lia.
    assert (FS : firstn (Datatypes.S (length bs)) (skipn (length P) (map to_wide R)) = map to_wide (bs ++ [sep])).
    { rewrite <- (map_length to_wide P), E. replace (P ++ bs ++ sep :: Q) with (P ++ (bs ++ [sep]) ++ Q) by (rewrite <- app_assoc; reflexivity). rewrite map_app, map_app. apply mid. rewrite map_length, app_length. cbn [length]. lia. }
    assert (FB : Forall byte_ok (bs ++ [sep])). { rewrite E in F. replace (P ++ bs ++ sep :: Q) with (P ++ (bs ++ [sep]) ++ Q) in F by (rewrite <- app_assoc; reflexivity). apply Forall_app in F. destruct F as (_ & F). apply Forall_app in F. apply F. }
    rewrite FS, all_char by exact FB.
    rewrite <- (map_length to_wide P), E, !map_app, mid by (rewrite map_length; reflexivity). rewrite map_back by (apply Forall_app in FB; apply FB).
    rewrite <- ?map_app. rewrite ?map_length. reflexivity.
Qed.
Lemma all_fields : forall fs vars vals, Forall2 (fun vf x => field_value (fst vf) (snd vf) x) (combine vars fs) vals -> length fs = length vars -> fs <> [] ->
  forall R P k acc fuel, Forall byte_ok R -> R = P ++ line_of fs ++ repeat 0 k -> (0 < k)%nat -> (length (P ++ line_of fs) <= 31)%nat -> (length (line_of fs) < fuel)%nat ->
  fields fuel (map to_wide R) vars (length P) (length P) acc = Ok (acc ++ vals, true).
Proof.
  induction fs as [|f fs IH]; intros vars vals V L N R P k acc fuel F E K Le Fu; [contradiction|]. destruct vars as [|v vars]; [discriminate|]. cbn [combine] in V. inversion V as [|? x ? xs V1 V2]; subst. cbn [fst snd] in V1.
  destruct fs as [|g fs].
  - destruct vars; [|discriminate]. inversion V2; subst. cbn [line_of] in *. destruct k as [|k]; [lia|]. cbn [repeat] in *.
    replace fuel with (length f + S (fuel - length f - 1))%nat by lia. rewrite (one_field _ v [] acc f x P 0 (repeat 0 k) _ F eq_refl Le ltac:(auto) V1). destruct (fuel - length f - 1)%nat; reflexivity.
  - change (line_of (f :: g :: fs)) with (f ++ [44] ++ line_of (g :: fs)) in *. rewrite !app_length in Le, Fu. cbn [app length] in Le, Fu.
    replace fuel with (length f + S (fuel - length f - 1))%nat by lia.
    rewrite (one_field _ v vars acc f x P 44 (line_of (g :: fs) ++ repeat 0 k) _ F ltac:(rewrite <- !app_assoc; reflexivity) ltac:(rewrite app_length; lia) ltac:(auto) V1).
    replace (S (length (P ++ f))) with (length (P ++ f ++ [44])) by (rewrite !app_length; cbn [length]; lia).
    rewrite (IH vars xs V2 ltac:(cbn [length] in *; lia) ltac:(discriminate) _ (P ++ f ++ [44]) k (acc ++ [x])); [rewrite <- app_assoc; reflexivity|exact F| |exact K| |].
    + rewrite <- !app_assoc. reflexivity.
    + rewrite !app_length. cbn [length]. lia.
    + lia.
Qed.
Lemma count_app a b : comma_count (a ++ b) = (comma_count a + comma_count b)%nat.
Proof. unfold comma_count. rewrite filter_app, app_length. reflexivity. Qed.
Lemma count_none bs : Forall (fun b => byte_ok b /\ b <> 44) bs -> comma_count (map to_wide bs) = 0%nat.
Proof.
  induction 1 as [|b bs (B & N) F IH]; [reflexivity|]. unfold comma_count in *. cbn [map filter]. destruct (Z.eqb_spec (to_wide b) (to_wide 44)) as [E|E]; [|exact IH].
  exfalso. apply N. apply (to_wide_inj b 44 B ltac:(lia) E).
Qed.
Lemma field_plain v f x : field_value v f x -> Forall (fun b => byte_ok b /\ b <> 44) f.
Proof.
  intros V. destruct V as [neg ds fs N Hd Hf Hn Hl|bs G].
  - eapply Forall_impl; [|apply (decimal_chars neg ds fs Hd Hf)]. intros c Hc. cbn beta in *; unfold byte_ok; lia.
  - eapply Forall_impl; [|exact G]. intros b Hb. cbn beta in *; unfold byte_ok; lia.
Qed.
Lemma line_commas : forall fs vars vals, Forall2 (fun vf x => field_value (fst vf) (snd vf) x) (combine vars fs) vals -> length fs = length vars -> fs <> [] ->
  comma_count (map to_wide (line_of fs)) = (length vars - 1)%nat /\ length vals = length vars.
Proof.
  induction fs as [|f fs IH]; intros vars vals V L N; [contradiction|]. destruct vars as [|v vars]; [discriminate|]. cbn [combine] in V. inversion V as [|? x ? xs V1 V2]; subst. cbn [fst snd] in V1.
  destruct fs as [|g fs].
  - destruct vars; [|discriminate]. inversion V2; subst. cbn [line_of]. split; [apply (count_none f (field_plain _ _ _ V1))|reflexivity].
  - change (line_of (f :: g :: fs)) with (f ++ [44] ++ line_of (g :: fs)). destruct (IH vars xs V2 ltac:(cbn [length] in *; lia) ltac:(discriminate)) as (I1 & I2).
    rewrite !map_app, !count_app, I1, (count_none f (field_plain _ _ _ V1)). change (comma_count (map to_wide [44])) with 1%nat. cbn [length] in *. destruct vars; [discriminate|]. cbn [length] in *. split; lia.
Qed.
Lemma row_bytes c0 c bs : shows c0 c (map to_wide bs) -> (length bs <= 32)%nat -> row c = map to_wide (bs ++ repeat 0 (32 - length bs)).
Proof. intros S L. rewrite (shows_row _ _ _ S) by (rewrite map_length; exact L). rewrite map_app, map_length. f_equal. induction (32 - length bs)%nat as [|n IH]; [reflexivity|]. cbn [repeat map]. rewrite <- IH. reflexivity. Qed.
Lemma commas_row bs n : commas (map to_wide (bs ++ repeat 0 n)) = Z.of_nat (comma_count (map to_wide bs)).
Proof.
  unfold commas. fold (comma_count (map to_wide (bs ++ repeat 0 n))). rewrite map_app, count_app. replace (comma_count (map to_wide (repeat 0 n))) with 0%nat; [lia|].
  symmetry. apply count_none. apply Forall_forall. intros b I. apply repeat_spec in I. subst b. unfold byte_ok. lia.
Qed.
Lemma zeros_ok bs n : Forall byte_ok bs -> Forall byte_ok (bs ++ repeat 0 n).
Proof. intros F. apply Forall_app. split; [exact F|]. apply Forall_forall. intros b I. apply repeat_spec in I. subst b. unfold byte_ok. lia. Qed.

(** A line of one field per variable, at most 31 characters: each variable gets its field. *)
Theorem C50_fields_partial : forall c prompt vars vals ks l rest fs news, sound c -> blank_row c (cy c) -> typing ([], []) ks l false rest -> (cy c < 23 \/ never_full ([], []) ks = true) ->
  typed l = map to_wide (line_of fs) -> (length (line_of fs) <= 31)%nat -> vars <> [] -> length fs = length vars -> length vals = length vars ->
  Forall2 (fun vf x => field_value (fst vf) (snd vf) x) (combine vars fs) news ->
  exists c', asking c prompt vars vals ks = Ok (Answer c' news).
Proof.
  intros c p vars vals ks l r fs news S B T R W L N L1 L2 V. unfold asking at 1. cbn [input_loop].
  destruct (C49_editing_partial c ks l false r S B T R) as (c1 & -> & Sh & X). cbn [bind]. rewrite W in Sh. rewrite (row_bytes _ _ _ Sh ltac:(lia)).
  assert (N' : fs <> []) by (intros ->; destruct vars; [contradiction|discriminate]). destruct (line_commas fs vars news V L1 N') as (Cc & Ln).
  rewrite commas_row, Cc. replace (Z.of_nat (length vars) =? Z.of_nat (length vars - 1) + 1) with true by (destruct vars; [contradiction|cbn [length]; lia]).
  assert (FB : Forall byte_ok (line_of fs)).
  { clear -V L1. revert vars news V L1. induction fs as [|f fs IH]; intros vars news V L1; [constructor|]. destruct vars as [|v vars]; [discriminate|]. cbn [combine] in V. inversion V as [|? x ? xs V1 V2]; subst. cbn [fst snd] in V1.
    assert (Ff : Forall byte_ok f) by (eapply Forall_impl; [|apply (field_plain _ _ _ V1)]; intros z Hz; apply Hz). destruct fs as [|g fs]; [exact Ff|].
    change (line_of (f :: g :: fs)) with (f ++ [44] ++ line_of (g :: fs)). apply Forall_app. split; [exact Ff|]. constructor; [unfold byte_ok; lia|]. apply (IH vars xs V2). cbn [length] in *. lia. }
  pose proof (all_fields fs vars news V L1 N' _ [] (32 - length (line_of fs)) [] 40 (zeros_ok _ (32 - length (line_of fs)) FB) eq_refl ltac:(lia) L ltac:(lia)) as A. cbn [length app] in A. rewrite A. cbn [bind fst snd].
  eexists. unfold overlay. rewrite skipn_all2 by lia. rewrite app_nil_r. reflexivity.
Qed.

(** ** asking again *)
Lemma loop_rest : forall ks e c b r, edit_loop e ks = Ok (Some (c, b, r)) -> (length r < length ks)%nat.
Proof.
  induction ks as [|k ks IH]; intros e c b r E; cbn [edit_loop] in E; [discriminate|]. destruct (edit_step e k) as [e1| |]; cbn [bind] in E; try discriminate.
  destruct (k_err k); [injection E as <- <- <-; cbn [length]; lia|]. destruct ((k_char k =? 13) || k_a k); [injection E as <- <- <-; cbn [length]; lia|]. apply IH in E. cbn [length]. lia.
Qed.
Lemma input_fuel prompt vars : forall n m c vals ks, (length ks < n)%nat -> (length ks < m)%nat -> input_loop n c prompt vars vals ks = input_loop m c prompt vars vals ks.
Proof.
  induction n as [|n IH]; intros m c vals ks A B; [lia|]. destruct m as [|m]; [lia|]. cbn [input_loop]. destruct (shared_input c ks) as [[[[c1 b] r]|]| |] eqn:E; cbn [bind]; try reflexivity.
  apply loop_rest in E. destruct b; [reflexivity|]. destruct (_ =? _).
  - destruct (fields _ _ _ _ _ _) as [f| |]; cbn [bind]; try reflexivity. destruct (snd f); [reflexivity|]. destruct (con_reprompt c1 prompt); cbn [bind]; try reflexivity. apply IH; lia.
  - destruct (con_reprompt c1 prompt); cbn [bind]; try reflexivity. apply IH; lia.
Qed.
Definition plen (p : option (list Z)) : Z := match p with Some ws => Z.of_nat (length ws) | None => 0 end.
Lemma reprompt_ok c p : sound c -> (forall y, cy c < y < 24 -> blank_row c y) -> plen p <= 30 ->
  exists c', con_reprompt c p = Ok c' /\ sound c' /\ cx c' = 0 /\ clear_below c' /\ forall x, 0 <= x < 16 -> cell c' x (cy c' - 2) = nth (Z.to_nat x) redo_text 0.
Proof.
  intros (S1 & S2 & S3) B P. unfold con_reprompt. pose proof (newline_ok c S1 S2 S3) as N. cbv zeta in N. set (n := if cy c =? 23 then 1 else 0) in *. destruct N as (N1 & N2 & N3 & N4 & N5 & N6 & V0). set (c1 := con_newline c true) in *.
  assert (Hn : cy c + 1 - n <= 23 /\ (n = 0 \/ n = 1) /\ (n = 1 -> cy c = 23)) by (unfold n; destruct (Z.eqb_spec (cy c) 23); lia). unfold con_puts, CH. replace (cy c1 >=? 24) with false by lia.
  assert (LR : length redo_text = 16%nat) by reflexivity.
  destruct (puts_fit redo_text c1 N1 N2 ltac:(lia) ltac:(lia) ltac:(rewrite LR; lia)) as (c2 & E2 & A1 & A2 & A3 & A4 & A5 & A6 & V1). rewrite E2. cbn [bind].
  pose proof (newline_ok c2 A1 A2 ltac:(lia)) as M. cbv zeta in M. set (m := if cy c2 =? 23 then 1 else 0) in *. destruct M as (M1 & M2 & M3 & M4 & M5 & M6 & V2). set (c3 := con_newline c2 true) in *.
  assert (Hm : cy c2 + 1 - m <= 23 /\ (m = 0 \/ m = 1) /\ (m = 1 -> cy c2 = 23)) by (unfold m; destruct (Z.eqb_spec (cy c2) 23); lia).
  assert (PR : exists ws, con_prompt c3 p = con_prompt c3 (Some ws) /\ Z.of_nat (length ws) = plen p).
  { destruct p as [ws|]; [exists ws; auto|]. exists []. split; [|reflexivity]. unfold con_prompt, con_puts, CH. replace (cy c3 >=? 24) with false by lia. reflexivity. }
  destruct PR as (ws & -> & Lw). destruct (prompt_ok c3 ws) as (c4 & E4 & S4 & X4 & Y4 & _ & V4 & V5); [repeat split; try assumption; lia|lia|lia|].
  exists c4. split; [exact E4|]. split; [exact S4|]. split; [exact X4|].
  assert (BL : forall x y, 0 <= x < 32 -> cy c3 <= y < 24 -> cell c3 x y = 0).
  { intros x y Hx Hy. rewrite V2 by lia. destruct (Z.ltb_spec (y + m) 24); [|reflexivity]. destruct (V1 x (y + m) Hx ltac:(lia)) as (-> & _). replace (y + m =? cy c1) with false by lia. cbn [andb].
    rewrite V0 by lia. destruct (Z.ltb_spec (y + m + n) 24); [|reflexivity]. apply (B (y + m + n)); lia. }
  split.
  - intros y Hy x Hx. rewrite V4 by lia. destruct (Z.eqb_spec (cy c3) 23); [reflexivity|]. apply BL; lia.
  - intros x Hx. unfold con_prompt in E4.
    (* the row above the prompt's *)
    assert (R : cell c3 x (cy c3 - 1) = nth (Z.to_nat x) redo_text 0).
    { rewrite V2 by lia. replace (cy c3 - 1 + m <? 24) with true by lia. destruct (V1 x (cy c3 - 1 + m) ltac:(lia) ltac:(lia)) as (-> & _). rewrite N3, LR. replace ((cy c3 - 1 + m =? cy c1) && (0 <=? x) && (x <? 0 + Z.of_nat 16)) with true by lia. f_equal. lia. }
    rewrite <- R. clear R V0 V1 V2 V4 V5 BL. revert E4. unfold con_puts, CH. replace (cy c3 >=? 24) with false by lia.
    destruct (puts_fit ws c3 M1 M2 ltac:(lia) ltac:(lia) ltac:(lia)) as (d & Ed & D1 & D2 & D3 & D4 & _ & _ & W1). rewrite Ed. cbn [bind].
    assert (Q : con_put d (to_wide 63) = con_puts_loop d [to_wide 63]) by (cbn [con_puts_loop]; destruct (con_put d (to_wide 63)); reflexivity). rewrite Q.
    destruct (puts_fit [to_wide 63] d D1 D2 ltac:(lia) ltac:(lia) ltac:(cbn [length]; lia)) as (e & Ee & G1 & G2 & G3 & G4 & _ & _ & W2). rewrite Ee. cbn [bind length] in *. replace (cx e =? 0) with false by lia. intros E4. assert (EQ : con_newline e true = c4) by congruence. rewrite <- EQ.
    pose proof (newline_ok e G1 G2 ltac:(lia)) as K. cbv zeta in K. set (k := if cy e =? 23 then 1 else 0) in *. destruct K as (_ & _ & _ & K4 & _ & _ & W3).
    assert (Hk : (k = 0 \/ k = 1) /\ (k = 1 -> cy e = 23)) by (unfold k; destruct (Z.eqb_spec (cy e) 23); lia).
    rewrite K4, W3 by lia. replace (cy e + 1 - k - 2 + k) with (cy c3 - 1) by lia. replace (cy c3 - 1 <? 24) with true by lia.
    destruct (W2 x (cy c3 - 1) ltac:(lia) ltac:(lia)) as (-> & _). replace (cy c3 - 1 =? cy d) with false by lia. cbn [andb]. destruct (W1 x (cy c3 - 1) ltac:(lia) ltac:(lia)) as (-> & _). replace (cy c3 - 1 =? cy c3) with false by lia. reflexivity.
Qed.
Lemma shown_below c c1 ws : shows c c1 ws -> clear_below c -> forall y, cy c1 < y < 24 -> blank_row c1 y.
Proof. intros (S & Y & _ & _ & _ & _ & O) B y Hy x Hx. rewrite Y in Hy. destruct S as (_ & _ & S). destruct (O x y Hx ltac:(lia) ltac:(lia)) as (-> & _). apply B; lia. Qed.

(** A line whose number of fields is not the number of variables: "?Redo from start", the prompt again, and INPUT goes on with the keys that follow; no
    variable has changed. *)
Theorem C50_again_partial : forall c prompt vars vals ks l rest, sound c -> clear_below c -> plen prompt <= 30 -> typing ([], []) ks l false rest -> Forall in_set ks ->
  (cy c < 23 \/ never_full ([], []) ks = true) -> (comma_count (typed l) + 1)%nat <> length vars ->
  exists c2, asking c prompt vars vals ks = asking c2 prompt vars vals rest /\ sound c2 /\ cx c2 = 0 /\ clear_below c2 /\
    forall x, 0 <= x < 16 -> cell c2 x (cy c2 - 2) = nth (Z.to_nat x) redo_text 0.
Proof.
  intros c p vars vals ks l r S B P T G R N. unfold asking at 1. cbn [input_loop].
  destruct (C49_editing_partial c ks l false r S (B (cy c) ltac:(destruct S as (_ & _ & ?); lia)) T R) as (c1 & E & Sh & X). rewrite E. cbn [bind].
  destruct (delivered _ _ _ _ _ _ T G Sh) as (_ & Gd & L). rewrite (shows_row _ _ _ Sh L).
  assert (Q : commas (typed l ++ repeat 0 (32 - length (typed l))) = Z.of_nat (comma_count (typed l))).
  { unfold commas. fold (comma_count (typed l ++ repeat 0 (32 - length (typed l)))). rewrite count_app. replace (comma_count (repeat 0 (32 - length (typed l)))) with 0%nat; [lia|]. generalize (32 - length (typed l))%nat as n. intros n. induction n; [reflexivity|exact IHn]. }
  rewrite Q. replace (Z.of_nat (length vars) =? Z.of_nat (comma_count (typed l)) + 1) with false by lia.
  destruct (reprompt_ok c1 p ltac:(apply Sh) (shown_below _ _ _ Sh B) P) as (c2 & -> & S2 & X2 & B2 & V2). cbn [bind]. exists c2. split; [|auto].
  apply loop_rest in E. unfold asking. apply input_fuel; lia.
Qed.
(** The same when the first variable is a number and the line does not begin with a digit, a sign or a point *)
Theorem C50_not_a_number_partial : forall c prompt vars vals ks l rest bs, sound c -> clear_below c -> plen prompt <= 30 -> typing ([], []) ks l false rest ->
  (cy c < 23 \/ never_full ([], []) ks = true) -> typed l = map to_wide bs -> (length bs <= 31)%nat -> Forall byte_ok bs -> nth 0 vars IOther = INum ->
  ~ (48 <= nth 0 bs 0 <= 57) -> nth 0 bs 0 <> 45 -> nth 0 bs 0 <> 46 -> 
  exists c2, asking c prompt vars vals ks = asking c2 prompt vars vals rest /\ sound c2 /\ cx c2 = 0 /\ clear_below c2 /\
    forall x, 0 <= x < 16 -> cell c2 x (cy c2 - 2) = nth (Z.to_nat x) redo_text 0.
Proof.
  intros c p vars vals ks l r bs S B P T R W L F V D1 D2 D3. unfold asking at 1. cbn [input_loop].
  destruct (C49_editing_partial c ks l false r S (B (cy c) ltac:(destruct S as (_ & _ & ?); lia)) T R) as (c1 & E & Sh & X). rewrite E. cbn [bind]. rewrite W in Sh. rewrite (row_bytes _ _ _ Sh ltac:(lia)).
  destruct (reprompt_ok c1 p ltac:(apply Sh) (shown_below _ _ _ Sh B) P) as (c2 & E2 & S2 & X2 & B2 & V2). exists c2. split; [|auto]. apply loop_rest in E.
  destruct (_ =? _).
  - destruct vars as [|v vars]; [discriminate|]. cbn [nth] in V. subst v. change 40%nat with (Datatypes.S 39). generalize 39%nat as fu. intros fu. cbn [fields]. rewrite nth_wide by (apply zeros_ok, F). change (Nat.leb 32 0) with false.
    assert (HB : nth 0 (bs ++ repeat 0 (32 - length bs)) 0 = nth 0 bs 0). { destruct bs; [reflexivity|reflexivity]. }
    rewrite HB. set (b := nth 0 bs 0) in *. replace (is_digit b || (b =? 46) || (b =? 45)) with false by (unfold is_digit; lia). change (1 - 0 - 1)%nat with 0%nat. rewrite Nat.eqb_refl.
    match goal with |- bind ?x _ = _ => assert (XX : x = Ok ([], false)) by (destruct (_ || _ || _ || _); reflexivity); rewrite XX end. cbn [bind fst snd]. rewrite E2. cbn [bind]. unfold asking. apply input_fuel; lia.
  - rewrite E2. cbn [bind]. unfold asking. apply input_fuel; lia.
Qed.

(** ** no damage *)
Lemma frac_pow : forall cs f j, exists k, (k <= length cs)%nat /\ snd (frac_loop 10 cs f (u32 (10 ^ Z.of_nat j))) = u32 (10 ^ Z.of_nat (j + k)).
Proof.
  induction cs as [|c cs IH]; intros f j; cbn [frac_loop].
  - exists 0%nat. rewrite Nat.add_0_r. split; [lia|reflexivity].
  - destruct (_ && _); [|exists 0%nat; rewrite Nat.add_0_r; split; [lia|reflexivity]].
    assert (E : u32 (u32 (10 ^ Z.of_nat j) * 10) = u32 (10 ^ Z.of_nat (S j))). { unfold u32. rewrite Zmult_mod_idemp_l. f_equal. rewrite Nat2Z.inj_succ, Z.pow_succ_r by lia. ring. }
    rewrite E. destruct (IH (u32 (u32 (f * 10) + digit_value c)) (S j)) as (k & K1 & K2). exists (S k). split; [cbn [length]; lia|]. rewrite K2. f_equal. f_equal. lia.
Qed.
Lemma pow_table : forallb (fun k => negb (u32 (10 ^ Z.of_nat k) =? 0)) (seq 0 32) = true.
Proof. vm_compute. reflexivity. Qed.
Lemma num_loop_max : forall cs first n neg, (length cs <= 31)%nat -> snd (snd (fst (num_loop 10 true cs first n neg))) <> 0.
Proof.
  induction cs as [|c cs IH]; intros first n neg L; cbn [num_loop]; [cbn; lia|]. cbn [length] in L.
  destruct (_ && _). { destruct (_ >=? _); [cbn; lia|]. apply IH. lia. }
  destruct ((c =? to_wide 46) && true).
  { cbn [fst snd]. destruct (frac_pow cs 0 0) as (k & K & E). change (u32 (10 ^ Z.of_nat 0)) with 1 in E. rewrite E. pose proof pow_table as P. rewrite forallb_forall in P. specialize (P (0 + k)%nat). rewrite in_seq in P. specialize (P ltac:(lia)). apply negb_true_iff, Z.eqb_neq in P. exact P. }
  destruct (_ && _); [|cbn; lia]. destruct (_ >=? _); [cbn; lia|]. apply IH. lia.
Qed.
Lemma u8_to_num_ok bs : (length bs <= 31)%nat -> exists v, u8_to_num bs = Ok v.
Proof.
  intros L. unfold u8_to_num, u8_to_number, str_to_number. pose proof (num_loop_max (map to_wide bs) true 0 false ltac:(rewrite map_length; exact L)) as M.
  destruct (num_loop 10 true (map to_wide bs) true 0 false) as [[n [f m]] neg]. cbn [fst snd] in M. destruct (Z.eqb_spec m 0); [contradiction|]. destruct neg; eexists; reflexivity.
Qed.
Lemma fields_ok R k : Forall byte_ok R -> (0 < k)%nat -> forall t P vars prev acc fuel, R = P ++ t ++ repeat 0 k -> (length (P ++ t) <= 31)%nat -> (prev <= length P)%nat -> Forall (fun b => b <> 0) t ->
  Forall (fun v => v <> IOther) vars -> (length vars <= comma_count (map to_wide t) + 1)%nat -> (length t < fuel)%nat -> exists f, fields fuel (map to_wide R) vars prev (length P) acc = Ok f.
Proof.
  intros F K. induction t as [|b t IH]; intros P vars prev acc fuel E L Pv Nz O C Fu.
  - destruct fuel as [|fuel]; [lia|]. destruct vars as [|v vars]; [eexists; reflexivity|]. change (comma_count (map to_wide [])) with 0%nat in C. assert (vars = []) by (destruct vars; [reflexivity|cbn [length] in C; lia]). subst vars.
    rewrite app_nil_r in L. cbn [app] in E. cbn [fields]. rewrite nth_wide by exact F. replace (Nat.leb 32 (length P)) with false by (symmetry; apply Nat.leb_gt; lia).
    assert (EC : nth (length P) R 0 = 0). { rewrite E, app_nth2 by lia. rewrite Nat.sub_diag. destruct k; [lia|reflexivity]. } rewrite EC. change (is_digit 0 || (0 =? 46) || (0 =? 45)) with false. change (0 =? 0) with true. rewrite !orb_true_r. cbn [orb].
    destruct v; [| |inversion O; congruence].
    + destruct (Nat.eqb _ _); [eexists; reflexivity|]. match goal with |- context [u8_to_num ?x] => destruct (u8_to_num_ok x) as (y & ->) end. { rewrite map_length, firstn_length. lia. } cbn [bind]. destruct fuel; eexists; reflexivity.
    + destruct fuel; eexists; reflexivity.
  - destruct fuel as [|fuel]; [lia|]. destruct vars as [|v vars]; [eexists; reflexivity|]. cbn [fields]. rewrite nth_wide by exact F. rewrite app_length in L. cbn [length] in L, Fu.
    replace (Nat.leb 32 (length P)) with false by (symmetry; apply Nat.leb_gt; lia). replace (Nat.leb 32 (S (length P))) with false by (symmetry; apply Nat.leb_gt; lia).
    assert (EC : nth (length P) R 0 = b). { rewrite E, app_nth2 by lia. rewrite Nat.sub_diag. reflexivity. } rewrite EC.
    assert (Fb : byte_ok b). { rewrite E in F. apply Forall_app in F. destruct F as (_ & F). inversion F; assumption. }
    assert (EQ : R = (P ++ [b]) ++ t ++ repeat 0 k) by (rewrite E, <- app_assoc; reflexivity). assert (LP : length (P ++ [b]) = S (length P)) by (rewrite app_length; cbn [length]; lia).
    pose proof (Forall_inv Nz) as Nb. pose proof (Forall_inv_tail Nz) as Nt. cbn beta in Nb.
    assert (CC : comma_count (map to_wide (b :: t)) = ((if (b =? 44)%Z then 1 else 0) + comma_count (map to_wide t))%nat).
    { unfold comma_count. cbn [map filter]. destruct (Z.eqb_spec b 44) as [->|Nq]; [reflexivity|]. destruct (Z.eqb_spec (to_wide b) (to_wide 44)) as [Eq|]; [|reflexivity]. exfalso. apply Nq. apply (to_wide_inj b 44 Fb ltac:(lia) Eq). }
    rewrite CC in C. cbn [length] in C.
    assert (STAY : forall v', (b =? 44) = false -> v' :: vars = v :: vars -> exists f, fields fuel (map to_wide R) (v' :: vars) prev (S (length P)) acc = Ok f).
    { intros v' N EV. injection EV as ->. rewrite N in C. rewrite <- LP. apply IH; [exact EQ|rewrite app_length, LP; lia|lia|exact Nt|exact O|cbn [length]; lia|lia]. }
    assert (NEXT : forall acc', exists f, fields fuel (map to_wide R) vars (S (length P)) (S (length P)) acc' = Ok f).
    { intros acc'. rewrite <- LP. apply IH; [exact EQ|rewrite app_length, LP; lia|lia|exact Nt|inversion O; assumption|destruct (b =? 44); lia|lia]. }
    destruct v; [| |inversion O; congruence].
    + destruct (is_digit b || (b =? 46) || (b =? 45)) eqn:D; [apply STAY; [unfold is_digit in D; lia|reflexivity]|].
      destruct ((b =? 44) || (b =? 0) || (b =? 32) || false); [|eexists; reflexivity]. destruct (Nat.eqb _ _); [eexists; reflexivity|].
      match goal with |- context [u8_to_num ?x] => destruct (u8_to_num_ok x) as (y & ->) end. { rewrite map_length, firstn_length. lia. } cbn [bind]. apply NEXT.
    + destruct ((b =? 44) || (b =? 0) || false) eqn:D; [apply NEXT|apply STAY; [lia|reflexivity]].
Qed.
(** Any line of at most 31 characters, any number or string variables: INPUT takes it or asks again; no access outside the row, the copy or the screen. *)
Theorem C50_no_damage_partial : forall c prompt vars vals ks l rest bs, sound c -> clear_below c -> plen prompt <= 30 -> typing ([], []) ks l false rest ->
  (cy c < 23 \/ never_full ([], []) ks = true) -> typed l = map to_wide bs -> (length bs <= 31)%nat -> Forall (fun b => 0 < b < 256) bs -> Forall (fun v => v <> IOther) vars ->
  (exists c' news, asking c prompt vars vals ks = Ok (Answer c' news)) \/
  (exists c2 vals2, asking c prompt vars vals ks = asking c2 prompt vars vals2 rest /\ sound c2 /\ cx c2 = 0 /\ clear_below c2).
Proof.
  intros c p vars vals ks l r bs S B P T R W L F O. unfold asking at 1 2. cbn [input_loop].
  destruct (C49_editing_partial c ks l false r S (B (cy c) ltac:(destruct S as (_ & _ & ?); lia)) T R) as (c1 & E & Sh & X). rewrite E. cbn [bind]. rewrite W in Sh. rewrite (row_bytes _ _ _ Sh ltac:(lia)).
  destruct (reprompt_ok c1 p ltac:(apply Sh) (shown_below _ _ _ Sh B) P) as (c2 & E2 & S2 & X2 & B2 & _). apply loop_rest in E.
  assert (F' : Forall byte_ok bs) by (eapply Forall_impl; [|exact F]; intros b Hb; cbn beta in Hb; unfold byte_ok; lia).
  rewrite commas_row. destruct (Z.eqb_spec (Z.of_nat (length vars)) (Z.of_nat (comma_count (map to_wide bs)) + 1)) as [Q|Q].
  - destruct (fields_ok _ (32 - length bs) (zeros_ok bs (32 - length bs) F') ltac:(lia) bs [] vars 0 [] 40 eq_refl ltac:(exact L) ltac:(cbn; lia)) as ((acc & v) & Ef).
    { eapply Forall_impl; [|exact F]. intros b Hb. cbn beta in Hb. lia. } { exact O. } { lia. } { lia. }
    cbn [length] in Ef. rewrite Ef. cbn [bind fst snd]. destruct v; [left; eexists _, _; reflexivity|]. right. rewrite E2. cbn [bind]. exists c2, (overlay acc vals). split; [|auto]. unfold asking. apply input_fuel; lia.
  - right. rewrite E2. cbn [bind]. exists c2, vals. split; [|auto]. unfold asking. apply input_fuel; lia.
Qed.

(** ** what goes wrong *)
Definition keys_of (bs : list Z) : list keys := map (fun b => key (to_wide b)) bs ++ [return_key].
Lemma keys_in_set bs : Forall (fun b => 0 <= b < 256) bs -> Forall in_set (keys_of bs).
Proof. intros F. unfold keys_of. apply Forall_app. split; [|repeat constructor; exists 13; split; [lia|reflexivity]]. apply Forall_map. eapply Forall_impl; [|exact F]. intros b Hb. exists b. split; [exact Hb|reflexivity]. Qed.
(** INPUT A with 32 digits writes beyond its copy of the line *)
Theorem C50_full_line_refuted : asking init_console None [INum] [IVNum 0] (keys_of (repeat 49 32)) = UB.
Proof. vm_compute. reflexivity. Qed.
(** INPUT A$ with 32 characters loses the last one *)
Theorem C50_last_character_refuted : exists c, asking init_console None [IStr] [IVStr (SChar [])] (keys_of (repeat 65 31 ++ [66])) = Ok (Answer c [IVStr (SChar (repeat 65 31))]).
Proof. eexists. vm_compute. reflexivity. Qed.
(** INPUT A,B with "1 2,3": A is 1, B is 2; a space ends a number, and the rest of the line is not looked at *)
Theorem C50_space_refuted : exists c, asking init_console None [INum; INum] [IVNum 0; IVNum 0] (keys_of [49; 32; 50; 44; 51]) = Ok (Answer c [IVNum 4096; IVNum 8192]).
Proof. eexists. vm_compute. reflexivity. Qed.
(** INPUT A,B with "1,X" asks again, but A has already changed when it is then broken off *)
Theorem C50_redo_refuted : exists c, asking init_console None [INum; INum] [IVNum 0; IVNum 0] (keys_of [49; 44; 88] ++ [break]) = Ok (Broken c [IVNum 4096; IVNum 0]).
Proof. eexists. vm_compute. reflexivity. Qed.

(** 12.5,AB for INPUT X,A$ *)
Example C50_example : let ks := keys_of [49; 50; 46; 53; 44; 65; 66] in
  exists l, typing ([], []) ks l false [] /\ typed l = map to_wide (line_of [[49; 50; 46; 53]; [65; 66]]) /\
  Forall2 (fun vf x => field_value (fst vf) (snd vf) x) (combine [INum; IStr] [[49; 50; 46; 53]; [65; 66]]) [IVNum 51200; IVStr (SChar [65; 66])] /\
  sound init_console /\ clear_below init_console.
Proof.
  cbv zeta. eexists. split; [repeat (apply t_more; [reflexivity|reflexivity|]); apply t_finish; reflexivity|]. split; [vm_compute; reflexivity|]. split.
  - repeat constructor; try lia. apply (fv_num false [1; 2] [5]); [discriminate|repeat constructor; lia|repeat constructor; lia|vm_compute; reflexivity|cbn; lia].
  - split; [repeat split; vm_compute; congruence|]. intros y Hy x Hx. unfold cell. apply nth_repeat.
Qed.
Example C50_again_example : exists l, typing ([], []) (keys_of [49]) l false [] /\ (comma_count (typed l) + 1)%nat <> length [INum; INum].
Proof. eexists. split; [repeat (apply t_more; [reflexivity|reflexivity|]); apply t_finish; reflexivity|vm_compute; discriminate]. Qed.

Print Assumptions C50_fields_partial.
Print Assumptions C50_again_partial.
Print Assumptions C50_not_a_number_partial.
Print Assumptions C50_no_damage_partial.
Print Assumptions C50_full_line_refuted.
Print Assumptions C50_last_character_refuted.
Print Assumptions C50_space_refuted.
Print Assumptions C50_redo_refuted.
