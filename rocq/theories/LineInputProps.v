(** C49: the line editor of INPUT and LINPUT. *)
From Verif Require Import Base BaseLemmas Strs StrProofs NumText Console LineInput LineInputSpec LineInputProofs.
Ltac Zify.zify_post_hook ::= Z.div_mod_to_equations.
Open Scope Z_scope.

Lemma inv_shows c0 l e : sound c0 -> inv (cy c0) c0 l e -> shows c0 (e_con e) (typed l).
Proof.
  intros (S1 & S2 & S3) ((L1 & L2 & L3) & C1 & C2 & Ei & Em & N32 & T & CC & O). unfold shows, sound, cell, hue.
  split; [rewrite L3; auto|]. split; [exact L3|]. split; [exact C1|]. split; [exact C2|]. split; [exact T|]. split; [exact CC|].
  intros x y Hx Hy N. specialize (O (32 * y + x - 32 * cy c0)). unfold t_at, c_at in O. replace (32 * cy c0 + (32 * y + x - 32 * cy c0)) with (32 * y + x) in O by lia. apply O; lia.
Qed.
Lemma inv_start c : sound c -> blank_row c (cy c) -> inv (cy c) c ([], []) {| e_con := c; e_i := 0; e_max := 0 |}.
Proof.
  intros (S1 & S2 & S3) B. unfold inv. cbn [e_con e_i e_max]. split; [repeat split; assumption|]. split; [reflexivity|]. split; [reflexivity|]. split; [reflexivity|]. split; [reflexivity|].
  split; [vm_compute; discriminate|]. split.
  - intros i Hi. unfold t_at. fold (cell c i (cy c)). rewrite B by exact Hi. destruct (Z.to_nat i); reflexivity.
  - split; [|auto]. intros i Hi. exfalso. change (Z.of_nat (length (typed ([], [])))) with 0 in Hi. lia.
Qed.
Lemma loop_inv c0 : sound c0 -> forall l ks l' b r, typing l ks l' b r -> forall e, inv (cy c0) c0 l e -> (cy c0 < 23 \/ never_full l ks = true) ->
  exists e', edit_loop e ks = Ok (Some (e_con e', b, r)) /\ inv (cy c0) c0 l' e' /\ cx (e_con e') = cursor l'.
Proof.
  intros (S1 & S2 & S3) l ks l' b r T. induction T as [l k t B|l k t B F|l k t l' b r B F T IH]; intros e I R; cbn [edit_loop];
    destruct (step_inv (cy c0) S3 c0 l e k I) as (e1 & E1 & I1 & X1).
  1,3,5: destruct R as [R|R]; [left; exact R|right]; cbn [never_full] in R; apply andb_true_iff in R; destruct R as (R & _); apply negb_true_iff in R; exact R.
  all: rewrite E1; cbn [bind]; unfold breaks in B; rewrite B.
  - exists e1. auto.
  - unfold finishes in F. rewrite F. exists e1. auto.
  - unfold finishes in F. rewrite F. apply IH; [exact I1|]. destruct R as [R|R]; [left; exact R|right]. cbn [never_full] in R. unfold breaks, finishes in R. rewrite B, F in R. apply andb_true_iff in R. destruct R as (_ & R). exact R.
Qed.
(** Keys typed while the row is empty: the row shows the edited text and nothing else, in the current colour; the cursor is at its place in the
    text; every other row is as before.  (Missing: a full last row, C49_last_row_refuted.) *)
Theorem C49_editing_partial : forall c ks l broken rest, sound c -> blank_row c (cy c) -> typing ([], []) ks l broken rest ->
  (cy c < 23 \/ never_full ([], []) ks = true) ->
  exists c', shared_input c ks = Ok (Some (c', broken, rest)) /\ shows c c' (typed l) /\ cx c' = cursor l.
Proof.
  intros c ks l b r S B T R. destruct (loop_inv c S _ _ _ _ _ T _ (inv_start c S B) R) as (e & E & I & X).
  exists (e_con e). split; [exact E|]. split; [apply inv_shows; assumption|exact X].
Qed.
(** as long as neither Return nor A is pressed and no error occurs, it waits, whatever is typed *)
Theorem C49_waits_partial : forall c ks, sound c -> blank_row c (cy c) -> (cy c < 23 \/ never_full ([], []) ks = true) ->
  Forall (fun k => breaks k = false /\ finishes k = false) ks -> shared_input c ks = Ok None.
Proof.
  intros c ks S B R F. pose proof (inv_start c S B) as I. unfold shared_input. revert I R. generalize {| e_con := c; e_i := 0; e_max := 0 |} as e. generalize (([], []) : line) as l.
  induction F as [|k t (Fb & Ff) F IH]; intros l e I R; [reflexivity|]. cbn [edit_loop]. destruct S as (S1 & S2 & S3).
  destruct (step_inv (cy c) S3 c l e k I) as (e1 & E1 & I1 & _).
  { destruct R as [R|R]; [left; exact R|right]. cbn [never_full] in R. apply andb_true_iff in R. destruct R as (R & _). apply negb_true_iff in R. exact R. }
  rewrite E1. cbn [bind]. unfold breaks, finishes in *. rewrite Fb, Ff. apply IH with (press l k); [exact I1|]. destruct R as [R|R]; [left; exact R|right].
  cbn [never_full] in R. unfold breaks, finishes in R. rewrite Fb, Ff in R. apply andb_true_iff in R. destruct R as (_ & R). exact R.
Qed.

(** ** what is delivered *)
Definition good (w : Z) : Prop := w <> 0 /\ exists b, 0 <= b < 256 /\ w = to_wide b.
Lemma press_good l k : in_set k -> Forall good (fst l) /\ Forall good (snd l) -> Forall good (fst (press l k)) /\ Forall good (snd (press l k)).
Proof.
  intros S (A & B). destruct l as [b a]. unfold press. cbn [fst snd] in *. destruct (k_lr k); [auto|]. destruct (k_back k).
  { destruct b; cbn [fst snd]; [auto|]. inversion A; auto. }
  destruct (k_del k). { destruct a; cbn [fst snd]; [auto|]. inversion B; auto. }
  destruct (k_char k =? 13); [auto|]. destruct (negb (k_char k =? 0) && negb (full (b, a))) eqn:Q.
  { cbn [fst snd]. split; [constructor; [|exact A]|exact B]. split; [lia|exact S]. }
  destruct (k_left k). { destruct b; cbn [fst snd]; [auto|]. inversion A; subst; auto. }
  destruct (k_right k). { destruct a; cbn [fst snd]; [auto|]. inversion B; subst; auto. } auto.
Qed.
Lemma typing_good l ks l' b r : typing l ks l' b r -> Forall in_set ks -> Forall good (fst l) /\ Forall good (snd l) -> Forall good (typed l').
Proof.
  intros T. induction T as [l k t B|l k t B F|l k t l' b r B F T IH]; intros S G; inversion S; subst.
  1,2: destruct (press_good l k ltac:(assumption) G) as (X & Y); unfold typed; apply Forall_app; split; [apply Forall_rev, X|exact Y].
  apply IH; [assumption|]. apply press_good; assumption.
Qed.
Lemma until_typed ws n : Forall good ws -> until_null (ws ++ repeat 0 n) = ws.
Proof. induction 1 as [|w t (N & _) _ IH]; cbn [app until_null]; [destruct n; reflexivity|]. destruct (Z.eqb_spec w 0); [contradiction|]. rewrite IH. reflexivity. Qed.
Lemma stored_reads ws : Forall good ws -> reads (stored ws) = ws /\ exists bs, stored ws = SChar bs.
Proof.
  intros G. unfold stored. assert (F : forallb is_char ws = true).
  { apply forallb_forall. intros w I. rewrite Forall_forall in G. destruct (G w I) as (_ & b & Hb & ->). unfold is_char. rewrite to_char_to_wide by exact Hb. lia. }
  rewrite F. split; [|eexists; reflexivity]. cbn [reads]. rewrite map_map. rewrite <- (map_id ws) at 2. apply map_ext_in. intros w I. rewrite Forall_forall in G. destruct (G w I) as (_ & b & Hb & ->).
  rewrite to_char_to_wide by exact Hb. unfold u8. rewrite Z.mod_small by exact Hb. reflexivity.
Qed.
Lemma shows_row c0 c ws : shows c0 c ws -> (length ws <= 32)%nat -> row c = ws ++ repeat 0 (32 - length ws).
Proof.
  intros ((S1 & S2 & S3) & Ey & _ & _ & T & _) L. unfold row, CW. rewrite Ey in *. apply (nth_ext _ _ 0 0).
  - rewrite firstn_length, skipn_length, app_length, repeat_length. lia.
  - intros n Hn. rewrite firstn_length, skipn_length in Hn. rewrite nth_firstn_lt, nth_skipn' by lia.
    specialize (T (Z.of_nat n) ltac:(lia)). unfold cell in T. replace (Z.to_nat (32 * cy c0 + Z.of_nat n)) with (Z.to_nat (cy c0 * 32) + n)%nat in T by lia. rewrite T, Nat2Z.id.
    destruct (Nat.ltb_spec n (length ws)); [rewrite app_nth1 by lia; reflexivity|]. rewrite app_nth2 by lia. rewrite nth_repeat. apply nth_overflow. lia.
Qed.
Lemma press_length l k : (length (typed l) <= 32)%nat -> (length (typed (press l k)) <= 32)%nat.
Proof.
  destruct l as [b a]. intros H. rewrite typed_length in H. unfold press. destruct (k_lr k); [rewrite typed_length; lia|]. destruct (k_back k); [destruct b; rewrite typed_length; cbn [length] in *; lia|].
  destruct (k_del k); [destruct a; rewrite typed_length; cbn [length] in *; lia|]. destruct (k_char k =? 13); [rewrite typed_length; lia|].
  destruct (negb (k_char k =? 0) && negb (full (b, a))) eqn:Q.
  { apply andb_true_iff in Q. destruct Q as (_ & Q). apply negb_true_iff in Q. unfold full in Q. apply Nat.leb_gt in Q. rewrite typed_length in *. cbn [length]. lia. }
  destruct (k_left k); [destruct b; rewrite typed_length; cbn [length] in *; lia|]. destruct (k_right k); [destruct a|]; rewrite typed_length; cbn [length] in *; lia.
Qed.
Lemma typing_length l ks l' b r : typing l ks l' b r -> (length (typed l) <= 32)%nat -> (length (typed l') <= 32)%nat.
Proof. induction 1; intros; auto using press_length. Qed.
Lemma delivered c c' ks l b r : typing ([], []) ks l b r -> Forall in_set ks -> shows c c' (typed l) -> until_null (row c') = typed l /\ Forall good (typed l) /\ (length (typed l) <= 32)%nat.
Proof.
  intros T S Sh. assert (G := typing_good _ _ _ _ _ T S ltac:(split; constructor)). assert (L := typing_length _ _ _ _ _ T ltac:(cbn; lia)).
  split; [|split; assumption]. rewrite (shows_row _ _ _ Sh L). apply until_typed, G.
Qed.
(** LINPUT delivers the text typed, once the prompt is shown and the row after it is empty *)
Theorem C49_linput_partial : forall c0 prompt c ks l rest, con_prompt c0 prompt = Ok c -> sound c -> blank_row c (cy c) ->
  typing ([], []) ks l false rest -> Forall in_set ks -> (cy c < 23 \/ never_full ([], []) ks = true) ->
  exists c' s, cmd_linput c0 prompt ks = Ok (Answer c' (Some s)) /\ reads s = typed l /\ cx c' = 0.
Proof.
  intros c0 p c ks l r P S B T G R. unfold cmd_linput. rewrite P. cbn [bind]. destruct (C49_editing_partial c ks l false r S B T R) as (c1 & -> & Sh & X). cbn [bind].
  destruct (delivered _ _ _ _ _ _ T G Sh) as (-> & Q & _). eexists _, _. split; [reflexivity|]. split; [apply stored_reads, Q|].
  unfold con_newline, con_scroll. set (d := set_cursor c1 0 (u8 (cy c1 + 1))). assert (D : cx d = 0) by reflexivity. clearbody d. revert d D. intros d. generalize (Z.to_nat (cy d)) as n. intros n. revert d. induction n as [|n IH]; intros d D; [exact D|].
  cbn [scroll_loop]. destruct (cy d >=? CH); [|exact D]. apply IH. exact D.
Qed.

(** ** the prompt *)
Lemma puts_fit : forall ws c, length (text c) = 768%nat -> length (color c) = 768%nat -> 0 <= cy c <= 23 -> 0 <= cx c -> cx c + Z.of_nat (length ws) <= 31 ->
  exists c', con_puts_loop c ws = Ok c' /\ length (text c') = 768%nat /\ length (color c') = 768%nat /\ cy c' = cy c /\ cx c' = cx c + Z.of_nat (length ws) /\ col c' = col c /\ tabstep c' = tabstep c /\
   (forall x y, 0 <= x < 32 -> 0 <= y < 24 ->
      cell c' x y = (if (y =? cy c) && (cx c <=? x) && (x <? cx c + Z.of_nat (length ws)) then nth (Z.to_nat (x - cx c)) ws 0 else cell c x y) /\
      hue c' x y = (if (y =? cy c) && (cx c <=? x) && (x <? cx c + Z.of_nat (length ws)) then col c else hue c x y)).
Proof.
  induction ws as [|w t IH]; intros c L1 L2 Y X F.
  - exists c. split; [reflexivity|]. repeat (split; [first [assumption|reflexivity|cbn [length]; lia]|]). intros x y Hx Hy. cbn [length]. replace ((y =? cy c) && (cx c <=? x) && (x <? cx c + Z.of_nat 0)) with false by lia. auto.
  - cbn [con_puts_loop length] in *. unfold con_put, CW, CH. replace ((cx c <? 32) && (cy c <? 24)) with true by lia. cbn [bind].
    set (c1 := {| cx := u8 (cx c + 1); cy := cy c; tabstep := tabstep c; sys_tabstep := sys_tabstep c; col := col c; text := upd (text c) (Z.to_nat (cy c * 32 + cx c)) w; color := upd (color c) (Z.to_nat (cy c * 32 + cx c)) (col c) |}).
    assert (X1 : cx c1 = cx c + 1) by (unfold c1, u8; cbn [cx]; apply Z.mod_small; lia). rewrite X1. replace (cx c + 1 >=? 32) with false by lia.
    assert (EQ : match t with [] => c1 | _ :: _ => if cy c1 =? 24 then con_scroll c1 else c1 end = c1). { replace (cy c1 =? 24) with false by (unfold c1; cbn [cy]; lia). destruct t; reflexivity. }
    rewrite EQ. destruct (IH c1) as (c2 & E & A1 & A2 & A3 & A4 & A5 & A6 & V).
    1,2: unfold c1; cbn [text color]; rewrite upd_length; assumption. 1: exact Y. 1,2: lia.
    exists c2. split; [exact E|]. split; [exact A1|]. split; [exact A2|]. split; [exact A3|]. split; [lia|]. split; [exact A5|]. split; [exact A6|].
    intros x y Hx Hy. destruct (V x y Hx Hy) as (V1 & V2). rewrite V1, V2. change (cy c1) with (cy c). change (col c1) with (col c). rewrite X1.
    unfold cell, hue, c1. cbn [text color]. destruct (Z.eq_dec y (cy c)) as [->|N].
    + rewrite Z.eqb_refl. cbn [andb]. destruct (Z_lt_dec x (cx c)) as [L|L].
      * replace (cx c + 1 <=? x) with false by lia. replace (cx c <=? x) with false by lia. cbn [andb]. rewrite !nth_upd_other by lia. auto.
      * destruct (Z.eq_dec x (cx c)) as [->|N].
        -- replace (cx c + 1 <=? cx c) with false by lia. replace ((cx c <=? cx c) && (cx c <? cx c + Z.of_nat (S (length t)))) with true by lia. cbn [andb].
           replace (Z.to_nat (cx c - cx c)) with 0%nat by lia. cbn [nth]. replace (Z.to_nat (32 * cy c + cx c)) with (Z.to_nat (cy c * 32 + cx c)) by lia. rewrite !nth_upd_same by lia. auto.
        -- replace ((cx c + 1 <=? x) && (x <? cx c + 1 + Z.of_nat (length t))) with ((cx c <=? x) && (x <? cx c + Z.of_nat (S (length t)))) by lia.
           destruct ((cx c <=? x) && (x <? cx c + Z.of_nat (S (length t)))); [|rewrite !nth_upd_other by lia; auto]. replace (Z.to_nat (x - cx c)) with (S (Z.to_nat (x - (cx c + 1)))) by lia. auto.
    + replace (y =? cy c) with false by lia. cbn [andb]. rewrite !nth_upd_other by lia. auto.
Qed.
(** the screen moved up by [n] rows, empty rows below *)
Lemma newline_ok c : length (text c) = 768%nat -> length (color c) = 768%nat -> 0 <= cy c <= 23 ->
  let c' := con_newline c true in let n := if cy c =? 23 then 1 else 0 in
  length (text c') = 768%nat /\ length (color c') = 768%nat /\ cx c' = 0 /\ cy c' = cy c + 1 - n /\ col c' = col c /\ tabstep c' = tabstep c /\
  (forall x y, 0 <= x < 32 -> 0 <= y < 24 -> cell c' x y = if y + n <? 24 then cell c x (y + n) else 0).
Proof.
  intros L1 L2 Y. cbv zeta. unfold con_newline. assert (E : u8 (cy c + 1) = cy c + 1) by (unfold u8; apply Z.mod_small; lia). rewrite E. unfold con_scroll. set (d := set_cursor c 0 (cy c + 1)). change (cy d) with (cy c + 1).
  destruct (Z.eqb_spec (cy c) 23) as [Q|Q].
  - replace (Z.to_nat (cy c + 1)) with (S (S (Z.to_nat (cy c - 1)))) by lia. cbn [scroll_loop]. change (cy d) with (cy c + 1). unfold CH. replace (cy c + 1 >=? 24) with true by lia.
    change (cy (scroll_once d)) with (cy c + 1 - 1). replace (cy c + 1 - 1 >=? 24) with false by lia. unfold scroll_once, d. cbn [cx cy col tabstep text color set_cursor].
    split; [rewrite app_length, skipn_length, repeat_length; lia|]. split; [rewrite app_length, skipn_length, repeat_length; lia|]. split; [reflexivity|]. split; [lia|]. split; [reflexivity|]. split; [reflexivity|].
    intros x y Hx Hy. unfold cell. cbn [text]. destruct (Z.ltb_spec (y + 1) 24).
    + rewrite app_nth1 by (rewrite skipn_length; lia). rewrite nth_skipn'. f_equal. lia.
    + rewrite app_nth2 by (rewrite skipn_length; lia). apply nth_repeat.
  - assert (EQ : scroll_loop (Z.to_nat (cy c + 1)) d = d). { destruct (Z.to_nat (cy c + 1)); [reflexivity|]. cbn [scroll_loop]. change (cy d) with (cy c + 1). unfold CH. replace (cy c + 1 >=? 24) with false by lia. reflexivity. }
    rewrite EQ. unfold d. cbn [cx cy col tabstep text color set_cursor]. repeat (split; [first [assumption|reflexivity|lia]|]). intros x y Hx Hy. replace (y + 0 <? 24) with true by lia. rewrite Z.add_0_r. reflexivity.
Qed.
Lemma prompt_ok : forall c p, sound c -> 0 <= cx c -> cx c + Z.of_nat (length p) <= 30 ->
  exists c', con_prompt c (Some p) = Ok c' /\ sound c' /\ cx c' = 0 /\ cy c' = Z.min 23 (cy c + 1) /\ col c' = col c /\
   (forall x y, 0 <= x < 32 -> cy c' <= y < 24 -> cell c' x y = if cy c =? 23 then 0 else cell c x y) /\
   forall x, 0 <= x < 32 -> cell c' x (cy c' - 1) =
     let i := x - cx c in if (0 <=? i) && (i <? Z.of_nat (length p)) then nth (Z.to_nat i) p 0 else if i =? Z.of_nat (length p) then to_wide 63 else cell c x (cy c).
Proof.
  intros c p (S1 & S2 & S3) X F. unfold con_prompt, con_puts, CH. replace (cy c >=? 24) with false by lia.
  destruct (puts_fit p c S1 S2 S3 X ltac:(lia)) as (c1 & E1 & A1 & A2 & A3 & A4 & A5 & A6 & V1). rewrite E1. cbn [bind].
  assert (Q : exists c2, con_put c1 (to_wide 63) = Ok c2 /\ con_puts_loop c1 [to_wide 63] = Ok c2). { cbn [con_puts_loop]. destruct (con_put c1 (to_wide 63)) as [c2| |] eqn:E; [exists c2; auto| |]; exfalso; revert E; unfold con_put, CW, CH; replace ((cx c1 <? 32) && (cy c1 <? 24)) with true by lia; discriminate. }
  destruct Q as (c2 & -> & Q). destruct (puts_fit [to_wide 63] c1 A1 A2 ltac:(lia) ltac:(lia) ltac:(cbn [length]; lia)) as (c2' & E2 & D1 & D2 & D3 & D4 & D5 & D6 & V2). rewrite Q in E2. injection E2 as <-. cbn [bind length] in *.
  replace (cx c2 =? 0) with false by lia. eexists. split; [reflexivity|].
  pose proof (newline_ok c2 D1 D2 ltac:(lia)) as N. cbv zeta in N. destruct N as (N1 & N2 & N3 & N4 & N5 & _ & V3).
  split; [split; [exact N1|split; [exact N2|]]|]. { rewrite N4. destruct (cy c2 =? 23) eqn:?; lia. }
  split; [exact N3|]. split; [rewrite N4; destruct (cy c2 =? 23) eqn:?; lia|]. split; [congruence|]. split.
  - intros x y Hx Hy. rewrite N4 in Hy. destruct (cy c2 =? 23) eqn:K.
    + rewrite V3 by lia. replace (y + 1 <? 24) with false by lia. replace (cy c =? 23) with true by lia. reflexivity.
    + rewrite V3 by lia. rewrite Z.add_0_r. replace (y <? 24) with true by lia. destruct (V2 x y ltac:(lia) ltac:(lia)) as (-> & _). replace (y =? cy c1) with false by lia. cbn [andb].
      destruct (V1 x y ltac:(lia) ltac:(lia)) as (-> & _). replace (y =? cy c) with false by lia. cbn [andb]. replace (cy c =? 23) with false by lia. reflexivity.
  - intros x Hx. cbv zeta. rewrite N4. assert (Z1 : 0 <= cy c2 + 1 - (if cy c2 =? 23 then 1 else 0) - 1 < 24). { destruct (cy c2 =? 23) eqn:?; [|lia]. lia. }
    rewrite V3 by (lia || exact Z1). replace (cy c2 + 1 - (if cy c2 =? 23 then 1 else 0) - 1 + (if cy c2 =? 23 then 1 else 0)) with (cy c) by lia. replace (cy c <? 24) with true by lia.
    destruct (V2 x (cy c) Hx ltac:(lia)) as (-> & _). destruct (V1 x (cy c) Hx ltac:(lia)) as (-> & _). rewrite A3, A4, Z.eqb_refl. cbn [andb].
    change (Z.of_nat 1) with 1. destruct (Z.eqb_spec (x - cx c) (Z.of_nat (length p))) as [K|K].
    + replace ((cx c + Z.of_nat (length p) <=? x) && (x <? cx c + Z.of_nat (length p) + 1)) with true by lia. replace ((0 <=? x - cx c) && (x - cx c <? Z.of_nat (length p))) with false by lia. replace (Z.to_nat (x - (cx c + Z.of_nat (length p)))) with 0%nat by lia. reflexivity.
    + replace ((cx c + Z.of_nat (length p) <=? x) && (x <? cx c + Z.of_nat (length p) + 1)) with false by lia. replace ((cx c <=? x) && (x <? cx c + Z.of_nat (length p))) with ((0 <=? x - cx c) && (x - cx c <? Z.of_nat (length p))) by lia. reflexivity.
Qed.
(** A prompt that fits in the rest of the row appears there, followed by a question mark; the line typed goes to the next row, which is empty if it
    was empty before or if the screen had to move up. *)
Theorem C49_prompt_partial : forall c p, sound c -> 0 <= cx c -> cx c + Z.of_nat (length p) <= 30 -> (cy c < 23 -> blank_row c (cy c + 1)) ->
  exists c', con_prompt c (Some p) = Ok c' /\ sound c' /\ cx c' = 0 /\ cy c' = Z.min 23 (cy c + 1) /\ col c' = col c /\ blank_row c' (cy c') /\
   forall x, 0 <= x < 32 -> cell c' x (cy c' - 1) =
     let i := x - cx c in if (0 <=? i) && (i <? Z.of_nat (length p)) then nth (Z.to_nat i) p 0 else if i =? Z.of_nat (length p) then to_wide 63 else cell c x (cy c).
Proof.
  intros c p S X F B. destruct (prompt_ok c p S X F) as (c' & E & S' & X' & Y' & C' & L & T). exists c'. split; [exact E|]. split; [exact S'|]. split; [exact X'|]. split; [exact Y'|]. split; [exact C'|]. split; [|exact T].
  intros x Hx. destruct S' as (_ & _ & Sy). rewrite L by lia. destruct (Z.eqb_spec (cy c) 23); [reflexivity|]. rewrite Y'. destruct S as (_ & _ & Sc). replace (Z.min 23 (cy c + 1)) with (cy c + 1) by lia. apply B; lia.
Qed.

(** ** what goes wrong *)
Definition idle : keys := {| k_lr := false; k_back := false; k_del := false; k_char := 0; k_left := false; k_right := false; k_a := false; k_err := false |}.
Definition key (w : Z) : keys := {| k_lr := false; k_back := false; k_del := false; k_char := w; k_left := false; k_right := false; k_a := false; k_err := false |}.
Definition backspace : keys := {| k_lr := false; k_back := true; k_del := false; k_char := 0; k_left := false; k_right := false; k_a := false; k_err := false |}.
Definition go_left : keys := {| k_lr := false; k_back := false; k_del := false; k_char := 0; k_left := true; k_right := false; k_a := false; k_err := false |}.
Definition break : keys := {| k_lr := false; k_back := false; k_del := false; k_char := 0; k_left := false; k_right := false; k_a := false; k_err := true |}.
Definition return_key : keys := key 13.
Definition at_row (c : console) (y : Z) : console := cmd_locate c 0 y.
(** 32 characters typed on the last row: Backspace reads beyond the screen's memory *)
Theorem C49_last_row_refuted : exists c ks, sound c /\ blank_row c (cy c) /\ Forall in_set ks /\ shared_input c ks = UB.
Proof.
  exists (at_row init_console 23), (repeat (key (to_wide 65)) 32 ++ [backspace]). split; [repeat split; vm_compute; congruence|]. split.
  - intros x Hx. unfold cell, at_row. change (text (cmd_locate init_console 0 23)) with (repeat 0 768). apply nth_repeat.
  - split; [|vm_compute; reflexivity]. apply Forall_app. split; [|constructor; [|constructor]; exists 0; split; [lia|reflexivity]]. apply Forall_forall. intros k I. apply repeat_spec in I. subst k. exists 65. split; [lia|reflexivity].
Qed.
(** with 32 characters the cursor leaves the row; if LINPUT is then broken off, the next character printed fails an assertion *)
Theorem C49_cursor_refuted : exists ks c, Forall in_set ks /\ cmd_linput init_console None ks = Ok (Broken c None) /\ cx c = 32 /\ con_puts c [65] = UB.
Proof.
  exists (repeat (key (to_wide 65)) 32 ++ [break]). eexists. split; [|split; [vm_compute; reflexivity|vm_compute; auto]].
  apply Forall_app. split; [|constructor; [|constructor]; exists 0; split; [lia|reflexivity]]. apply Forall_forall. intros k I. apply repeat_spec in I. subst k. exists 65. split; [lia|reflexivity].
Qed.
(** text already in the row is delivered with what is typed: LOCATE 0,5: PRINT "HELLO": LOCATE 0,4: LINPUT A$, X and Return give XELLO *)
Theorem C49_stale_refuted : exists c c', cmd_print (at_row init_console 5) [Text (map to_wide [72; 69; 76; 76; 79])] = Ok c /\
  cmd_linput (at_row c 4) None [key (to_wide 88); return_key] = Ok (Answer c' (Some (SChar [88; 69; 76; 76; 79]))).
Proof. eexists _, _. split; vm_compute; reflexivity. Qed.
(** the hiragana letter U+3041 is delivered as character 224 *)
Theorem C49_kana_refuted : exists c s, cmd_linput init_console None [key 12353; return_key] = Ok (Answer c (Some s)) /\ reads s = [224].
Proof. eexists _, _. split; [vm_compute; reflexivity|reflexivity]. Qed.
(** AC, left, B between them, Return: ABC *)
Example C49_example : let ks := [key (to_wide 65); key (to_wide 67); go_left; key (to_wide 66); return_key] in
  typing ([], []) ks ([to_wide 66; to_wide 65], [to_wide 67]) false [] /\ never_full ([], []) ks = true /\
  exists c c', con_prompt (at_row init_console 23) (Some [to_wide 78]) = Ok c /\ sound c /\ blank_row c (cy c) /\ cmd_linput (at_row init_console 23) (Some [to_wide 78]) ks = Ok (Answer c' (Some (SChar [65; 66; 67]))).
Proof.
  cbv zeta. split; [|split; [vm_compute; reflexivity|]].
  - repeat (apply t_more; [reflexivity|reflexivity|]). apply (t_finish ([to_wide 66; to_wide 65], [to_wide 67]) return_key []); reflexivity.
  - destruct (C49_prompt_partial (at_row init_console 23) [to_wide 78]) as (c & E & S & _ & _ & _ & B & _); [repeat split; vm_compute; congruence|vm_compute; congruence|vm_compute; congruence|vm_compute; discriminate|].
    exists c. eexists. split; [exact E|]. split; [exact S|]. split; [exact B|]. vm_compute. reflexivity.
Qed.

Print Assumptions C49_editing_partial.
Print Assumptions C49_waits_partial.
Print Assumptions C49_linput_partial.
Print Assumptions C49_prompt_partial.
Print Assumptions C49_last_row_refuted.
Print Assumptions C49_cursor_refuted.
Print Assumptions C49_stale_refuted.
Print Assumptions C49_kana_refuted.
