From Verif Require Import Base BaseLemmas Strs StrSpec StrProofs Console Input InputSpec InputProofs Panel PanelSpec.
Ltac Zify.zify_post_hook ::= Z.div_mod_to_equations.

(** ** the layout *)
Definition cell_check (j : nat) : bool :=
  match nth_error key_map j with
  | Some c => match key_under (8 * (Z.of_nat j mod 32)) (8 * (Z.of_nat j / 32)) with
              | None => c =? 255
              | Some k => negb (c =? 255) && match code c with Ok k' => k' =? k | _ => false end && (negb (c =? 89) || (k =? 80)) && (0 <? k) && (k <? 107) && negb (k =? 81) && negb (k =? 94)
              end
  | None => false
  end.
Lemma cells_checked : forallb cell_check (seq 0 768) = true.
Proof. vm_compute. reflexivity. Qed.
Lemma key_cell x y : 0 <= x < 256 -> 0 <= y < 192 -> key_under x y = key_under (8 * (x / 8)) (8 * (y / 8)).
Proof.
  intros X Y. assert (A : exists a, x / 8 = a /\ 0 <= a < 32 /\ 8 * a <= x < 8 * a + 8) by (eexists; split; [reflexivity|lia]).
  assert (B : exists b, y / 8 = b /\ 0 <= b < 24 /\ 8 * b <= y < 8 * b + 8) by (eexists; split; [reflexivity|lia]).
  destruct A as (a & -> & Ha & Xa), B as (b & -> & Hb & Yb).
  assert (L : forall v c, (v / 8) * 8 = v -> (x <? v) = (8 * a <? v) \/ c = 0) by (intros; left; lia).
  assert (D48 : x / 48 = 8 * a / 48) by lia. assert (D16 : x / 16 = 8 * a / 16) by lia. assert (D24 : (x - 24) / 16 = (8 * a - 24) / 16) by lia. assert (D32 : (x - 32) / 16 = (8 * a - 32) / 16) by lia.
  assert (D160 : (x - 160) / 24 = (8 * a - 160) / 24) by lia.
  unfold key_under. rewrite D48, D16, D24, D32, D160.
  assert (E : forall v, v mod 8 = 0 -> (x <? v) = (8 * a <? v)) by (intros; lia). assert (F : forall v, v mod 8 = 0 -> (y <? v) = (8 * b <? v)) by (intros; lia).
  rewrite !E, !F by reflexivity. reflexivity.
Qed.
Lemma cell_key x y : 0 <= x < 256 -> 0 <= y < 192 -> exists c, cell x y = Ok c /\
  match key_under x y with None => c = 255 | Some k => c <> 255 /\ code c = Ok k /\ (c = 89 -> k = 80) /\ (0 < k < 107 /\ k <> 81 /\ k <> 94) end.
Proof.
  intros X Y. unfold cell. replace (_ && _ && _ && _) with true by lia. pose proof (proj1 (forallb_forall _ _) cells_checked (Z.to_nat (x / 8 + 32 * (y / 8))) ltac:(apply in_seq; lia)) as C.
  unfold cell_check in C. destruct (nth_error key_map _) as [c|]; [|discriminate]. exists c. split; [reflexivity|].
  replace (Z.of_nat (Z.to_nat (x / 8 + 32 * (y / 8)))) with (x / 8 + 32 * (y / 8)) in C by lia. replace ((x / 8 + 32 * (y / 8)) mod 32) with (x / 8) in C by lia. replace ((x / 8 + 32 * (y / 8)) / 32) with (y / 8) in C by lia.
  rewrite <- key_cell in C by assumption. destruct (key_under x y) as [k|]; [|lia]. destruct (code c) as [k'| |]; try (rewrite Bool.andb_false_r in C; discriminate).
  assert (k' = k) by lia. subst k'. repeat split; try lia.
Qed.
Lemma under_80 x y : key_under x y = Some 80 -> 0 <= x < 256 -> 144 <= x < 160.
Proof.
  unfold key_under. intros H X. repeat match type of H with context [if ?b then _ else _] => destruct b eqn:? end; try discriminate; try lia; assert (Q : forall a b : Z, Some a = Some b -> a = b) by congruence; apply Q in H; clear Q; lia.
Qed.

(** ** the finger *)
Lemma finger_cons t l : finger_of (Some t :: l) = match finger_of l, key_of (Some t) with (Up | Searching), None => Searching | (Up | Searching), Some k => On k 1 | On k n, Some k' => if k' =? k then On k (n + 1) else Off | _, _ => Off end.
Proof. reflexivity. Qed.
Lemma finger_blank (b : list touch) : forall r : list touch, Forall (fun t => t <> None /\ key_of t = None) b -> (r = [] \/ exists r', r = None :: r') -> finger_of (b ++ r) = match b with [] => Up | _ => Searching end.
Proof.
  induction b as [|t b IH]; intros r F R; [cbn [app]; destruct R as [->|[r' ->]]; reflexivity|]. inversion F as [|? ? [N K] F']; subst. specialize (IH r F' R). destruct t as [t|]; [|contradiction]. cbn [app]. rewrite finger_cons, IH, K. destruct b; reflexivity.
Qed.
Lemma held_finger l k n : held_on l k n -> finger_of l = On k n.
Proof.
  intros (now & b & r & -> & L & P & F & B & R). pose proof (finger_blank b r B R) as G. revert n L P. induction F as [|t now K F IH]; intros n L P; [cbn [length] in L; lia|].
  destruct t as [t|]; [|discriminate]. cbn [app]. rewrite finger_cons. destruct now as [|u now].
  - cbn [app]. cbn [length] in L. unfold touch in *. rewrite G. destruct b; rewrite K; f_equal; lia.
  - rewrite (IH (n - 1)) by (cbn [length] in *; lia). rewrite K, Z.eqb_refl. f_equal. lia.
Qed.
Lemma finger_inv l : match finger_of l with
  | Up => l = [] \/ exists r, l = None :: r
  | Searching => exists b r, l = b ++ r /\ Forall (fun t => t <> None /\ key_of t = None) b /\ (r = [] \/ exists r', r = None :: r')
  | On k n => held_on l k n
  | Off => True
  end.
Proof.
  induction l as [|[t|] l IH]; [left; reflexivity| |right; eauto]. rewrite finger_cons. destruct (finger_of l) as [| |k n|] eqn:E, (key_of (Some t)) as [k'|] eqn:K; try exact I.
  - exists [Some t], [], l. repeat split; auto; try lia; repeat constructor; exact K.
  - exists [Some t], l. repeat split; auto; repeat constructor; first [discriminate|exact K].
  - destruct IH as (b & r & -> & B & R). exists [Some t], b, r. repeat split; auto; try lia; repeat constructor; exact K.
  - destruct IH as (b & r & -> & B & R). exists (Some t :: b), r. split; [reflexivity|]; split; [constructor; [split; [discriminate|exact K]|exact B]|exact R].
  - destruct (k' =? k) eqn:Q; [|exact I]. apply Z.eqb_eq in Q. subst k'. destruct IH as (now & b & r & -> & L & P & F & B & R). exists (Some t :: now), b, r. cbn [length app]. split; [reflexivity|]; split; [lia|]; split; [lia|]; split; [constructor; [exact K|exact F]|auto].
Qed.
Lemma finger_held l k n : finger_of l = On k n <-> held_on l k n.
Proof. split; [|apply held_finger]. intros E. pose proof (finger_inv l) as I. rewrite E in I. exact I. Qed.
Lemma finger_len l k n : finger_of l = On k n -> 0 < n <= Z.of_nat (length l).
Proof. intros E. apply finger_held in E. destruct E as (now & b & r & -> & L & P & _). rewrite !app_length. lia. Qed.
Lemma fired_fires l k : fired_now l = Some k <-> fires_key l k.
Proof.
  unfold fired_now, fires_key. split.
  - destruct (finger_of l) as [| |k' n|] eqn:E; try discriminate. destruct (_ || _) eqn:Q; [|discriminate]. intros H. injection H as ->. exists n. split; [apply finger_held, E|]. unfold fires.
    destruct (n =? 1) eqn:N; [left; lia|]. right. split; [lia|]. exists ((n - 31) / 5). lia.
  - intros (n & H & G). apply finger_held in H. rewrite H. replace ((n =? 1) || _) with true; [reflexivity|]. symmetry. destruct G as [->|(_ & m & M & ->)]; [reflexivity|]. apply Bool.orb_true_iff. right. apply andb_true_intro. split; [lia|]. apply Z.eqb_eq. replace (30 + 1 + m * (4 + 1) - 31) with (m * 5) by lia. apply Z.mod_mul. lia.
Qed.

Definition tracks (p : panel) (l : list touch) : Prop :=
  match finger_of l with
  | Up | Searching => key_pressed p = 0 /\ pressed_time p = 0
  | On k n => key_pressed p = k /\ pressed_time p = n /\ (0 < k < 107 /\ k <> 81 /\ k <> 94) /\ 0 < n
  | Off => key_pressed p = 0 /\ 0 < pressed_time p
  end.
Lemma track_ok p l t : tracks p l -> on_screen t -> iconpuse p = 0 -> ~ slips (t :: l) -> Z.of_nat (length l) < 2 ^ 31 - 1 ->
  exists a b c, track p t = Ok (set_press p a b c) /\ tracks (set_press p a b c) (t :: l).
Proof.
  intros T S D N L. destruct t as [[x y]|]; [|exists 0, 255, 0; split; [reflexivity|]; split; reflexivity].
  destruct S as [X Y]. destruct (cell_key x y X Y) as (c & C & K). cbn [track]. unfold tracks in T |- *. change (finger_of (Some (x, y) :: l)) with
    (match finger_of l, key_under x y with (Up | Searching), None => Searching | (Up | Searching), Some k => On k 1 | On k n, Some k' => if k' =? k then On k (n + 1) else Off | _, _ => Off end).
  assert (New : key_pressed p = 0 /\ pressed_time p = 0 -> exists a b d,
    (if negb (key_pressed p =? 0) then let* c := cell x y in let* k := code c in
        if negb (k =? key_pressed p) then Ok (set_press p 0 255 (pressed_time p))
        else if s32b (pressed_time p + 1) then Ok (set_press p (key_pressed p) (id_pressed p) (pressed_time p + 1)) else UB
      else if pressed_time p >? 0 then Ok p
      else
        let* c := cell x y in
        let c := if (c =? 89) && negb (iconpuse p =? 0) && (y >=? 180) then 90 else c in
        if negb (c =? 255) then let* k := code c in Ok (set_press p k c 1)
        else Ok (set_press p (key_pressed p) (id_pressed p) 0)) = Ok (set_press p a b d) /\
    match key_under x y with None => a = 0 /\ d = 0 | Some k => a = k /\ d = 1 /\ (0 < k < 107 /\ k <> 81 /\ k <> 94) /\ 0 < 1 end).
  { intros [E1 E2]. rewrite E1, E2. cbn [Z.eqb negb Z.gtb Z.compare]. rewrite C. cbn [bind].
    assert (Q : (c =? 89) && negb (iconpuse p =? 0) && (y >=? 180) = false) by (rewrite D, Bool.andb_false_r; reflexivity).
    rewrite Q. destruct (key_under x y) as [k|].
    - destruct K as (K1 & K2 & _ & K4). replace (negb (c =? 255)) with true by lia. rewrite K2. cbn [bind]. exists k, c, 1. split; [reflexivity|]. lia.
    - subst c. cbn [Z.eqb Pos.eqb negb]. exists 0, (id_pressed p), 0. split; [reflexivity|split; reflexivity]. }
  destruct (finger_of l) as [| |k n|] eqn:E.
  - destruct (New T) as (a & b & d & G & H). exists a, b, d. split; [exact G|]. destruct (key_under x y); exact H.
  - destruct (New T) as (a & b & d & G & H). exists a, b, d. split; [exact G|]. destruct (key_under x y); exact H.
  - destruct T as (T1 & T2 & T3 & T4). rewrite T1, T2. replace (negb (k =? 0)) with true by lia. rewrite C. cbn [bind]. pose proof (finger_len l k n E) as Ln.
    destruct (key_under x y) as [k'|] eqn:Ku.
    + destruct K as (K1 & K2 & _ & K4). rewrite K2. cbn [bind]. destruct (k' =? k) eqn:Q; cbn [negb].
      * replace (s32b (n + 1)) with true by (unfold s32b, INT_MIN, INT_MAX; change (2 ^ 31) with 2147483648 in L; lia). exists k, (id_pressed p), (n + 1). split; [reflexivity|]. cbn [key_pressed pressed_time set_press]. lia.
      * exists 0, 255, n. split; [reflexivity|]. cbn [key_pressed pressed_time set_press]. lia.
    + exfalso. apply N. exists (Some (x, y)), l, k, n. split; [reflexivity|]. split; [discriminate|]. split; [exact Ku|]. apply finger_held, E.
  - destruct T as (T1 & T2). rewrite T1. cbn [Z.eqb negb]. replace (pressed_time p >? 0) with true by lia. exists (key_pressed p), (id_pressed p), (pressed_time p). split; [destruct p; reflexivity|]. cbn [key_pressed pressed_time set_press]. destruct (key_under x y); lia.
Qed.
Lemma pressed_fired p l : tracks p l -> get_pressed_key p = match fired_now l with Some k => k | None => 0 end.
Proof.
  unfold tracks, get_pressed_key, fired_now. destruct (finger_of l) as [| |k n|]; intros T; destruct T as [T1 T2]; rewrite T1; try reflexivity. destruct T2 as (T2 & T3 & T4). rewrite T2.
  replace (k =? 0) with false by lia. cbn [orb]. replace (check_repeat n 30 4) with ((n =? 1) || (30 <? n) && ((n - 31) mod 5 =? 0)); [destruct (_ || _); reflexivity|].
  unfold check_repeat. change (4 >? 0) with true. cbn [andb]. destruct (n >? 30) eqn:Q.
  - replace (n =? 1) with false by lia. replace (30 <? n) with true by lia. cbn [orb andb]. rewrite Z.rem_mod_nonneg by lia. replace (n - 1 - 30) with (n - 31) by lia. reflexivity.
  - replace (30 <? n) with false by lia. cbn [andb]. apply Bool.orb_false_r.
Qed.
Lemma fired_range p l k : tracks p l -> fired_now l = Some k -> (0 < k < 107 /\ k <> 81 /\ k <> 94).
Proof. unfold tracks, fired_now. destruct (finger_of l); try discriminate. intros (_ & _ & R & _). destruct (_ || _); [|discriminate]. intros E. injection E as <-. exact R. Qed.

(** ** typing *)
Definition look (m k : Z) : option (list Z) :=
  match nth_error keyboard_chr (Z.to_nat m) with
  | Some l =>
      let j := if m =? 5 then 2 * k else k in
      match nth_error l (Z.to_nat j) with
      | Some c =>
          if c =? 0 then Some []
          else if m =? 5 then match nth_error l (Z.to_nat (j + 1)) with Some d => if d =? 0 then Some [c] else Some [c; d] | None => None end
          else Some [c]
      | None => None
      end
  | None => None
  end.
Definition char_key (k : Z) : bool := (1 <? k) && (k <=? 60) && negb (k =? 47) || (k =? 65).
Fixpoint same_list (a b : list Z) : bool := match a, b with [], [] => true | x :: a, y :: b => (x =? y) && same_list a b | _, _ => false end.
Lemma same_list_ok a : forall b, same_list a b = true -> a = b.
Proof. induction a as [|x a IH]; intros [|y b] H; try discriminate; [reflexivity|]. cbn [same_list] in H. apply andb_prop in H as [H1 H2]. f_equal; [lia|apply IH, H2]. Qed.
Definition legend_check (m k : nat) : bool :=
  let k := Z.of_nat k in negb (char_key k) || match look (Z.of_nat m) k with Some l => same_list l (legend (Z.of_nat m) k) | None => false end.
Lemma legends_checked : forallb (fun m => forallb (legend_check m) (seq 0 107)) (seq 0 6) = true.
Proof. vm_compute. reflexivity. Qed.
Lemma look_legend m k : 0 <= m < 6 -> 0 <= k < 107 -> char_key k = true -> look m k = Some (legend m k).
Proof.
  intros M K C. pose proof (proj1 (forallb_forall _ _) legends_checked (Z.to_nat m) ltac:(apply in_seq; lia)) as Q. pose proof (proj1 (forallb_forall _ _) Q (Z.to_nat k) ltac:(apply in_seq; lia)) as R.
  unfold legend_check in R. rewrite !Z2Nat.id in R by lia. cbv zeta in R. rewrite C in R. cbn [negb orb] in R. destruct (look m k); [|discriminate]. f_equal. apply same_list_ok, R.
Qed.
Lemma no_legend m k : char_key k = false -> 0 < k -> legend m k = [].
Proof.
  unfold char_key, legend. intros C K. replace (k =? 32) with false by lia. replace (k =? 60) with false by lia. replace (k =? 65) with false by lia. replace ((2 <=? k) && (k <=? 14)) with false by lia.
  replace ((16 <=? k) && (k <=? 31)) with false by lia. replace ((33 <=? k) && (k <=? 46)) with false by lia. replace ((48 <=? k) && (k <=? 59)) with false by lia. reflexivity.
Qed.

Lemma qrep_short i q : qrep i q -> (length q <= 256)%nat.
Proof. unfold qrep. intros H. lia. Qed.
Lemma set_inkeys_ok l : forall i q, qrep i q -> exists i', set_inkeys i l = Ok i' /\ qrep i' (firstn 256 (q ++ l)).
Proof.
  induction l as [|k l IH]; intros i q R.
  { exists i. split; [reflexivity|]. rewrite app_nil_r, firstn_all2; [exact R|]. apply qrep_short in R. exact R. }
  destruct (qrep_set i q k R) as (i1 & E & R1). cbn [set_inkeys]. rewrite E. cbn [bind]. destruct (IH _ _ R1) as (i2 & E2 & R2). exists i2. split; [exact E2|].
  pose proof (qrep_short _ _ R) as S. destruct (_ <? 256) eqn:Q in R2.
  - rewrite <- app_assoc in R2. exact R2.
  - assert (length q = 256%nat) by lia. rewrite firstn_app in R2 |- *. rewrite (firstn_all2 q) in R2 |- * by lia. replace (256 - length q)%nat with 0%nat in R2 |- * by lia. exact R2.
Qed.
Lemma set_inkeys_app a : forall i b, set_inkeys i (a ++ b) = let* i := set_inkeys i a in set_inkeys i b.
Proof. induction a as [|k a IH]; intros i b; [reflexivity|]. cbn [app set_inkeys]. destruct (set_inkey i k) as [[c i1]| |]; cbn [bind]; [apply IH|reflexivity|reflexivity]. Qed.

Lemma firstn_q i q : qrep i q -> qrep i (firstn 256 (q ++ [])).
Proof. intros R. rewrite app_nil_r, firstn_all2; [exact R|apply (qrep_short _ _ R)]. Qed.
Definition seated (p : panel) (s : typist) : Prop :=
  ptype p = kind s /\ 0 <= kind s <= 4 /\ shift p = b2z (shifted s) + 2 * b2z (caps s) /\ length (fkeys p) = 5%nat /\
  (forall n, 1 <= n <= 5 -> nth_error (fkeys p) (Z.to_nat (n - 1)) = Some (keys s n)) /\ cy (ktext p) = 0.
Definition same_press (p q : panel) : Prop :=
  (key_pressed q = key_pressed p /\ pressed_time q = pressed_time p) /\ iconpuse q = iconpuse p /\ iconpmax q = iconpmax p /\ iconpage q = iconpage p.
Lemma press_ok p i k s q : seated p s -> qrep i q -> 0 < k < 107 -> 2 <= kind s ->
  exists p' i', press p i k = Ok (p', i', k =? 1) /\ seated p' (fst (type_key s k)) /\ qrep i' (firstn 256 (q ++ snd (type_key s k))) /\ same_press p p'.
Proof.
  intros (T & Kr & Sh & Lf & Fk & Cy) Q K K2. unfold press, type_key. replace (k =? 0) with false by lia. replace (kind s <? 2) with false by lia.
  assert (Stay : forall p', ptype p' = ptype p -> shift p' = shift p -> fkeys p' = fkeys p -> ktext p' = ktext p -> seated p' s) by (intros p' E1 E2 E3 E4; unfold seated; rewrite E1, E2, E3, E4; auto 10).
  destruct (k =? 1) eqn:K1.
  { assert (k = 1) by lia. subst k. cbn [Z.eqb Z.leb Z.compare Pos.eqb andb]. rewrite no_legend by (reflexivity || lia). exists p, i. split; [reflexivity|]. split; [apply Stay; reflexivity|]. split; [exact (firstn_q _ _ Q)|repeat split; reflexivity]. }
  destruct (k =? 47) eqn:K47.
  { replace (k =? 1) with false by lia. eexists _, i. split; [reflexivity|]. split; [|split; [exact (firstn_q _ _ Q)|repeat split; reflexivity]]. unfold seated. cbn [set_shift ptype shift fkeys ktext kind shifted caps keys fst]. split; [exact T|]. split; [exact Kr|]. split; [|auto].
    rewrite Sh. destruct (shifted s), (caps s); reflexivity. }
  destruct ((k <=? 60) || (k =? 65)) eqn:Ck.
  { replace (k =? 61) with false by lia. replace ((62 <=? k) && (k <=? 64)) with false by lia. replace ((101 <=? k) && (k <=? 105)) with false by lia.
    assert (H1 : has (shift p) 1 = shifted s) by (rewrite Sh; destruct (shifted s), (caps s); reflexivity). assert (H2 : has (shift p) 2 = caps s) by (rewrite Sh; destruct (shifted s), (caps s); reflexivity).
    rewrite H1, H2, T. set (m := 2 * (kind s - 2) + b2z (xorb (shifted s) (caps s))). assert (Hm : 0 <= m < 6) by (subst m; destruct (xorb _ _); cbn [b2z]; lia).
    replace (2 * (kind s - 2) + (if xorb (shifted s) (caps s) then 1 else 0)) with m by (subst m; destruct (xorb _ _); reflexivity).
    pose proof (look_legend m k Hm ltac:(lia) ltac:(unfold char_key; lia)) as L. unfold look in L. cbv zeta. destruct (nth_error keyboard_chr (Z.to_nat m)) as [tb|]; [|discriminate].
    destruct (nth_error tb (Z.to_nat (if m =? 5 then 2 * k else k))) as [c|]; [|discriminate]. cbn [bind].
    assert (After : seated (if shifted s then set_shift p (Z.land (shift p) (Z.lnot 1)) else p) {| kind := kind s; shifted := false; caps := caps s; keys := keys s |} /\ same_press p (if shifted s then set_shift p (Z.land (shift p) (Z.lnot 1)) else p)).
    { split; [|destruct (shifted s); repeat split; reflexivity]. unfold seated. cbn [kind shifted caps keys]. destruct (shifted s) eqn:E; cbn [set_shift ptype shift fkeys ktext]; (split; [exact T|]; split; [exact Kr|]; split; [|auto]); rewrite Sh; destruct (caps s); reflexivity. }
    destruct After as [A1 A2]. destruct (c =? 0) eqn:C0.
    - injection L as L. rewrite <- L. exists p, i. split; [reflexivity|]. split; [apply Stay; reflexivity|]. split; [exact (firstn_q _ _ Q)|repeat split; reflexivity].
    - assert (E : exists l, legend m k = c :: l /\ (let* i1 := set_inkeys i [to_wide c] in
          let* i2 := (if m =? 5 then let* d := match nth_error tb (Z.to_nat ((if m =? 5 then 2 * k else k) + 1)) with Some d => Ok d | None => UB end in if d =? 0 then Ok i1 else set_inkeys i1 [to_wide d] else Ok i1) in
          Ok (if shifted s then set_shift p (Z.land (shift p) (Z.lnot 1)) else p, i2, false)) = (let* i2 := set_inkeys i (map to_wide (c :: l)) in Ok (if shifted s then set_shift p (Z.land (shift p) (Z.lnot 1)) else p, i2, false))).
      { destruct (m =? 5) eqn:M5.
        - destruct (nth_error tb (Z.to_nat (2 * k + 1))) as [d|]; [|discriminate]. destruct (d =? 0) eqn:D0; injection L as L; rewrite <- L.
          + exists []. split; [reflexivity|]. cbn [map bind]. destruct (set_inkeys i [to_wide c]) as [i1| |]; cbn [bind]; rewrite ?D0; reflexivity.
          + exists [d]. split; [reflexivity|]. cbn [map bind]. change [to_wide c; to_wide d] with ([to_wide c] ++ [to_wide d]). rewrite set_inkeys_app. destruct (set_inkeys i [to_wide c]) as [i1| |]; cbn [bind]; rewrite ?D0; reflexivity.
        - injection L as L. rewrite <- L. exists []. split; [reflexivity|]. cbn [map]. destruct (set_inkeys i [to_wide c]) as [i1| |]; reflexivity. }
      destruct E as (l & El & E). rewrite El. cbn [fst snd]. destruct (set_inkeys_ok (map to_wide (c :: l)) i q Q) as (i' & S & R). rewrite S in E. cbn [bind] in E. eexists _, i'. split; [exact E|]. split; [exact A1|]. split; [exact R|exact A2]. }
  destruct (k =? 61) eqn:K61.
  { replace ((61 <=? k) && (k <=? 64)) with true by lia. eexists _, i. split; [reflexivity|]. split; [|split; [exact (firstn_q _ _ Q)|repeat split; reflexivity]]. unfold seated. cbn [set_shift ptype shift fkeys ktext kind shifted caps keys fst]. split; [exact T|]. split; [exact Kr|]. split; [|auto].
    rewrite Sh. destruct (shifted s), (caps s); reflexivity. }
  destruct ((62 <=? k) && (k <=? 64)) eqn:K62.
  { replace ((61 <=? k) && (k <=? 64)) with true by lia. eexists _, i. split; [reflexivity|]. split; [|split; [exact (firstn_q _ _ Q)|]].
    - unfold seated. cbn [kind shifted caps keys fst]. destruct (k =? 62) eqn:Q2; [|destruct (k =? 63) eqn:Q3]; cbn [set_type ptype shift fkeys ktext]; unfold PNL_KYA, PNL_KYM, PNL_KYK; (split; [lia|]; split; [lia|]; auto).
    - destruct (k =? 62); [|destruct (k =? 63)]; repeat split; reflexivity. }
  replace ((61 <=? k) && (k <=? 64)) with false by lia.
  destruct ((101 <=? k) && (k <=? 105)) eqn:K101.
  { replace (k =? 66) with false by lia. specialize (Fk (k - 100) ltac:(lia)). replace (k - 100 - 1) with (k - 101) in Fk by lia. rewrite Fk. destruct (set_inkeys_ok (keys s (k - 100)) i q Q) as (i' & S & R). rewrite S. cbn [bind fst snd].
    exists p, i'. split; [reflexivity|]. split; [apply Stay; reflexivity|]. split; [exact R|repeat split; reflexivity]. }
  rewrite no_legend by (unfold char_key; lia). cbn [fst snd]. destruct (k =? 66); (eexists _, i; split; [reflexivity|]; split; [apply Stay; reflexivity|]; split; [exact (firstn_q _ _ Q)|repeat split; reflexivity]).
Qed.

(** ** writing into one row of a text screen *)
Lemma put_row_ok ws : forall c x y, cx c = x -> cy c = y -> 0 <= x < 32 -> 0 <= y < 24 -> length (text c) = 768%nat -> length (color c) = 768%nat ->
  exists c', put_row c y ws = Ok c' /\ length (text c') = 768%nat /\ length (color c') = 768%nat /\ (x + zlen ws < 32 -> cy c' = y) /\
  (forall n, 0 <= n -> nth_error (text c') (Z.to_nat n) = if (32 * y + x <=? n) && (n <? Z.min (32 * y + x + zlen ws) (32 * y + 32)) then nth_error ws (Z.to_nat (n - (32 * y + x))) else nth_error (text c) (Z.to_nat n)) /\
  (forall n, 0 <= n -> nth_error (color c') (Z.to_nat n) = if (32 * y + x <=? n) && (n <? Z.min (32 * y + x + zlen ws) (32 * y + 32)) then Some (col c) else nth_error (color c) (Z.to_nat n)).
Proof.
  induction ws as [|w ws IH]; intros c x y X Y Xr Yr Lt Lc.
  { exists c. cbn [put_row]. repeat split; auto; intros n Hn; change (zlen (@nil Z)) with 0; replace (_ && _) with false by lia; reflexivity. }
  cbn [put_row]. unfold con_put. rewrite X, Y. unfold CW, CH. replace ((x <? 32) && (y <? 24)) with true by lia. cbn [bind cx].
  replace (u8 (x + 1)) with (x + 1) by (unfold u8; change (2 ^ 8) with 256; lia).
  assert (Z1 : zlen (w :: ws) = 1 + zlen ws) by (unfold zlen; cbn [length]; lia). assert (Zp : 0 <= zlen ws) by (unfold zlen; lia).
  assert (G : exists c1, {| cx := x + 1; cy := y; tabstep := tabstep c; sys_tabstep := sys_tabstep c; col := col c; text := upd (text c) (Z.to_nat (y * 32 + x)) w; color := upd (color c) (Z.to_nat (y * 32 + x)) (col c) |} = c1 /\
    cx c1 = x + 1 /\ cy c1 = y /\ col c1 = col c /\ length (text c1) = 768%nat /\ length (color c1) = 768%nat /\
    (forall n, 0 <= n -> nth_error (text c1) (Z.to_nat n) = if n =? 32 * y + x then Some w else nth_error (text c) (Z.to_nat n)) /\
    (forall n, 0 <= n -> nth_error (color c1) (Z.to_nat n) = if n =? 32 * y + x then Some (col c) else nth_error (color c) (Z.to_nat n))).
  { eexists. split; [reflexivity|]. cbn [cx cy col text color]. rewrite !upd_length. repeat split; auto; intros n Hn.
    - destruct (Z.eqb_spec n (32 * y + x)) as [->|N]; [replace (y * 32 + x) with (32 * y + x) by lia; apply nth_error_upd_same; lia|apply nth_error_upd_other; lia].
    - destruct (Z.eqb_spec n (32 * y + x)) as [->|N]; [replace (y * 32 + x) with (32 * y + x) by lia; apply nth_error_upd_same; lia|apply nth_error_upd_other; lia]. }
  destruct G as (c1 & -> & X1 & Y1 & K1 & L1 & L2 & T1 & C1). destruct (x + 1 >=? 32) eqn:E.
  - assert (N : cy (con_newline c1 false) = y + 1) by (cbn [con_newline set_cursor cy]; rewrite Y1; unfold u8; change (2 ^ 8) with 256; lia). rewrite N. replace (negb (y + 1 =? y)) with true by lia.
    exists (con_newline c1 false). split; [reflexivity|]. split; [exact L1|]. split; [exact L2|]. split; [lia|]. rewrite Z1. split; intros n Hn.
    + change (text (con_newline c1 false)) with (text c1). rewrite T1 by lia. destruct (Z.eqb_spec n (32 * y + x)) as [Q|Q].
      * replace (_ && _) with true by lia. replace (n - (32 * y + x)) with 0 by lia. reflexivity.
      * replace (_ && _) with false by lia. reflexivity.
    + change (color (con_newline c1 false)) with (color c1). rewrite C1 by lia. destruct (Z.eqb_spec n (32 * y + x)) as [Q|Q].
      * replace (_ && _) with true by lia. reflexivity.
      * replace (_ && _) with false by lia. reflexivity.
  - rewrite Y1, Z.eqb_refl. cbn [negb]. destruct (IH c1 (x + 1) y X1 Y1 ltac:(lia) Yr L1 L2) as (c' & P & Q1 & Q2 & Q3 & Q4 & Q5). exists c'. split; [exact P|]. split; [exact Q1|]. split; [exact Q2|]. split; [intros; apply Q3; lia|]. rewrite Z1. split; intros n Hn.
    + rewrite Q4, T1 by lia. destruct ((32 * y + (x + 1) <=? n) && _) eqn:In.
      * replace (_ && _) with true by lia. replace (Z.to_nat (n - (32 * y + x))) with (S (Z.to_nat (n - (32 * y + (x + 1))))) by lia. reflexivity.
      * destruct (Z.eqb_spec n (32 * y + x)) as [Q|Q].
        -- replace (_ && _) with true by lia. replace (n - (32 * y + x)) with 0 by lia. reflexivity.
        -- replace (_ && _) with false by lia. reflexivity.
    + rewrite Q5, C1, K1 by lia. destruct ((32 * y + (x + 1) <=? n) && _) eqn:In.
      * replace (_ && _) with true by lia. reflexivity.
      * destruct (Z.eqb_spec n (32 * y + x)) as [Q|Q].
        -- replace (_ && _) with true by lia. reflexivity.
        -- replace (_ && _) with false by lia. reflexivity.
Qed.
(** the label of a function key: four characters, then a full stop if there are more *)
Definition label_char (ws : list Z) (j : Z) : Z := if (j =? 4) && (zlen ws >? 4) then to_wide 46 else if j <? zlen ws then nth (Z.to_nat j) ws 0 else to_wide 32.
Lemma put_label_row ws n : forall c j, 0 <= cx c -> cx c + Z.of_nat n < 32 -> 0 <= cy c < 24 ->
  put_label c ws n j = put_row c (cy c) (map (fun i => label_char ws (j + Z.of_nat i)) (seq 0 n)) /\ exists c', put_label c ws n j = Ok c' /\ cy c' = cy c.
Proof.
  induction n as [|n IH]; intros c j X N Y; [split; [reflexivity|exists c; repeat split; reflexivity]|]. cbn [put_label seq map put_row]. cbv zeta. replace (j + Z.of_nat 0) with j by lia. unfold label_char at 1.
  unfold con_put, CW, CH. replace ((cx c <? 32) && (cy c <? 24)) with true by lia. cbn [bind cx]. replace (u8 (cx c + 1)) with (cx c + 1) by (unfold u8; change (2 ^ 8) with 256; lia). replace (cx c + 1 >=? 32) with false by lia.
  cbn [cy]. rewrite Z.eqb_refl. cbn [negb]. match goal with |- context [put_label ?c1 ws n (j + 1)] => specialize (IH c1 (j + 1)) end. cbn [cx cy] in IH. specialize (IH ltac:(lia) ltac:(lia) Y). destruct IH as [IH1 IH2]. split; [|exact IH2]. rewrite IH1. f_equal. rewrite <- seq_shift, map_map. apply map_ext. intros a. f_equal. lia.
Qed.

(** ** sessions *)
Lemma itofp n : 0 <= n < 500000 -> INT_TO_FP n = 4096 * n.
Proof. intros H. unfold INT_TO_FP, s32, u32. change (2 ^ 32) with 4294967296. change (2 ^ 31) with 2147483648. lia. Qed.
Lemma all_tails_app {A} (P : list A -> Prop) a : forall b, all_tails P (a ++ b) -> all_tails P b.
Proof. induction a as [|x a IH]; intros b H; [exact H|]. apply IH, H. Qed.
Lemma set_function_key_ok p s n b : seated p s -> 1 <= n <= 5 -> exists p', set_function_key p n (SChar b) = Ok p' /\ same_press p p' /\
  seated p' {| kind := kind s; shifted := shifted s; caps := caps s; keys := fun j => if j =? n then map to_wide b else keys s j |}.
Proof.
  intros (T & Kr & Sh & Lf & Fk & Cy) N. unfold set_function_key. replace ((1 <=? n) && (n <=? 5)) with true by lia. cbv zeta. cbn [str_wide_copy].
  destruct (put_label_row (map to_wide b) 5 (set_cursor (ktext p) (1 + (n - 1) * 6) (cy (ktext p))) 0) as (_ & c' & E & Y); [cbn [set_cursor cx]; lia|cbn [set_cursor cx]; lia|cbn [set_cursor cy]; lia|]. rewrite E. cbn [bind]. eexists. split; [reflexivity|]. split; [repeat split; reflexivity|].
  unfold seated. cbn [set_keys ptype shift fkeys ktext kind shifted caps keys]. rewrite upd_length. split; [exact T|]. split; [exact Kr|]. split; [exact Sh|]. split; [exact Lf|]. split; [|cbn [set_cursor cy] in Y; lia].
  intros m M. destruct (Z.eqb_spec m n) as [->|D]; [apply nth_error_upd_same; lia|]. rewrite nth_error_upd_other by lia. apply Fk, M.
Qed.
Lemma pnltype_ok p t : 0 <= t <= 4 -> cmd_pnltype p (SChar (nth (Z.to_nat t) type_names [])) = Ok (set_type p t).
Proof. intros H. assert (D : t = 0 \/ t = 1 \/ t = 2 \/ t = 3 \/ t = 4) by lia. destruct D as [->|[->|[->|[->| ->]]]]; reflexivity. Qed.
Lemma tracks_same p q l : same_press p q -> tracks p l -> tracks q l.
Proof. intros [[A B] _]. unfold tracks. rewrite A, B. auto. Qed.

Lemma press_key_ok p i t h s q : iconpuse p = 0 -> tracks p h -> seated p s -> qrep i q -> on_screen t -> ~ slips (t :: h) -> Z.of_nat (length h) < 2 ^ 31 - 1 ->
  exists p' i' b, press_key p i t = Ok (p', i', b) /\ iconpuse p' = 0 /\ tracks p' (t :: h) /\
  match fired_now (t :: h) with
  | Some k => seated p' (fst (type_key s k)) /\ qrep i' (firstn 256 (q ++ snd (type_key s k))) /\ b = (k =? 1) && (2 <=? kind s)
  | None => seated p' s /\ qrep i' q /\ b = false
  end.
Proof.
  intros U T S Q O N L. destruct (track_ok p h t T O U N L) as (a & b & c & E & T'). unfold press_key. rewrite E. cbn [bind]. set (p1 := set_press p a b c) in *. assert (S1 : seated p1 s) by exact S. assert (U1 : iconpuse p1 = 0) by exact U. clearbody p1.
  destruct t as [xy|]; [|exists p1, i, false; split; [reflexivity|]; split; [exact U1|]; split; [exact T'|]; cbn [fired_now finger_of]; auto].
  unfold touch in *. cbv zeta. rewrite (pressed_fired _ _ T'). unfold touch in *. destruct (fired_now (Some xy :: h)) as [k|] eqn:F.  all: cbv iota.
  - pose proof (fired_range _ _ _ T' F) as [K K81]. assert (Pg : exists p2, turn_page p1 k = Ok p2 /\ iconpuse p2 = 0 /\ tracks p2 (Some xy :: h) /\ seated p2 s).
    { unfold turn_page. replace (k =? 81) with false by lia. destruct (k =? 80); eexists; (split; [reflexivity|]); [split; [exact U1|split; [exact T'|exact S1]]|split; [exact U1|split; [exact T'|exact S1]]]. }
    destruct Pg as (p2 & Pg & U2 & T2 & S2). rewrite Pg. cbn [bind]. assert (Ty : ptype p2 = kind s) by apply S2. assert (Kr : 0 <= kind s <= 4) by apply S2. rewrite Ty. unfold PNL_OFF, PNL_PNL. destruct ((kind s =? 0) || (kind s =? 1)) eqn:Off.
    + exists p2, i, false. split; [reflexivity|]. split; [exact U2|]. split; [exact T2|]. unfold type_key. replace (kind s <? 2) with true by lia. cbn [fst snd]. split; [exact S2|]. split; [exact (firstn_q _ _ Q)|]. lia.
    + destruct (press_ok p2 i k s q S2 Q K ltac:(lia)) as (p3 & i3 & P & S3 & Q3 & M). exists p3, i3, (k =? 1). split; [exact P|]. split; [destruct M as (_ & M & _); congruence|]. split; [exact (tracks_same _ _ _ M T2)|]. split; [exact S3|]. split; [exact Q3|]. lia.
  - exists p1, i, false. cbn [turn_page Z.eqb bind]. assert (Z0 : press p1 i 0 = Ok (p1, i, false)) by reflexivity. rewrite Z0. destruct (_ || _); (split; [reflexivity|]; split; [exact U1|]; split; [exact T'|]; auto).
Qed.

Lemma session_ok l : forall h p i s q, Forall sensible l -> all_tails (fun l => ~ slips l) (fingers l ++ h) -> Z.of_nat (length (fingers l ++ h)) < 2 ^ 31 ->
  iconpuse p = 0 -> tracks p h -> seated p s -> qrep i q -> panel_run p i l = Ok (expected h s q l).
Proof.
  induction l as [|e l IH]; intros h p i s q F A L U T S Q; [reflexivity|]. inversion F as [|? ? Fe Fl]; subst.
  destruct e as [t| | | |t|n b]; cbn [panel_run expected].
  - unfold fingers in A, L. cbn [flat_map] in A, L. cbn [app rev] in A, L. rewrite <- app_assoc in A, L. cbn [app] in A, L. fold (fingers l) in A, L.
    assert (N : ~ slips (t :: h)) by (apply all_tails_app in A; apply A). assert (Ln : Z.of_nat (length h) < 2 ^ 31 - 1) by (rewrite app_length in L; cbn [length] in L; lia).
    pose proof Fe as O. cbn [sensible icon_sensible] in O. destruct (press_key_ok p i t h s q U T S Q O N Ln) as (p' & i' & b & E & U' & T' & G). rewrite E. cbn [bind fst snd]. destruct (fired_now (t :: h)) as [k|].
    + destruct G as (S' & Q' & ->). rewrite (IH _ _ _ _ _ Fl A L U' T' S' Q'). cbn [bind]. destruct (type_key s k). reflexivity.
    + destruct G as (S' & Q' & ->). rewrite (IH _ _ _ _ _ Fl A L U' T' S' Q'). reflexivity.
  - destruct (qrep_get i q Q) as (i' & E & Q'). rewrite E. cbn [bind]. rewrite (IH _ _ _ _ _ Fl A L U T S Q'). cbn [bind]. destruct q; reflexivity.
  - rewrite (IH _ _ _ _ _ Fl A L U T S Q). cbn [bind]. do 2 f_equal. f_equal. unfold sys_keyboard. cbv zeta. rewrite (pressed_fired _ _ T). destruct (fired_now h) as [k|] eqn:Fk; [|reflexivity]. pose proof (fired_range _ _ _ T Fk). destruct (k <=? 69); apply itofp; lia.
  - rewrite (IH _ _ _ _ _ Fl A L U T S Q). cbn [bind]. do 2 f_equal. f_equal. unfold sys_funcno. cbv zeta. rewrite (pressed_fired _ _ T). destruct (fired_now h) as [k|] eqn:Fk; [|reflexivity]. pose proof (fired_range _ _ _ T Fk). replace (k >=? 101) with (101 <=? k) by lia. destruct ((101 <=? k) && (k <=? 105)) eqn:?; apply itofp; lia.
  - rewrite pnltype_ok by exact Fe. cbn [bind]. apply IH; auto. destruct S as (S1 & S2 & S3 & S4). unfold seated. cbn [set_type ptype shift fkeys ktext kind shifted caps keys]. cbn [sensible] in Fe. auto.
  - cbn [sensible] in Fe. unfold cmd_key. replace ((n <? 1) || (5 <? n)) with false by lia. destruct (set_function_key_ok p s n b S ltac:(lia)) as (p' & E & M & S'). rewrite E. cbn [bind]. apply IH; auto; [destruct M as (_ & M & _); congruence|exact (tracks_same _ _ _ M T)].
Qed.
Lemma init_seated : exists p, init_panel = Ok p /\ (iconpuse p = 0 /\ iconpmax p = 0 /\ iconpage p = 0) /\ tracks p [] /\ seated p fresh.
Proof.
  destruct init_panel as [p| |] eqn:E; [|exfalso; vm_compute in E; discriminate|exfalso; vm_compute in E; discriminate]. exists p. split; [reflexivity|]. assert (G : Ok p = init_panel) by (symmetry; exact E). clear E.
  assert (P : p = match init_panel with Ok p => p | _ => start_panel end) by (rewrite <- G; reflexivity). clear G. rewrite P. split; [vm_compute; repeat split; reflexivity|]. split; [vm_compute; repeat split; reflexivity|].
  unfold seated. split; [vm_compute; reflexivity|]. split; [cbn; lia|]. split; [vm_compute; reflexivity|]. split; [vm_compute; reflexivity|]. split; [|vm_compute; reflexivity].
  intros n Hn. assert (D : n = 1 \/ n = 2 \/ n = 3 \/ n = 4 \/ n = 5) by lia. destruct D as [->|[->|[->|[->| ->]]]]; vm_compute; reflexivity.
Qed.

(** ** icons *)
Definition icons_shown (p : panel) (on : Z -> bool) : Prop := length (icons p) = 6%nat /\ forall j, 0 <= j <= 3 -> exists c, nth_error (icons p) (Z.to_nat (2 + j)) = Some (on j, c).
Definition tracks_id (p : panel) (l : list touch) : Prop := match finger_of l with On k _ => 90 <= k <= 93 -> id_pressed p = k + 1 | _ => True end.
Definition icon_cell (j : nat) : bool := match nth_error key_map j with Some c => match code c with Ok k => negb ((90 <=? k) && (k <=? 93)) || (c =? k + 1) | _ => true end | None => true end.
Lemma icon_cells : forallb icon_cell (seq 0 768) = true.
Proof. vm_compute. reflexivity. Qed.
Lemma icon_id x y c k : cell x y = Ok c -> code c = Ok k -> 90 <= k <= 93 -> c = k + 1.
Proof.
  unfold cell. destruct (_ && _) eqn:B; [|discriminate]. pose proof (proj1 (forallb_forall _ _) icon_cells (Z.to_nat (x / 8 + 32 * (y / 8))) ltac:(apply in_seq; lia)) as C. unfold icon_cell in C.
  destruct (nth_error key_map _) as [c'|]; [|discriminate]. intros E. injection E as ->. intros E R. rewrite E in C. lia.
Qed.
Lemma track_id p l t p' : tracks p l -> tracks_id p l -> on_screen t -> track p t = Ok p' -> tracks_id p' (t :: l).
Proof.
  intros T I S E. destruct t as [[x y]|]; [|exact Logic.I]. destruct S as [X Y]. destruct (cell_key x y X Y) as (c & C & K). unfold tracks, tracks_id in *. cbn [track] in E. unfold touch in *. rewrite finger_cons. cbn [key_of].
  destruct (finger_of l) as [| |k n|] eqn:F.
  1, 2: destruct T as [T1 T2]; rewrite T1, T2, C in E; change (negb (0 =? 0)) with false in E; change (0 >? 0) with false in E; cbn [bind] in E; cbv zeta in E; destruct (key_under x y) as [k|] eqn:Ku; [|exact Logic.I]; intros R; destruct K as (K1 & K2 & K3 & K4);
    assert (N89 : (c =? 89) = false) by lia; rewrite N89 in E; cbn [andb] in E;
    replace (negb (c =? 255)) with true in E by lia; rewrite K2 in E; cbn [bind] in E; injection E as <-; cbn [set_press id_pressed]; exact (icon_id _ _ _ _ C K2 R).
  - destruct T as (T1 & T2 & T3 & T4). rewrite T1, T2, C in E. replace (negb (k =? 0)) with true in E by lia. cbn [bind] in E. destruct (key_under x y) as [k'|]; [|exact Logic.I]. destruct K as (K1 & K2 & K3 & K4). rewrite K2 in E. cbn [bind] in E. destruct (k' =? k); [|exact Logic.I]. cbn [negb] in E.
    destruct (s32b (n + 1)); [|discriminate]. injection E as <-. cbn [set_press id_pressed]. exact I.
  - destruct (key_under x y); exact Logic.I.
Qed.
Lemma press_icons p i k p' i' b : press p i k = Ok (p', i', b) -> icons p' = icons p /\ id_pressed p' = id_pressed p.
Proof.
  unfold press. cbv zeta. intros E. repeat match type of E with
    | (if ?c then _ else _) = Ok _ => destruct c
    | (let* _ := ?o in _) = Ok _ => destruct o; cbn [bind] in E; [|discriminate|discriminate]
    | match ?o with _ => _ end = Ok _ => destruct o; try discriminate
    end; try discriminate; injection E as <- <- <-; try (repeat split; reflexivity); repeat match goal with |- context [if ?c then _ else _] => destruct c end; repeat split; reflexivity.
Qed.
Lemma press_key_icons p i t h p' i' b : tracks p h -> tracks_id p h -> on_screen t -> press_key p i t = Ok (p', i', b) -> icons p' = icons p /\ tracks_id p' (t :: h).
Proof.
  intros T I S. unfold press_key. destruct (track p t) as [p1| |] eqn:E; cbn [bind]; try discriminate. pose proof (track_id _ _ _ _ T I S E) as I1. assert (Ic : icons p1 = icons p).
  { clear - E. unfold track in E. repeat match type of E with
    | match ?o with Some _ => _ | None => _ end = Ok _ => destruct o
    | (let '(_, _) := ?o in _) = Ok _ => destruct o
    | (if ?c then _ else _) = Ok _ => destruct c
    | (let* _ := ?o in _) = Ok _ => destruct o; cbn [bind] in E; [|discriminate|discriminate]
    | (let c := _ in _) = Ok _ => cbv zeta in E
    end; try discriminate; injection E as <-; reflexivity. }
  assert (Go : forall p2, icons p2 = icons p1 -> id_pressed p2 = id_pressed p1 -> icons p2 = icons p /\ tracks_id p2 (t :: h)).
  { intros p2 A B. split; [congruence|]. unfold tracks_id in *. rewrite B. exact I1. }
  destruct t as [xy|]; [|intros H; injection H as <- <- <-; apply Go; reflexivity]. cbv zeta.
  destruct (turn_page p1 (get_pressed_key p1)) as [p2| |] eqn:Tp; cbn [bind]; try discriminate. assert (G2 : icons p2 = icons p1 /\ id_pressed p2 = id_pressed p1).
  { unfold turn_page in Tp. cbv zeta in Tp. repeat match type of Tp with (if ?c then _ else _) = Ok _ => destruct c end; try discriminate; injection Tp as <-; repeat split; reflexivity. }
  destruct G2 as [G2 G3]. destruct (_ || _); [intros H; injection H as <- <- <-; apply Go; auto|]. intros H. apply press_icons in H as [H1 H2]. apply Go; congruence.
Qed.
Lemma iconchk_ok p h on : tracks p h -> tracks_id p h -> icons_shown p on ->
  func_iconchk p = Ok (match fired_now h with Some k => if (90 <=? k) && (k <=? 93) && on (k - 90) then 4096 * (k - 90) else -4096 | None => -4096 end).
Proof.
  intros T I [L S]. unfold func_iconchk. cbv zeta. rewrite (pressed_fired _ _ T). destruct (fired_now h) as [k|] eqn:F; [|reflexivity]. replace (k >=? 90) with (90 <=? k) by lia.
  unfold tracks, tracks_id, fired_now in *. destruct (finger_of h) as [| |k' n|]; try discriminate. destruct (_ || _); [|discriminate]. injection F as ->. destruct T as (T1 & _ & K & _).
  destruct (90 <=? k) eqn:K90; [|reflexivity]. cbn [andb]. destruct (k <=? 93) eqn:K93.
  - replace (k <=? 94) with true by lia. specialize (I ltac:(lia)). rewrite I. replace (_ && _) with false by lia. destruct (S (k - 90) ltac:(lia)) as (c & E). replace (k + 1 - 89) with (2 + (k - 90)) by lia. rewrite E. destruct (on (k - 90)); cbn [andb]; [rewrite itofp by lia; reflexivity|reflexivity].
  - cbn [andb]. destruct (k <=? 94) eqn:K94; [|reflexivity]. lia.
Qed.
Lemma nth_upd_case {A} (l : list A) i j v : (i < length l)%nat -> nth_error (upd l i v) j = if (j =? i)%nat then Some v else nth_error l j.
Proof. intros H. destruct (Nat.eqb_spec j i) as [->|N]; [apply nth_error_upd_same, H|apply nth_error_upd_other; auto]. Qed.
Lemma icon_off_len l j : length (icon_off l j) = length l.
Proof. unfold icon_off. destruct (nth_error l j) as [[a c]|]; [apply upd_length|reflexivity]. Qed.
Lemma icon_off_nth l j n : nth_error (icon_off l j) n = match nth_error l n with Some (a, c) => Some (if (n =? j)%nat then false else a, c) | None => None end.
Proof.
  unfold icon_off. destruct (nth_error l j) as [[a c]|] eqn:E.
  - rewrite nth_upd_case by (apply nth_error_Some; congruence). destruct (Nat.eqb_spec n j) as [->|]; [rewrite E; reflexivity|]. destruct (nth_error l n) as [[? ?]|]; reflexivity.
  - destruct (nth_error l n) as [[a c]|] eqn:F; [|reflexivity]. destruct (Nat.eqb_spec n j) as [->|]; [congruence|reflexivity].
Qed.
Lemma icon_session l : forall h p i s q on, Forall icon_sensible l -> all_tails (fun l => ~ slips l) (icon_touches l ++ h) -> Z.of_nat (length (icon_touches l ++ h)) < 2 ^ 31 ->
  iconpuse p = 0 -> tracks p h -> tracks_id p h -> seated p s -> qrep i q -> icons_shown p on -> icon_run p i l = Ok (icon_answers h on l).
Proof.
  induction l as [|e l IH]; intros h p i s q on F A L U T Ti S Q Sh; [reflexivity|]. inversion F as [|? ? Fe Fl]; subst.
  destruct e as [t|n v|[n|]|]; cbn [icon_run icon_answers].
  - unfold icon_touches in A, L. cbn [flat_map] in A, L. cbn [app rev] in A, L. rewrite <- app_assoc in A, L. cbn [app] in A, L. fold (icon_touches l) in A, L.
    assert (N : ~ slips (t :: h)) by (apply all_tails_app in A; apply A). assert (Ln : Z.of_nat (length h) < 2 ^ 31 - 1) by (rewrite app_length in L; cbn [length] in L; lia).
    pose proof Fe as O. cbn [sensible icon_sensible] in O. destruct (press_key_ok p i t h s q U T S Q O N Ln) as (p' & i' & b & E & U' & T' & G). destruct (press_key_icons _ _ _ _ _ _ _ T Ti O E) as [Ic Ti']. rewrite E. cbn [bind fst snd].
    assert (Sh' : icons_shown p' on) by (unfold icons_shown; rewrite Ic; exact Sh). destruct (fired_now (t :: h)) as [k|].
    + destruct G as (S' & Q' & _). exact (IH _ _ _ _ _ _ Fl A L U' T' Ti' S' Q' Sh').
    + destruct G as (S' & Q' & _). exact (IH _ _ _ _ _ _ Fl A L U' T' Ti' S' Q' Sh').
  - cbn [icon_sensible] in Fe. unfold cmd_iconset. replace ((n <? 0) || (3 <? n)) with false by lia. replace ((v <? 0) || (64 <? v)) with false by lia. cbn [bind]. destruct Sh as [Li Sh]. apply (IH h _ i s q); auto.
    split; [cbn [set_icons icons]; rewrite upd_length; exact Li|]. intros j J. cbn [set_icons icons]. rewrite nth_upd_case by lia. destruct (Z.eqb_spec j n) as [->|Nj]; [rewrite Nat.eqb_refl; eauto|]. replace (Z.to_nat (2 + j) =? Z.to_nat (2 + n))%nat with false by lia. apply Sh, J.
  - cbn [icon_sensible] in Fe. unfold cmd_iconclr. replace ((n <? 0) || (3 <? n)) with false by lia. cbn [bind]. destruct Sh as [Li Sh]. apply (IH h _ i s q); auto.
    split; [cbn [set_icons icons]; rewrite icon_off_len; exact Li|]. intros j J. cbn [set_icons icons]. rewrite icon_off_nth. destruct (Sh j J) as [c E]. rewrite E. exists c. destruct (Z.eqb_spec j n) as [->|Nj]; [rewrite Nat.eqb_refl; reflexivity|]. replace (Z.to_nat (2 + j) =? Z.to_nat (2 + n))%nat with false by lia. reflexivity.
  - cbn [cmd_iconclr bind]. destruct Sh as [Li Sh]. apply (IH h _ i s q); auto. split; [cbn [set_icons icons]; rewrite !icon_off_len; exact Li|]. intros j J. cbn [set_icons icons]. rewrite !icon_off_nth. destruct (Sh j J) as [c E]. rewrite E. exists c.
    assert (D : j = 0 \/ j = 1 \/ j = 2 \/ j = 3) by lia. destruct D as [->|[->|[->| ->]]]; reflexivity.
  - rewrite (iconchk_ok _ _ _ T Ti Sh). cbn [bind]. rewrite (IH _ _ _ _ _ _ Fl A L U T Ti S Q Sh). reflexivity.
Qed.

(** ** pages *)
Lemma whole_floor z : 0 <= z < 2 ^ 31 -> whole z = z / 4096 * 4096.
Proof.
  intros H. unfold whole, u32. rewrite Z.mod_small by (change (2 ^ 31) with 2147483648 in H; change (2 ^ 32) with 4294967296; lia).
  replace 4294963200 with (Z.ldiff (Z.ones 32) (Z.ones 12)) by reflexivity. assert (E : Z.land z (Z.ldiff (Z.ones 32) (Z.ones 12)) = Z.ldiff z (Z.ones 12)).
  { apply Z.bits_inj'. intros n N. rewrite Z.land_spec, !Z.ldiff_spec, !Z.testbit_ones_nonneg by lia. destruct (Z.ltb_spec n 32); [reflexivity|]. cbn [andb]. rewrite Bool.andb_false_r. destruct (Z.eqb_spec z 0) as [->|]; [rewrite Z.testbit_0_l; reflexivity|]. rewrite Z.bits_above_log2; [reflexivity|lia|].
    assert (Z.log2 z < 32); [|lia]. apply Z.log2_lt_pow2; [lia|]. change (2 ^ 31) with 2147483648 in H; change (2 ^ 32) with 4294967296; lia. }
  rewrite E, Z.ldiff_ones_r by lia. rewrite Z.shiftr_div_pow2, Z.shiftl_mul_pow2 by lia. change (2 ^ 12) with 4096. unfold s32. change (2 ^ 31) with 2147483648 in *. change (2 ^ 32) with 4294967296. lia.
Qed.
Definition on_finger (p : panel) (f : finger) (len : Z) : Prop :=
  match f with
  | Up | Searching => key_pressed p = 0 /\ pressed_time p = 0
  | On k n => key_pressed p = k /\ pressed_time p = n /\ (0 < k < 107 /\ k <> 94) /\ 0 < n <= len
  | Off => key_pressed p = 0 /\ 0 < pressed_time p
  end.
Definition paged (p : panel) (g : pages) (len : Z) : Prop :=
  on_finger p (fing g) len /\ iconpuse p = puse g /\ iconpmax p = pmax g /\ iconpage p = page g /\
  (0 <= pmax g < 2 ^ 31 /\ pmax g mod 4096 = 0) /\ (0 <= page g < 2 ^ 31 /\ page g mod 4096 = 0).
Lemma in_89 x y : 0 <= x < 256 -> 0 <= y < 192 -> cell x y = Ok 89 <-> key_under x y = Some 80.
Proof.
  intros X Y. destruct (cell_key x y X Y) as (c & C & K). rewrite C. split.
  - intros E. injection E as ->. destruct (key_under x y); [|lia]. destruct K as (_ & _ & K & _). rewrite K by reflexivity. reflexivity.
  - intros E. rewrite E in K. destruct K as (_ & K & _). f_equal. unfold code in K. clear - K.
    assert (A : forall j, nth_error key_codes j = Some 80 -> j = 89%nat).
    { assert (Ch : forallb (fun j => match nth_error key_codes j with Some k => negb (k =? 80) || (j =? 89)%nat | None => true end) (seq 0 95) = true) by (vm_compute; reflexivity).
      intros j J. assert (Lj : (j < 95)%nat) by (change 95%nat with (length key_codes); apply nth_error_Some; congruence). pose proof (proj1 (forallb_forall _ _) Ch j ltac:(apply in_seq; lia)) as Q. cbv beta in Q. rewrite J in Q. lia. }
    destruct (nth_error key_codes (Z.to_nat c)) as [k|] eqn:E; [|discriminate]. assert (k = 80) by congruence. subst k. apply A in E. lia.
Qed.
Lemma track_finger p f len t : on_finger p f len -> on_screen t -> 0 <= len < 2 ^ 31 - 1 ->
  match next_finger f (negb (iconpuse p =? 0)) t with
  | Some f' => exists a b c, track p t = Ok (set_press p a b c) /\ on_finger (set_press p a b c) f' (len + 1)
  | None => track p t = UB
  end.
Proof.
  intros T S L. destruct t as [[x y]|]; [|exists 0, 255, 0; split; [reflexivity|]; split; reflexivity]. destruct S as [X Y]. destruct (cell_key x y X Y) as (c & C & K). cbn [track next_finger].
  assert (New : key_pressed p = 0 /\ pressed_time p = 0 -> exists a b d,
    (if negb (key_pressed p =? 0) then let* c := cell x y in let* k := code c in
        if negb (k =? key_pressed p) then Ok (set_press p 0 255 (pressed_time p))
        else if s32b (pressed_time p + 1) then Ok (set_press p (key_pressed p) (id_pressed p) (pressed_time p + 1)) else UB
      else if pressed_time p >? 0 then Ok p
      else
        let* c := cell x y in
        let c := if (c =? 89) && negb (iconpuse p =? 0) && (y >=? 180) then 90 else c in
        if negb (c =? 255) then let* k := code c in Ok (set_press p k c 1)
        else Ok (set_press p (key_pressed p) (id_pressed p) 0)) = Ok (set_press p a b d) /\
    on_finger (set_press p a b d) (match key_under x y with Some k => On (if negb (iconpuse p =? 0) && (k =? 80) && (180 <=? y) then 81 else k) 1 | None => Searching end) (len + 1)).
  { intros [E1 E2]. rewrite E1, E2. change (negb (0 =? 0)) with false. change (0 >? 0) with false. cbv iota. pose proof (in_89 x y X Y) as I89. rewrite C in I89 |- *. cbn [bind]. cbv zeta.
    destruct (key_under x y) as [k|].
    - destruct K as (K1 & K2 & _ & K4). assert (Q : (c =? 89) && negb (iconpuse p =? 0) && (y >=? 180) = negb (iconpuse p =? 0) && (k =? 80) && (180 <=? y)).
      { assert ((c =? 89) = (k =? 80)) as ->; [|replace (y >=? 180) with (180 <=? y) by lia; destruct (k =? 80), (negb (iconpuse p =? 0)); reflexivity].
        destruct (Z.eqb_spec c 89) as [->|N]; destruct (Z.eqb_spec k 80) as [->|M]; try reflexivity; exfalso; [assert (Some k = Some 80) by (apply I89; reflexivity); congruence|]. assert (Ok c = Ok 89) by (apply I89; reflexivity). congruence. }
      rewrite Q. clear Q. destruct (negb (iconpuse p =? 0) && (k =? 80) && (180 <=? y)) eqn:B.
      + change (negb (90 =? 255)) with true. cbv iota. change (code 90) with (Ok 81). cbn [bind]. exists 81, 90, 1. split; [reflexivity|]. cbn [on_finger key_pressed pressed_time set_press]. lia.
      + replace (negb (c =? 255)) with true by lia. rewrite K2. cbn [bind]. exists k, c, 1. split; [reflexivity|]. cbn [on_finger key_pressed pressed_time set_press]. lia.
    - subst c. change (255 =? 89) with false. cbn [andb]. change (negb (255 =? 255)) with false. exists 0, (id_pressed p), 0. split; [reflexivity|]. split; reflexivity. }
  destruct f as [| |k n|]; cbn [on_finger] in T.
  - exact (New T).
  - exact (New T).
  - destruct T as (T1 & T2 & T3 & T4). rewrite T1, T2. replace (negb (k =? 0)) with true by lia. rewrite C. cbn [bind]. destruct (key_under x y) as [k'|].
    + destruct K as (K1 & K2 & _ & K4). rewrite K2. cbn [bind]. destruct (k' =? k) eqn:Q; cbn [negb].
      * replace (s32b (n + 1)) with true by (unfold s32b, INT_MIN, INT_MAX; change (2 ^ 31) with 2147483648 in L; lia). exists k, (id_pressed p), (n + 1). split; [reflexivity|]. cbn [on_finger key_pressed pressed_time set_press]. lia.
      * exists 0, 255, n. split; [reflexivity|]. cbn [on_finger key_pressed pressed_time set_press]. lia.
    + subst c. reflexivity.
  - destruct T as (T1 & T2). rewrite T1. cbn [Z.eqb negb]. replace (pressed_time p >? 0) with true by lia. exists (key_pressed p), (id_pressed p), (pressed_time p). split; [destruct p; reflexivity|]. cbn [on_finger key_pressed pressed_time set_press]. lia.
Qed.
Lemma pressed_f p f len : on_finger p f len -> get_pressed_key p = match fires_f f with Some k => k | None => 0 end.
Proof.
  unfold on_finger, get_pressed_key, fires_f. destruct f as [| |k n|]; intros T; destruct T as [T1 T2]; rewrite T1; try reflexivity. destruct T2 as (T2 & T3 & T4). rewrite T2.
  replace (k =? 0) with false by lia. cbn [orb]. replace (check_repeat n 30 4) with ((n =? 1) || (30 <? n) && ((n - 31) mod 5 =? 0)); [destruct (_ || _); reflexivity|].
  unfold check_repeat. change (4 >? 0) with true. cbn [andb]. destruct (n >? 30) eqn:Q.
  - replace (n =? 1) with false by lia. replace (30 <? n) with true by lia. cbn [orb andb]. rewrite Z.rem_mod_nonneg by lia. replace (n - 1 - 30) with (n - 31) by lia. reflexivity.
  - replace (30 <? n) with false by lia. cbn [andb]. apply Bool.orb_false_r.
Qed.
Lemma fires_f_range p f len k : on_finger p f len -> fires_f f = Some k -> 0 < k < 107.
Proof. unfold on_finger, fires_f. destruct f; try discriminate. intros (_ & _ & R & _). destruct (_ || _); [|discriminate]. intros E. injection E as <-. lia. Qed.
Lemma on_finger_same p q f len : same_press p q -> on_finger p f len -> on_finger q f len.
Proof. intros [[A B] _]. unfold on_finger. rewrite A, B. auto. Qed.
Lemma on_finger_more p f a b : a <= b -> on_finger p f a -> on_finger p f b.
Proof. intros H. unfold on_finger. destruct f; auto. intros (A & B & C & D). repeat split; auto; lia. Qed.
Lemma z_case {A} k (a b c : A) : 0 < k -> match k with 80 => a | 81 => b | _ => c end = if k =? 80 then a else if k =? 81 then b else c.
Proof. intros H. destruct (Z.eqb_spec k 80) as [->|]; [reflexivity|]. destruct (Z.eqb_spec k 81) as [->|]; [reflexivity|]. destruct k as [|k|k]; try lia. repeat (destruct k as [k|k|]; try reflexivity; try lia). Qed.

Lemma page_step_ok p i g e s q len : paged p g len -> seated p s -> qrep i q -> page_sensible e -> 0 <= len < 2 ^ 31 - 1 ->
  match page_ref g e with
  | Some g' => exists p' i' s' q', page_step p i e = Ok (p', i') /\ paged p' g' (len + 1) /\ seated p' s' /\ qrep i' q'
  | None => page_step p i e = UB
  end.
Proof.
  intros (F & U & M & P & Mr & Pr) S Q E L. destruct e as [t|v|v|v]; cbn [page_ref page_step].
  - cbn [page_sensible] in E. destruct t as [xy|].
    2: { exists (set_press p 0 255 0), i, s, q. cbn [next_finger]. split; [reflexivity|]. split; [|split; [exact S|exact Q]]. unfold paged. cbn [fing puse pmax page fires_f on_finger set_press key_pressed pressed_time iconpuse iconpmax iconpage]. auto 10. }
    pose proof (track_finger p (fing g) len (Some xy) F E L) as T. rewrite U in T. destruct (next_finger (fing g) (negb (puse g =? 0)) (Some xy)) as [f'|]; [|unfold press_key; unfold touch in *; rewrite T; reflexivity].
    destruct T as (a & b & c & T & F'). unfold press_key. unfold touch in *. rewrite T. cbn [bind]. cbv zeta. set (p1 := set_press p a b c) in *. assert (S1 : seated p1 s) by exact S.
    assert (P1 : iconpuse p1 = puse g /\ iconpmax p1 = pmax g /\ iconpage p1 = page g) by (split; [exact U|split; [exact M|exact P]]). clearbody p1. destruct P1 as (U1 & M1 & P1).
    rewrite (pressed_f _ _ _ F'). set (g' := {| fing := f'; puse := puse g; pmax := pmax g; page := _ |}).
    assert (Tp : exists p2, turn_page p1 match fires_f f' with Some k => k | None => 0 end = Ok p2 /\ seated p2 s /\ paged p2 g' (len + 1)).
    { assert (G : forall v, page g' = v -> 0 <= v < 2 ^ 31 -> v mod 4096 = 0 -> seated (set_page p1 v) s /\ paged (set_page p1 v) g' (len + 1)).
      { intros v <- V1 V2. split; [exact S1|]. unfold paged. cbn [set_page iconpuse iconpmax iconpage]. repeat split; auto; try apply Mr; try lia. }
      assert (Same : set_page p1 (page g) = p1) by (rewrite <- P1; destruct p1; reflexivity). unfold turn_page. cbv zeta. destruct (fires_f f') as [k|] eqn:Ff.
      - pose proof (fires_f_range _ _ _ _ F' Ff) as K. cbn [g' page] in G. rewrite (z_case k _ _ _ (proj1 K)) in G. destruct (k =? 80) eqn:K80; [|destruct (k =? 81) eqn:K81].
        + rewrite P1. destruct (Z.ltb_spec 0 (page g)).
          * replace (page g >? 0) with true by lia. cbn [b2z]. rewrite itofp by lia. replace (4096 * 1) with 4096 by reflexivity. eexists. split; [reflexivity|]. apply G; [reflexivity|lia|lia].
          * replace (page g >? 0) with false by lia. cbn [b2z]. rewrite itofp by lia. replace (page g - 4096 * 0) with (page g) by lia. eexists. split; [reflexivity|]. apply G; [reflexivity|lia|lia].
        + rewrite P1, M1. destruct (Z.ltb_spec (page g) (pmax g)).
          * cbn [b2z]. rewrite itofp by lia. replace (4096 * 1) with 4096 by reflexivity. assert (page g + 4096 <= pmax g) by lia. replace (s32b (page g + 4096)) with true by (unfold s32b, INT_MIN, INT_MAX; change (2 ^ 31) with 2147483648 in *; lia). eexists. split; [reflexivity|]. apply G; [reflexivity|lia|lia].
          * cbn [b2z]. rewrite itofp by lia. replace (page g + 4096 * 0) with (page g) by lia. replace (s32b (page g)) with true by (unfold s32b, INT_MIN, INT_MAX; change (2 ^ 31) with 2147483648 in *; lia). eexists. split; [reflexivity|]. apply G; [reflexivity|lia|lia].
        + exists p1. split; [reflexivity|]. rewrite <- Same. apply G; [reflexivity|lia|lia].
      - exists p1. split; [reflexivity|]. rewrite <- Same. apply G; [reflexivity|lia|lia]. }
    clearbody g'. destruct Tp as (p2 & Tp & S2 & G2). rewrite Tp. cbn [bind]. assert (Ty : ptype p2 = kind s) by apply S2. assert (Kr : 0 <= kind s <= 4) by apply S2. rewrite Ty. unfold PNL_OFF, PNL_PNL.
    destruct ((kind s =? 0) || (kind s =? 1)) eqn:Off; [exists p2, i, s, q; split; [reflexivity|auto]|].
    destruct (fires_f f') as [k|] eqn:Ff; [|exists p2, i, s, q; split; [reflexivity|auto]]. pose proof (fires_f_range _ _ _ _ F' Ff) as K.
    destruct (press_ok p2 i k s q S2 Q K ltac:(lia)) as (p3 & i3 & Pk & S3 & Q3 & Sm). rewrite Pk. cbn [bind]. exists p3, i3, (fst (type_key s k)), (firstn 256 (q ++ snd (type_key s k))). split; [reflexivity|]. split; [|auto].
    destruct G2 as (H1 & H2 & H3 & H4 & H5). pose proof (on_finger_same _ _ _ _ Sm H1) as H1'. destruct Sm as (_ & E1 & E2 & E3). unfold paged. rewrite E1, E2, E3. auto.
  - exists (syschk_iconpuse (set_uses p v (iconpmax p))), i, s, q. split; [reflexivity|]. split; [|split; [exact S|exact Q]]. unfold paged. cbn [fing puse pmax page]. split; [apply (on_finger_more _ _ len); [lia|exact F]|]. split; [|auto]. cbn [syschk_iconpuse set_uses set_icons iconpuse]. destruct (v =? 0); reflexivity.
  - eexists _, i, s, q. split; [reflexivity|]. split; [|split; [exact S|exact Q]]. unfold paged. cbn [fing puse pmax page]. split; [apply (on_finger_more _ _ len); [lia|exact F]|]. split; [exact U|]. cbn [page_sensible] in E.
    split; [|split; [exact P|]; split; [|exact Pr]].
    + cbn [syschk_iconpmax set_uses iconpmax]. destruct (Z.ltb_spec v 0); [lia|]. rewrite whole_floor by lia. lia.
    + change (2 ^ 31) with 2147483648 in *. lia.
  - eexists _, i, s, q. split; [reflexivity|]. split; [|split; [exact S|exact Q]]. unfold paged. cbn [fing puse pmax page]. split; [apply (on_finger_more _ _ len); [lia|exact F]|]. split; [exact U|]. split; [exact M|]. cbn [page_sensible] in E.
    split; [|split; [exact Mr|]].
    + cbn [syschk_iconpage set_page iconpmax iconpage]. rewrite M. replace (v >? pmax g) with (pmax g <? v) by lia. destruct (Z.ltb_spec (pmax g) v); [lia|]. destruct (Z.ltb_spec v 0); [lia|]. rewrite whole_floor by lia. lia.
    + change (2 ^ 31) with 2147483648 in *. lia.
Qed.
Lemma page_run_ok l : forall p i g s q len, paged p g len -> seated p s -> qrep i q -> Forall page_sensible l -> 0 <= len -> len + Z.of_nat (length l) < 2 ^ 31 ->
  match pages_ref g l with
  | Some g' => exists p' i', page_run p i l = Ok (p', i') /\ iconpuse p' = puse g' /\ iconpmax p' = pmax g' /\ iconpage p' = page g'
  | None => page_run p i l = UB
  end.
Proof.
  induction l as [|e l IH]; intros p i g s q len G S Q F L0 L; [exists p, i; split; [reflexivity|]; unfold paged in G; tauto|]. inversion F as [|? ? Fe Fl]; subst. cbn [length] in L. cbn [pages_ref page_run].
  pose proof (page_step_ok p i g e s q len G S Q Fe ltac:(lia)) as St. destruct (page_ref g e) as [g'|]; [|rewrite St; reflexivity]. destruct St as (p' & i' & s' & q' & E & G' & S' & Q'). rewrite E. cbn [bind]. apply (IH p' i' g' s' q' (len + 1)); auto; lia.
Qed.
Lemma pages_inv l : forall g, (0 <= pmax g /\ pmax g mod 4096 = 0 /\ 0 <= page g /\ page g mod 4096 = 0) -> forall g', pages_ref g l = Some g' -> 0 <= pmax g' /\ pmax g' mod 4096 = 0 /\ 0 <= page g' /\ page g' mod 4096 = 0.
Proof.
  induction l as [|e l IH]; intros g I g' E; cbn [pages_ref] in E; [injection E as <-; exact I|]. destruct (page_ref g e) as [g1|] eqn:E1; [|discriminate]. apply (IH g1); [|exact E]. clear IH E. assert (Inj : forall a b : pages, Some a = Some b -> a = b) by congruence. destruct e as [t|v|v|v]; cbn [page_ref] in E1.
  - destruct (next_finger _ _ _) as [f|]; [|discriminate]. apply Inj in E1; subst g1. cbn [pmax page]. destruct (fires_f f) as [k|]; [|exact I]. destruct (Z.leb_spec k 0).
    + destruct k as [|k|k]; try exact I; lia.
    + rewrite z_case by lia. destruct (k =? 80); [destruct (Z.ltb_spec 0 (page g)); lia|]. destruct (k =? 81); [destruct (Z.ltb_spec (page g) (pmax g)); lia|lia].
  - apply Inj in E1; subst g1. exact I.
  - apply Inj in E1; subst g1. cbn [pmax page]. generalize (v / 4096). intros w. destruct I as (I1 & I2 & I3 & I4). repeat split; auto; try lia.
  - apply Inj in E1; subst g1. cbn [pmax page]. generalize (v / 4096). intros w. destruct I as (I1 & I2 & I3 & I4). repeat split; auto; try lia.
Qed.

(** ** the pictures *)
Definition cell_in_picture (j : nat) : bool :=
  let a := 8 * (Z.of_nat j mod 32) in let b := 8 * (Z.of_nat j / 32) in
  match key_under a b with
  | None => true
  | Some k => existsb (fun q => let '(X, Y, w, h, k') := q in
      (k' =? k) && (X <=? a) && (a + 8 <=? X + w) && (Y <=? b) && ((b + 8 <=? Y + h) || ((101 <=? k) && (k <=? 105) && (b <=? 8) && (15 <=? Y + h)) || ((k =? 80) && (184 <=? b)))) keyboard_pos
  end.
Lemma cells_in_pictures : forallb cell_in_picture (seq 0 768) = true.
Proof. vm_compute. reflexivity. Qed.
Lemma picture x y k : 0 <= x < 256 -> 0 <= y < 192 -> key_under x y = Some k ->
  exists X Y w h, In (X, Y, w, h, k) keyboard_pos /\ X <= x < X + w /\ Y <= y /\ (y < Y + h \/ 101 <= k <= 105 /\ y = 15 \/ k = 80 /\ 184 <= y).
Proof.
  intros Hx Hy E. pose proof (proj1 (forallb_forall _ _) cells_in_pictures (Z.to_nat (x / 8 + 32 * (y / 8))) ltac:(apply in_seq; lia)) as C. unfold cell_in_picture in C. cbv zeta in C.
  replace (Z.of_nat (Z.to_nat (x / 8 + 32 * (y / 8)))) with (x / 8 + 32 * (y / 8)) in C by lia. replace ((x / 8 + 32 * (y / 8)) mod 32) with (x / 8) in C by lia. replace ((x / 8 + 32 * (y / 8)) / 32) with (y / 8) in C by lia.
  rewrite <- key_cell in C by assumption. rewrite E in C. apply existsb_exists in C as ([[[[X Y] w] h] k'] & In_ & C). exists X, Y, w, h. assert (k' = k) by lia. subst k'. split; [exact In_|]. split; [lia|]. split; [lia|]. 
  assert (Hb : 8 * (y / 8) <= y < 8 * (y / 8) + 8) by lia. destruct (8 * (y / 8) + 8 <=? Y + h) eqn:B1; [left; lia|]. destruct ((k =? 80) && (184 <=? 8 * (y / 8))) eqn:B2; [right; right; lia|]. destruct (Z.eq_dec y 15); [right; left; lia|left; lia].
Qed.

(** ** no key gives 176 *)
Definition not_176 (c : Z) : bool := negb (to_wide c =? to_wide 176).
Lemma no_176_legend m k : forallb not_176 (legend m k) = true.
Proof.
  assert (A : forallb (forallb (forallb (forallb not_176))) legends = true) by (vm_compute; reflexivity).
  assert (D : forall {A} (f : list A -> bool) n l, f [] = true -> forallb f l = true -> f (nth n l []) = true).
  { intros T f n l N F. destruct (nth_in_or_default n l []) as [I|E]; [|rewrite E; exact N]. rewrite forallb_forall in F. apply F, I. }
  assert (R : forall j n, forallb not_176 (nth n (nth j (nth (Z.to_nat m) legends []) []) []) = true).
  { intros j n. apply D; [reflexivity|]. apply D; [reflexivity|]. apply (D _ (forallb (forallb (forallb not_176)))); [reflexivity|exact A]. }
  unfold legend. cbv zeta. repeat match goal with |- context [if ?b then _ else _] => destruct b end; try apply R; vm_compute; reflexivity.
Qed.
Lemma no_176_out s k : (forall j, Forall (fun c => c <> to_wide 176) (keys s j)) -> Forall (fun c => c <> to_wide 176) (snd (type_key s k)) /\ keys (fst (type_key s k)) = keys s.
Proof.
  intros K. unfold type_key. repeat match goal with |- context [if ?b then _ else _] => destruct b end; try (split; [first [apply K|constructor]|reflexivity]).
  all: match goal with |- context [legend ?m ?x] => pose proof (no_176_legend m x) as L; destruct (legend m x) as [|c l]; [split; [constructor|reflexivity]|] end; split; [|reflexivity]; cbn [snd]; apply Forall_map; rewrite forallb_forall in L; apply Forall_forall; intros x Hx; specialize (L x Hx); unfold not_176 in L; lia.
Qed.
Lemma firstn_Forall {A} (P : A -> Prop) n : forall l, Forall P l -> Forall P (firstn n l).
Proof. induction n as [|n IH]; intros [|x l] F; try constructor; inversion F; subst; auto. Qed.
Lemma no_176_session l : forall h s q, (forall j, Forall (fun c => c <> to_wide 176) (keys s j)) -> Forall (fun c => c <> to_wide 176) q -> (forall n b, ~ In (Keytext n b) l) -> ~ In (Got (to_wide 176)) (expected h s q l).
Proof.
  induction l as [|e l IH]; intros h s q K Q N I; [exact I|]. assert (N' : forall n b, ~ In (Keytext n b) l) by (intros n b H; apply (N n b); right; exact H).
  assert (G : forall z, Got z = Got (to_wide 176) -> z = 65392) by (intros z H; injection H as ->; reflexivity).
  destruct e as [t| | | |t|n b]; cbn [expected] in I.
  - destruct (fired_now (t :: h)) as [k|]; [|exact (IH _ _ _ K Q N' I)]. destruct (no_176_out s k K) as [O E]. destruct (type_key s k) as [s' out]. cbn [fst snd] in O, E. apply in_app_or in I as [I|I]; [destruct (_ && _) in I; cbn [In] in I; intuition discriminate|].
    apply (IH _ _ _) in I; [exact I| |apply firstn_Forall, Forall_app; auto|exact N']. intros j. rewrite E. apply K.
  - destruct I as [I|I]; [|apply IH in I; [exact I|exact K| |exact N']; destruct Q; [constructor|assumption]]. destruct Q as [|x q Hx Q]; cbn [hd] in I; [apply G in I; discriminate|]. injection I as ->. apply Hx. reflexivity.
  - destruct I as [I|I]; [|exact (IH _ _ _ K Q N' I)]. apply G in I. destruct (fired_now h) as [k|]; [|discriminate]. destruct (k <=? 69); lia.
  - destruct I as [I|I]; [|exact (IH _ _ _ K Q N' I)]. apply G in I. destruct (fired_now h) as [k|]; [|discriminate]. destruct (_ && _); lia.
  - exact (IH h {| kind := t; shifted := shifted s; caps := caps s; keys := keys s |} q K Q N' I).
  - exfalso. apply (N n b). left. reflexivity.
Qed.
Lemma init_icons : exists p, init_panel = Ok p /\ (iconpuse p = 0 /\ iconpmax p = 0 /\ iconpage p = 0) /\ tracks p [] /\ seated p fresh /\ tracks_id p [] /\ icons_shown p (fun _ => false) /\
  (length (text (ptext p)) = 768 /\ length (color (ptext p)) = 768 /\ length (text (ktext p)) = 768 /\ length (color (ktext p)) = 768)%nat.
Proof.
  destruct init_seated as (p & E & U & T & S). exists p. split; [exact E|]. split; [exact U|]. split; [exact T|]. split; [exact S|]. split; [exact I|]. assert (P : p = match init_panel with Ok p => p | _ => start_panel end) by (rewrite E; reflexivity). clear E U T S. rewrite P. split; [|vm_compute; repeat split; reflexivity].
  split; [vm_compute; reflexivity|]. intros j J. assert (D : j = 0 \/ j = 1 \/ j = 2 \/ j = 3) by lia. destruct D as [->|[->|[->| ->]]]; eexists; vm_compute; reflexivity.
Qed.
Lemma which_type_ok s cs l : spells s cs -> Forall (fun q => ptc_text (fst q) /\ (length (fst q) <= 255)%nat) l ->
  which_type s l = match find (fun q => if list_eq_dec Z.eq_dec cs (fst q) then true else false) l with Some q => Ok (snd q) | None => Err ERR_INVALID_ARGUMENT_VALUE end.
Proof.
  intros S F. induction l as [|[n t] l IH]; [reflexivity|]. inversion F as [|? ? [P L] F']; subst. cbn [which_type find fst snd] in *. destruct (str_comp_spec s (SBc n) cs n S ltac:(split; [exact P|split; [reflexivity|exact L]])) as (r & -> & R). cbn [bind].
  destruct (list_eq_dec Z.eq_dec cs n) as [E|E]; [rewrite (proj2 R E); reflexivity|]. destruct r; [exfalso; apply E, R; reflexivity|]. apply IH, F'.
Qed.
