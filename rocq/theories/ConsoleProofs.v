From Verif Require Import Base BaseLemmas Strs StrProofs Console ConsoleSpec.
Open Scope Z_scope.
Ltac Zify.zify_post_hook ::= Z.div_mod_to_equations.

Definition R0 (c : console) (p : paper) : Prop :=
  Z.of_nat (length (cells p)) = 32 * lines p /\ 24 <= lines p /\
  text c = map fst (visible p) /\ color c = map snd (visible p) /\
  col c = colr p /\ tabstep c = tab p /\ 1 <= tab p <= 16 /\ 0 <= colr p < 256 /\
  pos p = top p + 32 * cy c + cx c /\ 0 <= cx c < 32 /\ 0 <= cy c <= 25.
Definition R (c : console) (p : paper) : Prop := R0 c p /\ (cy c < 24 \/ cy c = 24 /\ cx c = 0).

Lemma skipn_skipn' {A} m : forall n (l : list A), skipn n (skipn m l) = skipn (m + n) l.
Proof. induction m; intros n l; [reflexivity|]. destruct l; [destruct n; reflexivity|]. apply IHm. Qed.
Lemma map_repeat' {A B} (f : A -> B) x n : map f (repeat x n) = repeat (f x) n.
Proof. induction n; cbn; f_equal; auto. Qed.
Lemma visible_length p : Z.of_nat (length (cells p)) = 32 * lines p -> 24 <= lines p -> length (visible p) = 768%nat.
Proof. intros A B. unfold visible, top. rewrite skipn_length. lia. Qed.

Lemma lines_app p k : lines {| cells := cells p ++ repeat k 32; pos := pos p; colr := colr p; tab := tab p |} = lines p + 1.
Proof. unfold lines. cbn [cells]. rewrite app_length, repeat_length. lia. Qed.

Lemma scroll_once_R c p : R0 c p -> 24 <= cy c ->
  R0 (scroll_once c) {| cells := cells p ++ repeat (0, colr p) 32; pos := pos p; colr := colr p; tab := tab p |}.
Proof.
  intros (A & B & T & C & Co & Tb & Tr & Cr & P & X & Y) G.
  unfold R0, scroll_once. cbn [cells pos colr tab cx cy tabstep sys_tabstep col text color].
  rewrite lines_app. rewrite app_length, repeat_length.
  assert (V : visible {| cells := cells p ++ repeat (0, colr p) 32; pos := pos p; colr := colr p; tab := tab p |}
              = skipn 32 (visible p) ++ repeat (0, colr p) 32).
  { unfold visible, top. rewrite lines_app. cbn [cells]. rewrite skipn_app.
    replace (Z.to_nat (32 * (lines p + 1 - 24)) - length (cells p))%nat with 0%nat by lia. rewrite skipn_O. f_equal.
    rewrite skipn_skipn'. f_equal. lia. }
  rewrite V. rewrite !map_app, T, C, !skipn_map, !map_repeat', Co. cbn [fst snd].
  unfold top in *. rewrite lines_app. repeat split; auto; lia.
Qed.
Lemma scroll_loop_R k : forall c p, R0 c p -> Z.to_nat (cy c - 23) = k -> forall fuel, (k <= fuel)%nat ->
  R0 (scroll_loop fuel c) {| cells := grow k (cells p) (colr p); pos := pos p; colr := colr p; tab := tab p |} /\
  cy (scroll_loop fuel c) < 24 /\ cx (scroll_loop fuel c) = cx c /\ (cy c < 24 -> scroll_loop fuel c = c).
Proof.
  induction k as [|k IH]; intros c p Rc K fuel F.
  - assert (cy c < 24) by lia. assert (E : scroll_loop fuel c = c).
    { destruct fuel; [reflexivity|]. cbn [scroll_loop]. unfold CH. replace (cy c >=? 24) with false by lia. reflexivity. }
    rewrite E. cbn [grow]. destruct p. cbn in *. auto.
  - destruct fuel as [|fuel]; [lia|]. cbn [scroll_loop]. unfold CH. replace (cy c >=? 24) with true by lia.
    pose proof (scroll_once_R c p Rc ltac:(lia)) as R1.
    destruct (IH _ _ R1) with (fuel := fuel) as (Q1 & Q2 & Q3 & _); [cbn [scroll_once cy]; lia|lia|].
    cbn [cells pos colr tab] in Q1. cbn [grow]. repeat split; auto; try lia. all: apply Q1.
Qed.
Lemma con_scroll_R c p : R0 c p -> R (con_scroll c) (need p) /\ cy (con_scroll c) < 24 /\ (cy c < 24 -> con_scroll c = c /\ need p = p).
Proof.
  intros Rc. destruct (scroll_loop_R (Z.to_nat (cy c - 23)) c p Rc eq_refl (Z.to_nat (cy c)) ltac:(lia)) as (Q1 & Q2 & Q3 & Q4).
  destruct Rc as (A & B & T & C & Co & Tb & Tr & Cr & P & X & Y).
  assert (N : Z.to_nat (pos p / 32 + 1 - lines p) = Z.to_nat (cy c - 23)) by (unfold top in P; lia).
  unfold need. rewrite N. fold (con_scroll c) in *. split; [split; [exact Q1|left; exact Q2]|]. split; [exact Q2|].
  intros G. split; [apply Q4; exact G|]. replace (Z.to_nat (cy c - 23)) with 0%nat by lia. destruct p. reflexivity.
Qed.

Lemma visible_upd p n v : top p <= n < Z.of_nat (length (cells p)) -> 0 <= top p ->
  visible {| cells := upd (cells p) (Z.to_nat n) v; pos := pos p; colr := colr p; tab := tab p |} = upd (visible p) (Z.to_nat (n - top p)) v.
Proof.
  intros N T0. unfold visible, top, lines. cbn [cells]. rewrite upd_length. fold (lines p). fold (top p).
  rewrite <- (firstn_skipn (Z.to_nat (top p)) (cells p)) at 1. rewrite upd_app_r by (rewrite firstn_length; lia).
  rewrite skipn_app. rewrite firstn_length. rewrite skipn_all2 by (rewrite firstn_length; lia).
  replace (Z.to_nat (top p) - Nat.min (Z.to_nat (top p)) (length (cells p)))%nat with 0%nat by lia. cbn [app skipn]. f_equal. lia.
Qed.
Lemma map_upd {A B} (f : A -> B) l i v : map f (upd l i v) = upd (map f l) i (f v).
Proof. revert i; induction l; intros [|i]; cbn; f_equal; auto. Qed.

Lemma con_put_R c p w : R0 c p -> cy c < 24 -> exists c', con_put c w = Ok c' /\ R c' (put p w).
Proof.
  intros Rc G. destruct (con_scroll_R c p Rc) as (_ & _ & N). destruct (N G) as [_ N']. unfold put. rewrite N'.
  destruct Rc as (A & B & T & C & Co & Tb & Tr & Cr & P & X & Y). unfold con_put, CW, CH.
  replace ((cx c <? 32) && (cy c <? 24)) with true by lia. eexists. split; [reflexivity|].
  set (p1 := {| cells := upd (cells p) (Z.to_nat (pos p)) (w, colr p); pos := pos p + 1; colr := colr p; tab := tab p |}).
  assert (L1 : lines p1 = lines p) by (unfold lines, p1; cbn [cells]; rewrite upd_length; reflexivity).
  assert (Tp : top p1 = top p) by (unfold top; rewrite L1; reflexivity).
  assert (V : visible p1 = upd (visible p) (Z.to_nat (cy c * 32 + cx c)) (w, colr p)).
  { replace (cy c * 32 + cx c) with (pos p - top p) by lia.
    rewrite <- (visible_upd p (pos p) (w, colr p)) by (unfold top in *; lia). reflexivity. }
  assert (Base : forall y, 0 <= y <= 25 -> forall x, 0 <= x < 32 -> pos p + 1 = top p + 32 * y + x -> forall st,
    R0 {| cx := x; cy := y; tabstep := tabstep c; sys_tabstep := st; col := col c;
          text := upd (text c) (Z.to_nat (cy c * 32 + cx c)) w; color := upd (color c) (Z.to_nat (cy c * 32 + cx c)) (col c) |} p1).
  { intros y Hy x Hx E st. unfold R0. cbn [cx cy tabstep sys_tabstep col text color]. rewrite L1, Tp, V, !map_upd. cbn [fst snd].
    unfold p1. cbn [cells pos colr tab]. rewrite upd_length, T, C, Co. repeat split; auto; lia. }
  cbn [cx]. assert (U : u8 (cx c + 1) = cx c + 1) by (unfold u8; change (2 ^ 8) with 256; lia). rewrite U.
  destruct (cx c + 1 >=? 32) eqn:E.
  - unfold con_newline, set_cursor. cbn [cx cy tabstep sys_tabstep col text color].
    assert (U2 : u8 (cy c + 1) = cy c + 1) by (unfold u8; change (2 ^ 8) with 256; lia). rewrite U2.
    split; [|cbn [cx cy]; lia]. apply Base; lia.
  - split; [|cbn [cx cy]; lia]. apply Base; lia.
Qed.

(** before every put the code has scrolled if needed *)
Lemma grow_len k : forall l c, length (grow k l c) = (length l + 32 * k)%nat.
Proof. induction k; intros l c; cbn [grow]; [lia|]. rewrite IHk, app_length, repeat_length. lia. Qed.
Lemma need_need p : need (need p) = need p.
Proof.
  unfold need at 1. change (pos (need p)) with (pos p). change (colr (need p)) with (colr p). change (tab (need p)) with (tab p).
  assert (E : Z.to_nat (pos p / 32 + 1 - lines (need p)) = 0%nat).
  { unfold lines, need. cbn [cells]. rewrite grow_len. unfold lines. lia. }
  rewrite E. reflexivity.
Qed.
Lemma put_need p w : put (need p) w = put p w.
Proof. unfold put. rewrite need_need. reflexivity. Qed.
Lemma con_puts_loop_R ws : forall c p, R0 c p -> cy c < 24 -> (ws <> [] \/ True) -> exists c', con_puts_loop c ws = Ok c' /\ R c' (puts p ws).
Proof.
  induction ws as [|w t IH]; intros c p Rc G _.
  - exists c. split; [reflexivity|]. split; [exact Rc|left; exact G].
  - cbn [con_puts_loop puts]. destruct (con_put_R c p w Rc G) as (c1 & -> & R1 & Y1). cbn [bind].
    destruct t as [|w2 t].
    + exists c1. split; [reflexivity|]. split; assumption.
    + unfold CH. destruct (cy c1 =? 24) eqn:E.
      * destruct (con_scroll_R c1 _ R1) as ((R2 & _) & Y2 & _).
        destruct (IH _ _ R2 Y2) as (c' & E' & R'); [auto|]. exists c'. split; [exact E'|].
        cbn [puts] in *. rewrite put_need in R'. exact R'.
      * apply IH; [exact R1|lia|auto].
Qed.
Lemma con_puts_R c p ws : R c p -> exists c', con_puts c ws = Ok c' /\ R c' (puts (need p) ws).
Proof.
  intros [Rc Y]. unfold con_puts, CH. destruct (con_scroll_R c p Rc) as ((R2 & _) & Y2 & N).
  destruct (cy c >=? 24) eqn:E.
  - apply con_puts_loop_R; auto.
  - destruct (N ltac:(lia)) as [_ ->]. apply con_puts_loop_R; auto. lia.
Qed.

Lemma tab_loop_R n : forall fuel c p, R0 c p -> cy c < 24 -> Z.to_nat (tab_width p) = S n -> (n <= fuel)%nat ->
  exists c', tab_loop fuel c = Ok c' /\ R c' (puts p (repeat 32 (S n))).
Proof.
  induction n as [|n IH]; intros fuel c p Rc G Wd F; cbn [repeat puts];
    destruct (con_put_R c p (to_wide 32) Rc G) as (c1 & E1 & R1 & Y1); change (to_wide 32) with 32 in *;
    pose proof Rc as (A & B & T & C & Co & Tb & Tr & Cr & P & X & Y);
    pose proof R1 as (A1 & B1 & T1 & C1 & Co1 & Tb1 & Tr1 & Cr1 & P1 & X1 & Y1');
    assert (P2 : pos (put p 32) = pos p + 1) by reflexivity;
    assert (T2 : tab (put p 32) = tab p) by reflexivity;
    assert (X2 : cx c1 = (pos p + 1) mod 32) by (rewrite <- P2, P1; unfold top; lia);
    assert (Px : pos p mod 32 = cx c) by (rewrite P; unfold top; lia);
    unfold tab_width in Wd; rewrite Px in Wd.
  - assert (M : (cx c1) mod tabstep c1 = 0).
    { rewrite X2, Tb1, T2. destruct (Z.eq_dec (cx c) 31) as [E|E].
      - replace ((pos p + 1) mod 32) with 0 by lia. apply Z.mod_0_l. lia.
      - replace ((pos p + 1) mod 32) with (cx c + 1) by lia.
        assert (tab p - cx c mod tab p = 1) by lia.
        pose proof (Z.div_mod (cx c) (tab p) ltac:(lia)).
        replace (cx c + 1) with ((cx c / tab p + 1) * tab p) by lia. apply Z.mod_mul. lia. }
    destruct fuel; cbn [tab_loop]; change (to_wide 32) with 32; rewrite E1; cbn [bind]; replace (tabstep c1 =? 0) with false by lia;
      rewrite Z.rem_mod_nonneg by lia; rewrite M; cbn [Z.eqb]; exists c1; (split; [reflexivity|split; [exact R1|exact Y1]]).
  - destruct fuel as [|fuel]; [lia|]. cbn [tab_loop]. change (to_wide 32) with 32. rewrite E1. cbn [bind]. replace (tabstep c1 =? 0) with false by lia.
    rewrite Z.rem_mod_nonneg by lia.
    assert (Cn : cx c1 = cx c + 1) by (rewrite X2; lia).
    assert (Mx : 0 <= cx c mod tab p < tab p) by (apply Z.mod_pos_bound; lia).
    assert (M : (cx c + 1) mod tab p = cx c mod tab p + 1).
    { pose proof (Z.div_mod (cx c) (tab p) ltac:(lia)). symmetry. apply Z.mod_unique with (cx c / tab p); [left; lia|lia]. }
    rewrite Cn, Tb1, T2, M. replace (cx c mod tab p + 1 =? 0) with false by lia.
    apply IH; [exact R1|lia| |lia].
    unfold tab_width. rewrite P2, T2. replace ((pos p + 1) mod 32) with (cx c + 1) by lia. rewrite M. lia.
Qed.
Lemma print_item_R c p i : R c p -> exists c', print_item c i = Ok c' /\ R c' (print1 p i).
Proof.
  intros Rc. destruct i as [ws| |].
  - apply con_puts_R. exact Rc.
  - cbn [print_item print1]. destruct Rc as [R0c Yc]. unfold CH.
    destruct (con_scroll_R c p R0c) as ((R2 & _) & Y2 & N).
    set (c0 := if (cx c =? 0) && (cy c =? 24) then con_scroll c else c).
    assert (Rn : R0 c0 (need p) /\ cy c0 < 24).
    { unfold c0. destruct ((cx c =? 0) && (cy c =? 24)) eqn:E; [split; [exact R2|exact Y2]|].
      destruct (N ltac:(lia)) as [_ ->]. split; [exact R0c|lia]. }
    destruct Rn as [Rn Yn].
    pose proof Rn as (_ & _ & _ & _ & _ & _ & Tr & _ & P & X & _). change (tab (need p)) with (tab p) in *. change (pos (need p)) with (pos p) in *.
    assert (TW : exists n, Z.to_nat (tab_width p) = S n /\ (n <= 40)%nat).
    { unfold tab_width. pose proof (Z.mod_pos_bound (pos p mod 32) (tab p) ltac:(lia)). pose proof (Z.mod_pos_bound (pos p) 32 ltac:(lia)).
      exists (Z.to_nat (Z.min (tab p - (pos p mod 32) mod tab p) (32 - pos p mod 32) - 1)). lia. }
    destruct TW as (n & TW & Ln). rewrite TW.
    destruct (tab_loop_R n 40 c0 (need p) Rn Yn) as (c' & E' & R'); [exact TW|exact Ln|].
    exists c'. split; [exact E'|]. cbn [repeat puts] in *. rewrite put_need in R'. exact R'.
  - exists c. split; [reflexivity|exact Rc].
Qed.
Lemma con_newline_R c p : R c p -> R (con_newline c true) (newline p).
Proof.
  intros [Rc Yc]. unfold con_newline, newline.
  assert (Q : R0 (set_cursor c 0 (u8 (cy c + 1))) (with_pos p (32 * (pos p / 32 + 1)))).
  { destruct Rc as (A & B & T & C & Co & Tb & Tr & Cr & P & X & Y).
    assert (U : u8 (cy c + 1) = cy c + 1) by (unfold u8; change (2 ^ 8) with 256; lia). rewrite U.
    unfold R0, set_cursor, with_pos, visible, top, lines in *. cbn [cells pos colr tab cx cy tabstep sys_tabstep col text color].
    repeat split; auto; try lia. }
  destruct (con_scroll_R _ _ Q) as (Q2 & _). exact Q2.
Qed.
Lemma print_R l c p : R c p -> exists c', cmd_print c l = Ok c' /\ R c' (print p l).
Proof.
  intros Rc. assert (G : forall l c p, R c p -> exists c', print_items c l = Ok c' /\ R c' (fold_left print1 l p)).
  { induction l0 as [|i t IH]; intros c0 p0 R1; [exists c0; split; [reflexivity|exact R1]|].
    cbn [print_items fold_left]. destruct (print_item_R c0 p0 i R1) as (c1 & -> & R2). cbn [bind]. apply IH. exact R2. }
  destruct (G l c p Rc) as (c1 & E & R1). unfold cmd_print, print. rewrite E. cbn [bind]. eexists. split; [reflexivity|].
  destruct (last l (Text [])); try exact R1. apply con_newline_R. exact R1.
Qed.

Lemma lor_mod_256 a b : Z.lor (a mod 256) (b mod 256) mod 256 = Z.lor a b mod 256.
Proof.
  change 256 with (2 ^ 8). apply Z.bits_inj'. intros n Hn. destruct (Z_lt_ge_dec n 8).
  - rewrite !Z.mod_pow2_bits_low by lia. rewrite !Z.lor_spec, !Z.mod_pow2_bits_low by lia. reflexivity.
  - rewrite !Z.mod_pow2_bits_high by lia. reflexivity.
Qed.
Lemma land_240 c : 0 <= c < 256 -> Z.land c 240 = c / 16 * 16.
Proof.
  intros Hc. change 16 with (2 ^ 4). apply Z.bits_inj'. intros n Hn. rewrite Z.land_spec, Z.mul_pow2_bits by lia.
  destruct (Z_lt_ge_dec n 4).
  - rewrite (Z.testbit_neg_r _ (n - 4)) by lia. assert (n = 0 \/ n = 1 \/ n = 2 \/ n = 3) as [->|[->|[->| ->]]] by lia; apply andb_false_r.
  - rewrite Z.div_pow2_bits by lia. replace (n - 4 + 4) with n by lia. destruct (Z_lt_ge_dec n 8).
    + assert (n = 4 \/ n = 5 \/ n = 6 \/ n = 7) as [->|[->|[->| ->]]] by lia; apply andb_true_r.
    + rewrite <- (Z.mod_small c (2 ^ 8)) by (change (2 ^ 8) with 256; lia). rewrite Z.mod_pow2_bits_high by lia. reflexivity.
Qed.

Lemma step_R o c p : R c p -> exists c', step c o = Ok c' /\ R c' (page_step p o).
Proof.
  intros Rc. destruct o as [l|x y| |fg [bg|]|v]; cbn [step page_step].
  - apply print_R. exact Rc.
  - eexists. split; [reflexivity|]. unfold cmd_locate, CW, CH.
    replace ((x >=? 0) && (y >=? 0) && (x <? 32) && (y <? 24)) with ((0 <=? x) && (x <? 32) && (0 <=? y) && (y <? 24)) by lia.
    destruct ((0 <=? x) && (x <? 32) && (0 <=? y) && (y <? 24)) eqn:E; [|exact Rc].
    destruct Rc as [(A & B & T & C & Co & Tb & Tr & Cr & P & X & Y) _].
    split; [|cbn [set_cursor cx cy]; lia]. unfold R0, set_cursor, with_pos, visible, top, lines in *. cbn [cells pos colr tab cx cy tabstep sys_tabstep col text color].
    repeat split; auto; lia.
  - eexists. split; [reflexivity|]. destruct Rc as [(A & B & T & C & Co & Tb & Tr & Cr & P & X & Y) _].
    split; [|cbn [cmd_cls cx cy]; lia]. unfold R0, cmd_cls. cbn [cells pos colr tab cx cy tabstep sys_tabstep col text color].
    assert (L : lines {| cells := repeat (0, colr p) 768; pos := 0; colr := colr p; tab := tab p |} = 24) by (unfold lines; cbn [cells]; rewrite repeat_length; reflexivity).
    rewrite L. unfold visible, top. rewrite L. rewrite repeat_length. change (Z.to_nat (32 * (24 - 24))) with 0%nat.
    change (skipn 0 ?l) with l. cbn [cells]. rewrite !map_repeat'. cbn [fst snd]. rewrite Co. repeat split; auto; lia.
  - eexists. split; [reflexivity|]. destruct Rc as [(A & B & T & C & Co & Tb & Tr & Cr & P & X & Y) Q]. split; [|exact Q].
    unfold R0, cmd_color, visible, top, lines in *. cbn [cells pos colr tab cx cy tabstep sys_tabstep col text color].
    unfold u8. change (2 ^ 8) with 256. rewrite lor_mod_256. repeat split; auto; lia.
  - eexists. split; [reflexivity|]. destruct Rc as [(A & B & T & C & Co & Tb & Tr & Cr & P & X & Y) Q]. split; [|exact Q].
    unfold R0, cmd_color, visible, top, lines in *. cbn [cells pos colr tab cx cy tabstep sys_tabstep col text color].
    unfold u8. change (2 ^ 8) with 256. rewrite Co, land_240 by lia. repeat split; auto; lia.
  - eexists. split; [reflexivity|]. destruct Rc as [(A & B & T & C & Co & Tb & Tr & Cr & P & X & Y) Q]. split; [|exact Q].
    unfold R0, set_tabstep, FP_TO_INT, visible, top, lines in *. cbn [cells pos colr tab cx cy tabstep sys_tabstep col text color].
    repeat split; auto; try lia. destruct (v / 4096 <? 1) eqn:E1, (_ >? 16) eqn:E2; lia.
Qed.
Lemma R_init : R init_console blank.
Proof.
  split; [|left; cbn; lia]. unfold R0. assert (L : lines blank = 24) by reflexivity. unfold visible, top. rewrite L.
  repeat split; try (vm_compute; reflexivity); try (vm_compute; intro; discriminate).
Qed.
Lemma run_R l : forall c p, R c p -> exists c', run c l = Ok c' /\ R c' (fold_left page_step l p).
Proof.
  induction l as [|o t IH]; intros c p Rc; [exists c; split; [reflexivity|exact Rc]|].
  cbn [run fold_left]. destruct (step_R o c p Rc) as (c1 & -> & R1). cbn [bind]. apply IH. exact R1.
Qed.
Lemma console_refines l : exists c, run init_console l = Ok c /\
  0 <= cx c < 32 /\ (0 <= cy c < 24 \/ cy c = 24 /\ cx c = 0) /\
  text c = map fst (visible (page_run l)) /\ color c = map snd (visible (page_run l)) /\ length (text c) = 768%nat /\
  pos (page_run l) = top (page_run l) + 32 * cy c + cx c.
Proof.
  destruct (run_R l _ _ R_init) as (c & E & (A & B & T & C & Co & Tb & Tr & Cr & P & X & Y) & Q). fold (page_run l) in *.
  exists c. split; [exact E|]. split; [lia|]. split; [lia|]. split; [exact T|]. split; [exact C|].
  split; [rewrite T, map_length; apply visible_length; assumption|exact P].
Qed.
Lemma put_fields p w : pos (put p w) = pos p + 1.
Proof. reflexivity. Qed.

(** what printing does to the page: the text is at consecutive positions, the rest is unchanged *)
Lemma grow_nth k : forall l c n d, (n < length l)%nat -> nth n (grow k l c) d = nth n l d.
Proof. induction k; intros l c n d Hn; cbn [grow]; [reflexivity|]. rewrite IHk by (rewrite app_length; lia). apply app_nth1. exact Hn. Qed.
Lemma grow_length k : forall l c, length (grow k l c) = (length l + 32 * k)%nat.
Proof. induction k; intros l c; cbn [grow]; [lia|]. rewrite IHk, app_length, repeat_length. lia. Qed.
Lemma need_length p : 0 <= pos p -> Z.of_nat (length (cells p)) = 32 * lines p -> pos p < Z.of_nat (length (cells (need p))) /\ Z.of_nat (length (cells (need p))) = 32 * lines (need p) /\ (length (cells p) <= length (cells (need p)))%nat.
Proof. intros P A. unfold need, lines. cbn [cells]. rewrite grow_length. unfold lines in *. lia. Qed.
Lemma puts_layout ws : forall p, 0 <= pos p -> Z.of_nat (length (cells p)) = 32 * lines p ->
  pos (puts p ws) = pos p + Z.of_nat (length ws) /\ colr (puts p ws) = colr p /\ (length (cells p) <= length (cells (puts p ws)))%nat /\
  forall n d, (n < length (cells p))%nat \/ pos p <= Z.of_nat n < pos p + Z.of_nat (length ws) ->
    nth n (cells (puts p ws)) d = if (pos p <=? Z.of_nat n) && (Z.of_nat n <? pos p + Z.of_nat (length ws))
                                  then (nth (n - Z.to_nat (pos p)) ws 0, colr p) else nth n (cells p) d.
Proof.
  induction ws as [|w t IH]; intros p P A.
  - cbn [puts length]. repeat split; try lia. intros n d Hn. replace (_ && _) with false by lia. reflexivity.
  - cbn [puts length]. destruct (need_length p P A) as (N1 & N2 & N3).
    assert (A' : Z.of_nat (length (cells (put p w))) = 32 * lines (put p w)) by (unfold put, lines; cbn [cells]; rewrite upd_length; exact N2).
    assert (L' : length (cells (put p w)) = length (cells (need p))) by (unfold put; cbn [cells]; apply upd_length).
    destruct (IH (put p w) ltac:(rewrite put_fields; lia) A') as (I1 & I2 & I3 & I4). rewrite put_fields in *.
    split; [lia|]. split; [rewrite I2; reflexivity|]. split; [lia|].
    intros n d Hn. change (colr (put p w)) with (colr p) in I4.
    rewrite I4 by (destruct Hn; lia).
    destruct ((pos p + 1 <=? Z.of_nat n) && (Z.of_nat n <? pos p + 1 + Z.of_nat (length t))) eqn:E.
    + replace (_ && _) with true by lia. f_equal. replace (n - Z.to_nat (pos p))%nat with (S (n - Z.to_nat (pos p + 1))) by lia. reflexivity.
    + unfold put. cbn [cells]. destruct (Z.eq_dec (Z.of_nat n) (pos p)) as [En|En].
      * replace (_ && _) with true by lia. replace n with (Z.to_nat (pos p)) by lia. rewrite Nat.sub_diag. rewrite nth_upd_same by (cbn [pos need] in *; lia). reflexivity.
      * replace (_ && _) with false by lia. rewrite nth_upd_other by (cbn [pos need]; lia). apply grow_nth. lia.
Qed.
