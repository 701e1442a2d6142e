(** C29: GLINE. *)
From Verif Require Import Base BaseLemmas Memory Graphics GraphicsSpec GraphicsProofs GraphicsProps.
Ltac Zify.zify_post_hook ::= Z.div_mod_to_equations.
Open Scope Z_scope.

Lemma slope_bounds d n : 0 < n <= 1048576 -> 4096 * d - n + 1 <= slope d n * n <= 4096 * d.
Proof.
  intros Hn. unfold slope. change (2 ^ 32) with 4294967296. change (2 ^ 20) with 1048576.
  assert (Q := Z.quot_rem' (d * 4294967296) n). assert (R := Z.rem_bound_abs (d * 4294967296) n ltac:(lia)).
  set (q := Z.quot (d * 4294967296) n) in *. set (r := Z.rem (d * 4294967296) n) in *. clearbody q r.
  assert (F := Z.div_mod q 1048576 ltac:(lia)). assert (M := Z.mod_pos_bound q 1048576 ltac:(lia)).
  set (s := q / 1048576) in *. set (m := q mod 1048576) in *. clearbody s m.
  assert (E : 1048576 * (s * n) = 4294967296 * d - r - n * m) by nia.
  assert (N1 : 0 <= n * m) by nia. assert (N2 : n * m <= n * 1048575) by nia.
  lia.
Qed.
Lemma slope_swap d n : n <> 0 -> slope (- d) (- n) = slope d n.
Proof.
  intros N. unfold slope. replace (- d * 2 ^ 32) with (- (d * 2 ^ 32)) by ring. rewrite Z.quot_opp_opp by exact N. reflexivity.
Qed.
Lemma slope_range d n : 0 < n <= 1048576 -> Z.abs d <= n -> -4096 <= slope d n <= 4096.
Proof. intros Hn Hd. assert (B := slope_bounds d n Hn). set (s := slope d n) in *. clearbody s. split; nia. Qed.
(** the points of a line wider than high, left to right *)
Definition run (d n : Z) (a b : Z) (x : Z) : Z := minor (slope d n) (x - a) + b.
Lemma run_start d n a b : run d n a b a = b.
Proof. unfold run, minor, FP_TO_INT. rewrite Z.sub_diag, Z.mul_0_r. reflexivity. Qed.
Lemma run_end d n a b : 0 < n <= 2049 -> run d n a b (a + n) = b + d.
Proof.
  intros Hn. unfold run, minor, FP_TO_INT. replace (a + n - a) with n by ring. assert (B := slope_bounds d n ltac:(lia)).
  set (s := slope d n * n) in *. clearbody s. lia.
Qed.
Lemma run_step d n a b x : 0 < n <= 1048576 -> Z.abs d <= n -> Z.abs (run d n a b (x + 1) - run d n a b x) <= 1.
Proof.
  intros Hn Hd. assert (R := slope_range d n Hn Hd). unfold run, minor, FP_TO_INT. set (s := slope d n) in *. clearbody s.
  replace (s * (x + 1 - a) + 2048) with (s * (x - a) + 2048 + s) by ring. set (w := s * (x - a) + 2048). clearbody w. lia.
Qed.
Lemma run_near d n a b x : 0 < n <= 2049 -> a <= x <= a + n -> - n < n * (run d n a b x - b) - d * (x - a) /\ 2 * (n * (run d n a b x - b) - d * (x - a)) <= n.
Proof.
  intros Hn Hx. unfold run, minor, FP_TO_INT. assert (B := slope_bounds d n ltac:(lia)). set (s := slope d n) in *. clearbody s.
  set (k := x - a) in *. assert (Hk : 0 <= k <= n) by (unfold k; lia). clearbody k.
  set (m := (s * k + 2048) / 4096). assert (M : 4096 * m <= s * k + 2048 < 4096 * m + 4096) by (unfold m; lia). clearbody m.
  replace (m + b - b) with m by ring.
  assert (L1 : n * (4096 * m) <= n * (s * k + 2048)) by nia. assert (L2 : n * (s * k + 2048) < n * (4096 * m + 4096)) by nia.
  assert (S1 : s * n * k <= 4096 * d * k) by nia. assert (S2 : (4096 * d - n + 1) * k <= s * n * k) by nia.
  assert (T : (n - 1) * k <= 2048 * n) by nia. split; [|nia].
  assert (n * (s * k + 2048) <= n * (4096 * m + 4095)) by nia. nia.
Qed.
Lemma run_in_int d n k : 0 < n < 524288 -> Z.abs d <= n -> 0 <= k <= n -> s32b (slope d n * k + 2048) = true.
Proof.
  intros Hn Hd Hk. assert (R := slope_range d n ltac:(lia) Hd). assert (B := slope_bounds d n ltac:(lia)). set (s := slope d n) in *. clearbody s. unfold s32b, INT_MIN, INT_MAX.
  assert (s * k <= 4096 * 524287) by nia. assert (-4096 * 524287 <= s * k) by nia. lia.
Qed.
(** a list of consecutive positions makes a path *)
Lemma zrange_cons a b : a <= b -> zrange a b = a :: zrange (a + 1) b.
Proof.
  intros H. unfold zrange. replace (Z.to_nat (b - a + 1)) with (S (Z.to_nat (b - (a + 1) + 1))) by lia. cbn [seq map]. f_equal; [lia|].
  rewrite <- seq_shift, map_map. apply map_ext. intros k. lia.
Qed.
Lemma path_run (step : Z * Z -> Z * Z -> Prop) (f : Z -> Z * Z) : forall n a, (forall x, step (f x) (f (x + 1))) ->
  path step (f a) (map f (zrange a (a + Z.of_nat n))) (f (a + Z.of_nat n)).
Proof.
  induction n as [|n IH]; intros a H.
  - rewrite Z.add_0_r. rewrite zrange_cons by lia. cbn [map]. unfold zrange at 1. replace (Z.to_nat (a - (a + 1) + 1)) with 0%nat by lia. apply path_one.
  - rewrite zrange_cons by lia. cbn [map]. apply path_more with (q := f (a + 1)); [apply H|].
    replace (a + Z.of_nat (S n)) with (a + 1 + Z.of_nat n) by lia. apply IH, H.
Qed.
(** line_points, in both directions *)
Lemma wide_line x1 y1 x2 y2 : x1 < x2 -> x2 - x1 < 524288 -> Z.abs (y2 - y1) <= x2 - x1 ->
  line_points x1 y1 x2 y2 = Ok (map (fun x => (x, run (y2 - y1) (x2 - x1) x1 y1 x)) (zrange x1 x2)) /\
  line_points x2 y2 x1 y1 = line_points x1 y1 x2 y2.
Proof.
  intros H L D. assert (I := run_in_int (y2 - y1) (x2 - x1) (x2 - x1) ltac:(lia) D ltac:(lia)).
  assert (A : line_points x1 y1 x2 y2 = Ok (map (fun x => (x, run (y2 - y1) (x2 - x1) x1 y1 x)) (zrange x1 x2))).
  { unfold line_points. replace (Z.abs (x2 - x1) >=? Z.abs (y2 - y1)) with true by lia. replace ((x1 =? x2) && (y1 =? y2)) with false by lia.
    replace (x1 >? x2) with false by lia. rewrite I. reflexivity. }
  split; [exact A|]. rewrite A. unfold line_points. replace (Z.abs (x1 - x2) >=? Z.abs (y1 - y2)) with true by lia. replace ((x2 =? x1) && (y2 =? y1)) with false by lia.
  replace (x2 >? x1) with true by lia. replace (y1 - y2) with (- (y2 - y1)) by ring. replace (x1 - x2) with (- (x2 - x1)) by ring. rewrite slope_swap by lia. rewrite I. reflexivity.
Qed.
Lemma high_line x1 y1 x2 y2 : y1 < y2 -> y2 - y1 < 524288 -> Z.abs (x2 - x1) < y2 - y1 ->
  line_points x1 y1 x2 y2 = Ok (map (fun y => (run (x2 - x1) (y2 - y1) y1 x1 y, y)) (zrange y1 y2)) /\
  line_points x2 y2 x1 y1 = line_points x1 y1 x2 y2.
Proof.
  intros H L D. assert (I := run_in_int (x2 - x1) (y2 - y1) (y2 - y1) ltac:(lia) ltac:(lia) ltac:(lia)).
  assert (A : line_points x1 y1 x2 y2 = Ok (map (fun y => (run (x2 - x1) (y2 - y1) y1 x1 y, y)) (zrange y1 y2))).
  { unfold line_points. replace (Z.abs (x2 - x1) >=? Z.abs (y2 - y1)) with false by lia.
    replace (y1 >? y2) with false by lia. rewrite I. reflexivity. }
  split; [exact A|]. rewrite A. unfold line_points. replace (Z.abs (x1 - x2) >=? Z.abs (y1 - y2)) with false by lia.
  replace (y2 >? y1) with true by lia. replace (y1 - y2) with (- (y2 - y1)) by ring. replace (x1 - x2) with (- (x2 - x1)) by ring. rewrite slope_swap by lia. rewrite I. reflexivity.
Qed.
Lemma gline_pts g x1 y1 x2 y2 c k pts : well g -> colour_arg g c k -> 0 <= k <= 255 -> NoDup pts ->
  line_points (whole x1) (whole y1) (whole x2) (whole y2) = Ok pts ->
  exists h, cmd_gline g x1 y1 x2 y2 c = (h, Done) /\ drawn g h k (fun x y => In (x, y) pts).
Proof.
  intros W C K N E. unfold cmd_gline. rewrite (with_color_ok g c k _ W C K).
  change (FP_TO_INT x1) with (whole x1). change (FP_TO_INT x2) with (whole x2). change (FP_TO_INT y1) with (whole y1). change (FP_TO_INT y2) with (whole y2).
  rewrite E. eexists. split; [reflexivity|]. apply drawn_plot; [assumption..|left; exact N].
Qed.
Lemma path_wide a b c d : a < c -> c - a <= 2049 -> Z.abs (d - b) <= c - a ->
  let pts := map (fun x => (x, run (d - b) (c - a) a b x)) (zrange a c) in
  NoDup pts /\ path step_right (a, b) pts (c, d) /\ (forall x y, In (x, y) pts -> Z.abs ((x - a) * (d - b) - (y - b) * (c - a)) <= c - a).
Proof.
  intros H L D pts. split; [|split].
  - apply FinFun.Injective_map_NoDup; [intros i j E; injection E; trivial|apply nodup_zrange].
  - assert (P := path_run step_right (fun x => (x, run (d - b) (c - a) a b x)) (Z.to_nat (c - a)) a).
    replace (a + Z.of_nat (Z.to_nat (c - a))) with c in P by lia. fold pts in P. cbv beta in P.
    rewrite run_start in P. replace (run (d - b) (c - a) a b c) with d in P.
    2:{ replace c with (a + (c - a)) at 2 by ring. rewrite run_end by lia. ring. }
    apply P. intros x. split; cbn [fst snd]; [reflexivity|]. apply run_step; lia.
  - intros x y I. apply in_map_iff in I. destruct I as (x' & E & I). apply in_zrange in I. injection E as <- <-.
    destruct (run_near (d - b) (c - a) a b x' ltac:(lia) ltac:(lia)) as (N1 & N2). set (r := run (d - b) (c - a) a b x') in *. clearbody r. nia.
Qed.
Lemma path_high a b c d : b < d -> d - b <= 2049 -> Z.abs (c - a) < d - b ->
  let pts := map (fun y => (run (c - a) (d - b) b a y, y)) (zrange b d) in
  NoDup pts /\ path step_down (a, b) pts (c, d) /\ (forall x y, In (x, y) pts -> Z.abs ((x - a) * (d - b) - (y - b) * (c - a)) <= d - b).
Proof.
  intros H L D pts. split; [|split].
  - apply FinFun.Injective_map_NoDup; [intros i j E; injection E; trivial|apply nodup_zrange].
  - assert (P := path_run step_down (fun y => (run (c - a) (d - b) b a y, y)) (Z.to_nat (d - b)) b).
    replace (b + Z.of_nat (Z.to_nat (d - b))) with d in P by lia. fold pts in P. cbv beta in P.
    rewrite run_start in P. replace (run (c - a) (d - b) b a d) with c in P.
    2:{ replace d with (b + (d - b)) at 2 by ring. rewrite run_end by lia. ring. }
    apply P. intros x. split; cbn [fst snd]; [reflexivity|]. apply run_step; lia.
  - intros x y I. apply in_map_iff in I. destruct I as (y' & E & I). apply in_zrange in I. injection E as <- <-.
    destruct (run_near (c - a) (d - b) b a y' ltac:(lia) ltac:(lia)) as (N1 & N2). set (r := run (c - a) (d - b) b a y') in *. clearbody r. nia.
Qed.
(** A line whose ends are at most 2049 apart: one point for each step along its longer side, from one
    end point to the other, each at most one pixel beside its neighbours and within one pixel of the ideal line. *)
Theorem C29_gline_partial : forall g x1 y1 x2 y2 c k, well g -> colour_arg g c k -> 0 <= k <= 255 ->
  let p := (whole x1, whole y1) in let q := (whole x2, whole y2) in
  let dx := fst q - fst p in let dy := snd q - snd p in
  Z.abs dx <= 2049 -> Z.abs dy <= 2049 ->
  exists h pts, cmd_gline g x1 y1 x2 y2 c = (h, Done) /\ drawn g h k (fun x y => In (x, y) pts) /\
    (Z.abs dy <= Z.abs dx -> if dx <? 0 then path step_right q pts p else path step_right p pts q) /\
    (Z.abs dx < Z.abs dy -> if dy <? 0 then path step_down q pts p else path step_down p pts q) /\
    (forall x y, In (x, y) pts -> Z.abs ((x - fst p) * dy - (y - snd p) * dx) <= Z.max (Z.abs dx) (Z.abs dy)).
Proof.
  intros g x1 y1 x2 y2 c k W C K p q dx dy HX HY. assert (G := gline_pts g x1 y1 x2 y2 c k). unfold dx, dy, p, q in *. clear dx dy p q. cbn [fst snd] in *.
  set (a := whole x1) in *. set (b := whole y1) in *. set (d := whole x2) in *. set (e := whole y2) in *. clearbody a b d e.
  destruct (Z_le_dec (Z.abs (e - b)) (Z.abs (d - a))) as [WI|HI].
  - destruct (Z.eq_dec a d) as [->|NE].
    + assert (b = e) as -> by lia. destruct (G [(d, e)] W C K) as (h & E & D).
      { repeat constructor. intros []. }
      { unfold line_points. replace (Z.abs (d - d) >=? Z.abs (e - e)) with true by lia. rewrite !Z.eqb_refl. reflexivity. }
      exists h, [(d, e)]. split; [exact E|]. split; [exact D|]. split; [|split].
      * intros _. replace (d - d <? 0) with false by lia. apply path_one.
      * intros; lia.
      * intros x y [Q|[]]. injection Q as <- <-. lia.
    + destruct (Z_lt_dec a d) as [LT|GT].
      * destruct (wide_line a b d e LT ltac:(lia) ltac:(lia)) as (E & _). destruct (path_wide a b d e LT ltac:(lia) ltac:(lia)) as (N & P & A).
        destruct (G _ W C K N E) as (h & E' & D). exists h. eexists. split; [exact E'|]. split; [exact D|]. split; [|split].
        -- intros _. replace (d - a <? 0) with false by lia. exact P.
        -- intros; lia.
        -- intros x y I. apply A in I. lia.
      * destruct (wide_line d e a b ltac:(lia) ltac:(lia) ltac:(lia)) as (E & S). rewrite <- S in E. destruct (path_wide d e a b ltac:(lia) ltac:(lia) ltac:(lia)) as (N & P & A).
        destruct (G _ W C K N E) as (h & E' & D). exists h. eexists. split; [exact E'|]. split; [exact D|]. split; [|split].
        -- intros _. replace (d - a <? 0) with true by lia. exact P.
        -- intros; lia.
        -- intros x y I. apply A in I. nia.
  - destruct (Z_lt_dec b e) as [LT|GT].
    + destruct (high_line a b d e LT ltac:(lia) ltac:(lia)) as (E & _). destruct (path_high a b d e LT ltac:(lia) ltac:(lia)) as (N & P & A).
      destruct (G _ W C K N E) as (h & E' & D). exists h. eexists. split; [exact E'|]. split; [exact D|]. split; [|split].
      * intros; lia.
      * intros _. replace (e - b <? 0) with false by lia. exact P.
      * intros x y I. apply A in I. lia.
    + destruct (high_line d e a b ltac:(lia) ltac:(lia) ltac:(lia)) as (E & S). rewrite <- S in E. destruct (path_high d e a b ltac:(lia) ltac:(lia) ltac:(lia)) as (N & P & A).
      destruct (G _ W C K N E) as (h & E' & D). exists h. eexists. split; [exact E'|]. split; [exact D|]. split; [|split].
      * intros; lia.
      * intros _. replace (e - b <? 0) with true by lia. exact P.
      * intros x y I. apply A in I. nia.
Qed.
(** the direction does not matter *)
Theorem C29_gline_direction : forall g x1 y1 x2 y2 c, Z.abs (whole x2 - whole x1) < 524288 -> Z.abs (whole y2 - whole y1) < 524288 ->
  cmd_gline g x1 y1 x2 y2 c = cmd_gline g x2 y2 x1 y1 c.
Proof.
  intros g x1 y1 x2 y2 c HX HY. unfold cmd_gline.
  change (FP_TO_INT x1) with (whole x1). change (FP_TO_INT x2) with (whole x2). change (FP_TO_INT y1) with (whole y1). change (FP_TO_INT y2) with (whole y2).
  set (a := whole x1) in *. set (b := whole y1) in *. set (d := whole x2) in *. set (e := whole y2) in *. clearbody a b d e.
  assert (E : line_points a b d e = line_points d e a b); [|rewrite E; reflexivity].
  destruct (Z_le_dec (Z.abs (e - b)) (Z.abs (d - a))) as [WI|HI].
  - destruct (Z.eq_dec a d) as [->|NE]; [assert (b = e) as -> by lia; reflexivity|].
    destruct (Z_lt_dec a d) as [LT|GT]; [symmetry; apply wide_line; lia|apply wide_line; lia].
  - destruct (Z_lt_dec b e) as [LT|GT]; [symmetry; apply high_line; lia|apply high_line; lia].
Qed.
(** a longer line can miss its last point *)
Theorem C29_gline_long_refuted : exists g x1 y1 x2 y2, well g /\ whole x2 = 51 /\ whole y2 = 91 /\
  exists h, cmd_gline g x1 y1 x2 y2 None = (h, Done) /\ colour_at h (target g) (whole x2) (whole y2) <> color g.
Proof.
  exists g0, (-2000 * 4096), (1800 * 4096), (51 * 4096), (91 * 4096). split; [apply g0_well|]. split; [reflexivity|]. split; [reflexivity|].
  eexists. split; [reflexivity|]. vm_compute. discriminate.
Qed.
(** and a very long one overflows an int: undefined behaviour *)
Theorem C29_gline_overflow_refuted : exists g x1 y1 x2 y2, well g /\ is_s32 x1 /\ is_s32 y1 /\ is_s32 x2 /\ is_s32 y2 /\ cmd_gline g x1 y1 x2 y2 None = (g, Crash).
Proof.
  exists g0, (-262144 * 4096), (-262144 * 4096), (262144 * 4096), (262144 * 4096). split; [apply g0_well|].
  do 4 (split; [vm_compute; split; discriminate|]). vm_compute. reflexivity.
Qed.
Example C29_gline_ok : exists h, cmd_gline g0 (3 * 4096) (10 * 4096) (7 * 4096) (8 * 4096) None = (h, Done) /\
  map (fun x => map (fun y => colour_at h 0 x y) [7; 8; 9; 10; 11]) [2; 3; 4; 5; 6; 7; 8] =
  [[0;0;0;0;0]; [0;0;0;15;0]; [0;0;0;15;0]; [0;0;15;0;0]; [0;0;15;0;0]; [0;15;0;0;0]; [0;0;0;0;0]].
Proof. eexists. split; [reflexivity|]. vm_compute. reflexivity. Qed.

Print Assumptions C29_gline_partial.
Print Assumptions C29_gline_direction.
Print Assumptions C29_gline_long_refuted.
Print Assumptions C29_gline_overflow_refuted.
