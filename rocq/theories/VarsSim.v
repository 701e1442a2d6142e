(** Simulation between the variable table / array memory and the reference maps *)
From Verif Require Import Base BaseLemmas Hash HashProofs Vars VarsSpec VarsProofs.
From Coq Require Import Permutation.
Open Scope Z_scope.
Ltac Zify.zify_post_hook ::= Z.div_mod_to_equations.

Definition hd2 (d : option Z) : Z := match d with None => ARR_DIM2_UNUSED | Some b => b end.

Record block (a : arrays) (off : Z) (x : arr) (used : Z) : Prop := {
  b_off : 0 <= off; b_end : off + 2 + size x <= used;
  b_d1 : 0 <= d1 x < 524288; b_rows : 0 <= rows (d2 x) < 524288;
  b_h1 : arr_cell a off = VNum (d1 x); b_h2 : arr_cell a (off + 1) = VNum (hd2 (d2 x));
  b_el : forall i j, 0 <= i < d1 x -> 0 <= j < rows (d2 x) ->
         arr_cell a (off + 2 + (i + j * d1 x)) = elem x i j }.

Definition scalar (k : key) : Prop := snd k = 1 \/ snd k = 2.
Definition isarr (k : key) : Prop := snd k = 9 \/ snd k = 10.

Record sim (n cells : Z) (ids : bool) (v : variables) (s : sstate) : Prop := {
  s_tab : tab n v;
  s_known : Permutation (known s) (okeys (vars v));
  s_err : v_error v = None;
  s_ids : clear_values v = ids;
  s_cells : 0 <= cells < 2 ^ 30;
  s_len : length (arr_data (arrs v)) = Z.to_nat cells;
  s_size : arr_data_size (arrs v) = cells;
  s_next : arr_data_next (arrs v) = used s;
  s_used : 0 <= used s <= cells;
  s_sc : forall p k, 0 <= p < 2 ^ n -> keys v p = Some k -> scalar k -> v_value (slot v p) = sc s k;
  s_ar : forall p k, 0 <= p < 2 ^ n -> keys v p = Some k -> isarr k ->
         match ar s k with
         | None => v_value (slot v p) = VNull
         | Some x => exists off, v_value (slot v p) = VArr off /\ block (arrs v) off x (used s)
         end;
  s_fresh : forall k, ~ In k (known s) -> sc s k = zero (snd k) /\ ar s k = None;
  s_disj : forall p q kp kq op oq xp xq, 0 <= p < 2 ^ n -> 0 <= q < 2 ^ n -> p <> q ->
         keys v p = Some kp -> keys v q = Some kq -> isarr kp -> isarr kq ->
         v_value (slot v p) = VArr op -> v_value (slot v q) = VArr oq ->
         ar s kp = Some xp -> ar s kq = Some xq ->
         op + 2 + size xp <= oq \/ oq + 2 + size xq <= op;
  s_count : ids = false -> var_count v = Z.of_nat (length (known s)) }.

Lemma legal_valid n : legal_name n -> valid_name n. Proof. intros H; exact H. Qed.

Lemma search_cases n v name type : tab n v -> valid_name name -> type <> 0 ->
  let k := (name, type) in
  (exists p, search_name_type v name type = Some p /\ 0 <= p < 2 ^ n /\ keys v p = Some k) \/
  (exists p, search_name_type v name type = Some p /\ 0 <= p < 2 ^ n /\ keys v p = None /\
     first_stop (stop_for key_eq (keys v) k) (khash (2 ^ n) k) (2 ^ n) (Some p) /\
     ~ In k (okeys (vars v)) /\ Z.of_nat (length (okeys (vars v))) < 2 ^ n) \/
  (search_name_type v name type = None /\ ~ In k (okeys (vars v)) /\ Z.of_nat (length (okeys (vars v))) = 2 ^ n).
Proof.
  intros T N Ht k. pose proof (search_spec n v name type T N Ht) as F.
  change (name_hash name (2 ^ n)) with (khash (2 ^ n) k) in F. fold k in F.
  pose proof (tab_len _ _ T) as L. pose proof (tab_pos _ _ T) as M. pose proof (tab_n _ _ T) as Hn.
  destruct (search_name_type v name type) as [p|].
  - assert (Hp : 0 <= p < 2 ^ n) by (eapply found_range; [exact Hn|exact F]).
    destruct (probe_hit key_eq (khash (2^n)) n (keys v) k p F) as [E|E].
    + right; left. exists p. split; [reflexivity|]. split; [exact Hp|]. split; [exact E|]. split; [exact F|]. split.
      * intros C. apply (keys_in n v k T) in C as [q [Hq Eq]].
        apply (probe_absent key_eq (khash (2^n)) n (keys v) k (Some p) (tab_good _ _ T) F) in Eq; auto.
        intros p' G; injection G as <-; exact E.
      * pose proof (okeys_free (vars v) (slot v p)) as O. specialize (O ltac:(apply nth_In; lia) E). lia.
    + left. exists p. auto.
  - right; right. split; [reflexivity|]. split.
    + intros C. apply (keys_in n v k T) in C as [q [Hq Eq]].
      apply (probe_absent key_eq (khash (2^n)) n (keys v) k None (tab_good _ _ T) F) in Eq; auto.
      intros p' G; discriminate.
    + rewrite okeys_full; [lia|]. intros x Hx. apply (In_nth _ _ no_var) in Hx as [i [Hi E]].
      destruct (probe_full key_eq (khash (2^n)) n Hn (keys v) k F (Z.of_nat i)) as [k' [E2 _]]; [lia|].
      unfold keys, slot in E2. rewrite Nat2Z.id, E in E2. congruence.
Qed.

Lemma mem_spec k l : mem k l = true <-> In k l.
Proof. unfold mem. destruct (in_dec key_eq k l); split; intro; try assumption; try discriminate; try reflexivity; contradiction. Qed.

Lemma keys_inc v p : keys (inc_count v) p = keys v p. Proof. reflexivity. Qed.
Lemma slot_inc v p : slot (inc_count v) p = slot v p. Proof. reflexivity. Qed.
Lemma tab_inc n v : tab n v -> tab n (inc_count v).
Proof. intros [A B C D E]. constructor; assumption. Qed.

(** inserting a new name with its default value *)
Lemma sim_insert n cells ids v s p k x :
  sim n cells ids v s -> 0 <= p < 2 ^ n -> keys v p = None ->
  first_stop (stop_for key_eq (keys v) k) (khash (2 ^ n) k) (2 ^ n) (Some p) ->
  ~ In k (known s) -> key_of x = Some k -> length (v_name x) = 16%nat ->
  (scalar k -> v_value x = zero (snd k)) -> (isarr k -> v_value x = VNull) ->
  sim n cells ids (set_slot (inc_count v) p x) (mkS (k :: known s) (sc s) (ar s) (used s)).
Proof.
  intros R Hp E F NI Kx Lx Dx Nx. pose proof (s_tab _ _ _ _ _ R) as T.
  pose proof (tab_len _ _ T) as L. destruct (s_fresh _ _ _ _ _ R k NI) as [Fs Fa].
  destruct (tab_insert n (inc_count v) p k x (tab_inc n v T) Hp E F Kx Lx) as [T' P'].
  assert (Sl : forall q, 0 <= q -> slot (set_slot (inc_count v) p x) q = if q =? p then x else slot v q).
  { intros q Hq. rewrite slot_set by (simpl; lia). reflexivity. }
  assert (Ks : forall q, 0 <= q -> keys (set_slot (inc_count v) p x) q = if q =? p then Some k else keys v q).
  { intros q Hq. unfold keys. rewrite Sl by lia. destruct (q =? p); [exact Kx|reflexivity]. }
  constructor; try exact T'.
  - cbn [known]. rewrite P'. apply perm_skip. exact (s_known _ _ _ _ _ R).
  - exact (s_err _ _ _ _ _ R).
  - exact (s_ids _ _ _ _ _ R).
  - exact (s_cells _ _ _ _ _ R).
  - exact (s_len _ _ _ _ _ R).
  - exact (s_size _ _ _ _ _ R).
  - exact (s_next _ _ _ _ _ R).
  - exact (s_used _ _ _ _ _ R).
  - intros q k2 Hq Hk Hs. rewrite Ks in Hk by lia. rewrite Sl by lia. cbn [sc].
    destruct (q =? p); [injection Hk as <-; rewrite Fs; auto|]. apply (s_sc _ _ _ _ _ R); assumption.
  - intros q k2 Hq Hk Ha. rewrite Ks in Hk by lia. rewrite Sl by lia. cbn [ar].
    destruct (q =? p); [injection Hk as <-; rewrite Fa; auto|]. apply (s_ar _ _ _ _ _ R); assumption.
  - intros k2 Hk. cbn [known sc ar] in *. apply (s_fresh _ _ _ _ _ R). intro C. apply Hk. right; exact C.
  - intros p1 q1 kp kq op oq xp xq H1 H2 Ne K1 K2 A1 A2 V1 V2 X1 X2. cbn [ar] in *.
    rewrite Ks in K1, K2 by lia. rewrite Sl in V1, V2 by lia.
    destruct (p1 =? p) eqn:E1.
    { injection K1 as <-. rewrite Nx in V1 by assumption. discriminate. }
    destruct (q1 =? p) eqn:E2.
    { injection K2 as <-. rewrite Nx in V2 by assumption. discriminate. }
    exact (s_disj _ _ _ _ _ R p1 q1 kp kq op oq xp xq H1 H2 Ne K1 K2 A1 A2 V1 V2 X1 X2).
  - intros I. cbn [var_count inc_count set_slot set_vars known length]. rewrite (s_count _ _ _ _ _ R I). lia.
Qed.

Lemma key_new name type cells val : valid_name name -> type <> 0 -> 
  key_of (mkVar type (set_name cells name) val) = Some (name, type).
Proof.
  intros N Ht. unfold key_of. simpl. replace (type =? VAR_EMPTY) with false by (unfold VAR_EMPTY; lia).
  rewrite set_name_key by exact N. reflexivity.
Qed.

Lemma sim_full n cells ids v s : sim n cells ids v s -> length (known s) = length (okeys (vars v)).
Proof. intros R. apply Permutation_length. exact (s_known _ _ _ _ _ R). Qed.
Lemma sim_in n cells ids v s k : sim n cells ids v s -> (In k (known s) <-> In k (okeys (vars v))).
Proof. intros R. split; apply Permutation_in; [|apply Permutation_sym]; exact (s_known _ _ _ _ _ R). Qed.

Lemma default_zero t : t = 1 \/ t = 2 -> default_value t = zero t.
Proof. intros [->| ->]; reflexivity. Qed.

(** get_var refines touch *)
Lemma get_var_sim n cells ids v s name type : sim n cells ids v s -> valid_name name ->
  (type = 1 \/ type = 2 \/ type = 9 \/ type = 10) ->
  match touch (2 ^ n) s (name, type) with
  | Some s' => exists v' i, get_var v name type = (v', Ok i) /\ sim n cells ids v' s' /\
                 0 <= i < 2 ^ n /\ keys v' i = Some (name, type) /\ In (name, type) (known s')
  | None => exists v', get_var v name type = (v', Err ERR_OUT_OF_MEMORY)
  end.
Proof.
  intros R N Ht. assert (Ht0 : type <> 0) by lia. pose proof (s_tab _ _ _ _ _ R) as T.
  unfold touch, get_var. destruct (mem (name, type) (known s)) eqn:Em.
  - apply mem_spec in Em. apply (sim_in _ _ _ _ _ _ R) in Em.
    destruct (search_cases n v name type T N Ht0) as [[p [E [Hp Kp]]]|[[p [_ [_ [_ [_ [C _]]]]]]|[_ [C _]]]]; try contradiction.
    rewrite E. assert (v_type (slot v p) =? VAR_EMPTY = false).
    { unfold keys, key_of in Kp. destruct (v_type (slot v p) =? VAR_EMPTY); [discriminate|reflexivity]. }
    rewrite H. exists v, p. split; [reflexivity|]. split; [exact R|]. split; [exact Hp|]. split; [exact Kp|].
    apply (sim_in _ _ _ _ _ _ R). apply (keys_in n v _ T). eauto.
  - assert (NI : ~ In (name, type) (known s)) by (intro C; apply mem_spec in C; congruence).
    assert (NO : ~ In (name, type) (okeys (vars v))) by (intro C; apply NI, (sim_in _ _ _ _ _ _ R), C).
    pose proof (sim_full _ _ _ _ _ R) as FL.
    destruct (search_cases n v name type T N Ht0) as [[p [E [Hp Kp]]]|[[p [E [Hp [Kp [F [_ Len]]]]]]|[E [_ Len]]]].
    + exfalso. apply NO, (keys_in n v _ T). eauto.
    + rewrite FL. replace (Z.of_nat (length (okeys (vars v))) >=? 2 ^ n) with false by lia.
      rewrite E. assert (v_type (slot v p) =? VAR_EMPTY = true).
      { unfold keys, key_of in Kp. destruct (v_type (slot v p) =? VAR_EMPTY); [reflexivity|discriminate]. }
      rewrite H. eexists _, p. split; [reflexivity|].
      pose proof (key_new name type (v_name (slot v p)) (default_value type) N Ht0) as KN.
      assert (LN : length (set_name (v_name (slot v p)) name) = 16%nat).
      { apply set_name_length; [exact (slot_name n v p T Hp)|apply N]. }
      assert (R' : sim n cells ids (set_slot (inc_count v) p (mkVar type (set_name (v_name (slot v p)) name) (default_value type)))
        (mkS ((name, type) :: known s) (sc s) (ar s) (used s))).
      { apply sim_insert with (v := v) (s := s) (k := (name, type)); auto.
        - unfold scalar; simpl. intros. apply default_zero. lia.
        - unfold isarr; simpl. intros [->| ->]; reflexivity. }
      split; [exact R'|]. split; [exact Hp|]. split; [|left; reflexivity].
      unfold keys. rewrite slot_set by (simpl; rewrite ?(tab_len _ _ T); lia).
      rewrite Z.eqb_refl. exact KN.
    + rewrite FL. replace (Z.of_nat (length (okeys (vars v))) >=? 2 ^ n) with true by lia.
      rewrite E. eexists. reflexivity.
Qed.

(** array memory *)
Lemma fill_len l pos c x : length (fill l pos c x) = length l.
Proof. revert l pos. induction c; intros; simpl; [reflexivity|]. rewrite IHc, upd_len. reflexivity. Qed.
Lemma fill_nth c : forall l pos x i d, (pos + c <= length l)%nat ->
  nth i (fill l pos c x) d = if (pos <=? i)%nat && (i <? pos + c)%nat then x else nth i l d.
Proof.
  induction c as [|c IH]; intros l pos x i d H; simpl.
  - destruct ((pos <=? i)%nat && (i <? pos + 0)%nat) eqn:E; [lia|reflexivity].
  - rewrite IH by (rewrite upd_len; lia).
    destruct (Nat.eq_dec i pos) as [->|Ne].
    + rewrite nth_upd_same by lia.
      destruct ((S pos <=? pos)%nat && _); destruct ((pos <=? pos)%nat && (pos <? pos + S c)%nat) eqn:E; try reflexivity; lia.
    + rewrite nth_upd_other by lia.
      destruct ((S pos <=? i)%nat && (i <? S pos + c)%nat) eqn:E1;
      destruct ((pos <=? i)%nat && (i <? pos + S c)%nat) eqn:E2; try reflexivity; lia.
Qed.

Lemma alloc_spec a cells a1 b t : 
  length (arr_data a) = Z.to_nat cells -> arr_data_size a = cells -> 0 <= cells < 2 ^ 30 ->
  0 <= arr_data_next a <= cells -> 0 <= a1 < 524288 -> 
  match b with None => True | Some b => 0 <= b < 524288 /\ a1 * b < 2147483648 end -> t = 1 \/ t = 2 ->
  let x := mkA a1 b (fun _ _ => zero t) in
  if arr_data_next a + size x + 2 >=? cells
  then get_init_new_arr a a1 (hd2 b) (t + VAR_ARRAY) = Ok None
  else exists a', get_init_new_arr a a1 (hd2 b) (t + VAR_ARRAY) = Ok (Some (a', arr_data_next a)) /\
    length (arr_data a') = Z.to_nat cells /\ arr_data_size a' = cells /\
    arr_data_next a' = arr_data_next a + size x + 2 /\
    block a' (arr_data_next a) x (arr_data_next a') /\
    forall i, 0 <= i < arr_data_next a -> arr_cell a' i = arr_cell a i.
Proof.
  intros L S C Nx Ha Hb Ht x. unfold get_init_new_arr. rewrite S.
  change (2 ^ 30) with 1073741824 in C.
  assert (Sz : size x = a1 * rows b) by reflexivity.
  assert (Hsz : 0 <= a1 * rows b < 2147483648).
  { destruct b as [b|]; simpl; [nia|lia]. }
  assert (Esz : s32 (if hd2 b =? ARR_DIM2_UNUSED then a1 else u32 (a1 * hd2 b)) = size x).
  { rewrite Sz. unfold s32, u32, ARR_DIM2_UNUSED. change (2^31) with 2147483648. change (2^32) with 4294967296.
    destruct b as [b|]; simpl hd2; simpl rows in *.
    - replace (b =? 4294967295) with false by lia. set (z := a1 * b) in *. lia.
    - simpl. rewrite Z.mul_1_r. lia. }
  rewrite Esz. rewrite <- Sz in Hsz. cbv zeta. set (sz := size x) in *.
  set (next := arr_data_next a) in *.
  assert (E1 : u32 (u32 (next + u32 sz) + 2) = next + sz + 2).
  { unfold u32. change (2^32) with 4294967296. lia. }
  rewrite E1. destruct (next + sz + 2 >=? cells) eqn:G; [reflexivity|].
  replace (next + 2 + Z.max 0 sz >? cells) with false by lia.
  assert (E2 : u32 (next + u32 (sz + 2)) = next + sz + 2).
  { unfold u32. change (2^32) with 4294967296. lia. }
  rewrite E2.
  assert (Z0 : (if Z.odd (t + VAR_ARRAY) then VNum 0 else VStr empty_handle) = zero t).
  { destruct Ht as [->| ->]; reflexivity. }
  rewrite Z0. eexists. split; [reflexivity|]. cbn [arr_data arr_data_size arr_data_next].
  split. { rewrite fill_len, !upd_len. exact L. }
  split; [reflexivity|]. split; [lia|].
  assert (Cell : forall i, 0 <= i < cells -> 
    nth (Z.to_nat i) (fill (upd (upd (arr_data a) (Z.to_nat next) (VNum a1)) (Z.to_nat (next + 1)) (VNum (hd2 b)))
       (Z.to_nat (next + 2)) (Z.to_nat sz) (zero t)) VNull =
    if i <? next then arr_cell a i else if i =? next then VNum a1 else if i =? next + 1 then VNum (hd2 b)
    else if i <? next + 2 + sz then zero t else arr_cell a i).
  { intros i Hi. rewrite fill_nth by (rewrite !upd_len; lia). unfold arr_cell.
    destruct ((Z.to_nat (next + 2) <=? Z.to_nat i)%nat && (Z.to_nat i <? Z.to_nat (next + 2) + Z.to_nat sz)%nat) eqn:B.
    - replace (i <? next) with false by lia. replace (i =? next) with false by lia.
      replace (i =? next + 1) with false by lia. replace (i <? next + 2 + sz) with true by lia. reflexivity.
    - destruct (i <? next) eqn:I1; [rewrite !nth_upd_other by lia; reflexivity|].
      destruct (i =? next) eqn:I2.
      { rewrite nth_upd_other by lia. replace (Z.to_nat i) with (Z.to_nat next) by lia. apply nth_upd_same. lia. }
      destruct (i =? next + 1) eqn:I3.
      { replace (Z.to_nat i) with (Z.to_nat (next + 1)) by lia. apply nth_upd_same. rewrite upd_len. lia. }
      rewrite !nth_upd_other by lia. replace (i <? next + 2 + sz) with false by lia. reflexivity. }
  split.
  - constructor.
    + lia.
    + fold sz. lia.
    + simpl. lia.
    + simpl. destruct b; simpl; lia.
    + unfold arr_cell at 1. cbn [arr_data]. rewrite Cell by lia.
      replace (next <? next) with false by lia. rewrite Z.eqb_refl. reflexivity.
    + unfold arr_cell at 1. cbn [arr_data]. rewrite Cell by lia.
      replace (next + 1 <? next) with false by lia. replace (next + 1 =? next) with false by lia.
      rewrite Z.eqb_refl. reflexivity.
    + intros i j Hi Hj. unfold arr_cell at 1. cbn [arr_data]. cbn [d1 d2 elem x] in *.
      assert (B : 0 <= i + j * a1 < sz). { rewrite Sz. nia. }
      rewrite Cell by lia. set (q := i + j * a1) in *.
      replace (next + 2 + q <? next) with false by lia. replace (next + 2 + q =? next) with false by lia.
      replace (next + 2 + q =? next + 1) with false by lia. replace (next + 2 + q <? next + 2 + sz) with true by lia.
      reflexivity.
  - intros i Hi. unfold arr_cell at 1. cbn [arr_data]. rewrite Cell by lia.
    replace (i <? next) with true by lia. reflexivity.
Qed.

Lemma block_mono a a' off x u u' : block a off x u -> u <= u' ->
  (forall i, 0 <= i < u -> arr_cell a' i = arr_cell a i) -> block a' off x u'.
Proof.
  intros B Hu E. pose proof (b_off _ _ _ _ B) as O. pose proof (b_end _ _ _ _ B) as En.
  pose proof (b_d1 _ _ _ _ B) as D. pose proof (b_rows _ _ _ _ B) as Rw.
  assert (0 <= size x) by (unfold size; nia).
  constructor; try assumption; try lia.
  - rewrite E by lia. exact (b_h1 _ _ _ _ B).
  - rewrite E by lia. exact (b_h2 _ _ _ _ B).
  - intros i j Hi Hj. rewrite E; [exact (b_el _ _ _ _ B i j Hi Hj)|].
    assert (0 <= i + j * d1 x < size x) by (unfold size; nia). lia.
Qed.

(** allocating an array for a known array name without one *)
Lemma sim_alloc n cells ids v s p k a1 b t a' x0 :
  sim n cells ids v s -> 0 <= p < 2 ^ n -> keys v p = Some k -> isarr k -> ar s k = None ->
  let x := mkA a1 b (fun _ _ => zero t) in
  length (arr_data a') = Z.to_nat cells -> arr_data_size a' = cells ->
  arr_data_next a' = used s + size x + 2 -> used s + size x + 2 < cells -> 
  block a' (used s) x (used s + size x + 2) ->
  (forall i, 0 <= i < used s -> arr_cell a' i = arr_cell (arrs v) i) ->
  key_of x0 = Some k -> length (v_name x0) = 16%nat -> v_value x0 = VArr (used s) ->
  sim n cells ids (set_arrs (set_slot v p x0) a')
      (mkS (known s) (sc s) (set (ar s) k (Some x)) (used s + size x + 2)).
Proof.
  intros R Hp Kp Ak An x L S Nx Fit B Un K0 L0 V0.
  pose proof (s_tab _ _ _ _ _ R) as T. pose proof (tab_len _ _ T) as TL.
  assert (Hsz : 0 <= size x). { pose proof (b_d1 _ _ _ _ B). pose proof (b_rows _ _ _ _ B). unfold size. nia. }
  pose proof (s_used _ _ _ _ _ R) as Us.
  destruct (tab_same n v p x0 T Hp ltac:(congruence) L0) as [T' [O' K']].
  assert (Sl : forall q, 0 <= q -> slot (set_arrs (set_slot v p x0) a') q = if q =? p then x0 else slot v q).
  { intros q Hq. exact (slot_set v p q x0 ltac:(lia) Hq). }
  assert (Ks : forall q, 0 <= q -> keys (set_arrs (set_slot v p x0) a') q = keys v q) by (intros; apply K'; assumption).
  assert (Uq : forall q, 0 <= q < 2 ^ n -> keys v q = Some k -> q = p).
  { intros q Hq Kq. exact (good_unique key_eq (khash (2^n)) n (keys v) q p k (tab_good _ _ T) Hq Hp Kq Kp). }
  constructor.
  - destruct T'; constructor; assumption.
  - cbn [known]. change (vars (set_arrs (set_slot v p x0) a')) with (vars (set_slot v p x0)). rewrite O'. exact (s_known _ _ _ _ _ R).
  - exact (s_err _ _ _ _ _ R).
  - exact (s_ids _ _ _ _ _ R).
  - exact (s_cells _ _ _ _ _ R).
  - exact L.
  - exact S.
  - exact Nx.
  - cbn [used]. lia.
  - intros q k2 Hq Hk Hs. rewrite Ks in Hk by lia. rewrite Sl by lia. cbn [sc].
    destruct (q =? p) eqn:E.
    + replace q with p in Hk by lia. rewrite Kp in Hk. injection Hk as <-. unfold scalar, isarr in *. lia.
    + apply (s_sc _ _ _ _ _ R); assumption.
  - intros q k2 Hq Hk Ha. rewrite Ks in Hk by lia. rewrite Sl by lia. cbn [ar used]. unfold set.
    destruct (key_eq k2 k) as [->|Ne].
    + rewrite (Uq q Hq Hk), Z.eqb_refl. exists (used s). split; [exact V0|]. exact B.
    + replace (q =? p) with false by (symmetry; apply Z.eqb_neq; intros ->; congruence).
      pose proof (s_ar _ _ _ _ _ R q k2 Hq Hk Ha) as G. destruct (ar s k2) as [y|]; [|exact G].
      destruct G as [off [G1 G2]]. exists off. split; [exact G1|].
      eapply block_mono; [exact G2|lia|exact Un].
  - intros k2 Hk. cbn [known sc ar] in *. destruct (s_fresh _ _ _ _ _ R k2 Hk) as [F1 F2]. split; [exact F1|].
    unfold set. destruct (key_eq k2 k) as [->|Ne]; [|exact F2]. exfalso. apply Hk.
    apply (sim_in _ _ _ _ _ _ R), (keys_in n v k T). eauto.
  - intros p1 q1 kp kq op oq xp xq H1 H2 Ne K1 K2 A1 A2 V1 V2 X1 X2. cbn [ar] in *.
    rewrite Ks in K1, K2 by lia. rewrite Sl in V1, V2 by lia. unfold set in X1, X2.
    assert (Old : forall q kq' oq' xq', 0 <= q < 2 ^ n -> keys v q = Some kq' -> isarr kq' ->
       v_value (slot v q) = VArr oq' -> ar s kq' = Some xq' -> oq' + 2 + size xq' <= used s).
    { intros q kq' oq' xq' Hq Kq Aq Vq Xq. pose proof (s_ar _ _ _ _ _ R q kq' Hq Kq Aq) as G. rewrite Xq in G.
      destruct G as [off [G1 G2]]. rewrite Vq in G1. injection G1 as ->. exact (b_end _ _ _ _ G2). }
    destruct (key_eq kp k) as [Ep|Ep]; destruct (key_eq kq k) as [Eq|Eq].
    + exfalso. apply Ne. rewrite Ep in K1. rewrite Eq in K2. rewrite (Uq p1 H1 K1), (Uq q1 H2 K2). reflexivity.
    + rewrite Ep in K1. pose proof (Uq p1 H1 K1) as Q1. rewrite Q1 in *. rewrite Z.eqb_refl in V1. rewrite V0 in V1. injection V1 as <-.
      replace (q1 =? p) with false in V2 by lia. right. exact (Old q1 kq oq xq H2 K2 A2 V2 X2).
    + rewrite Eq in K2. pose proof (Uq q1 H2 K2) as Q2. rewrite Q2 in *. rewrite Z.eqb_refl in V2. rewrite V0 in V2. injection V2 as <-.
      replace (p1 =? p) with false in V1 by lia. left. exact (Old p1 kp op xp H1 K1 A1 V1 X1).
    + replace (p1 =? p) with false in V1 by (symmetry; apply Z.eqb_neq; intros ->; congruence).
      replace (q1 =? p) with false in V2 by (symmetry; apply Z.eqb_neq; intros ->; congruence).
      exact (s_disj _ _ _ _ _ R p1 q1 kp kq op oq xp xq H1 H2 Ne K1 K2 A1 A2 V1 V2 X1 X2).
  - exact (s_count _ _ _ _ _ R).
Qed.

Lemma sim_write n cells ids v s p k x : sim n cells ids v s -> 0 <= p < 2 ^ n -> keys v p = Some k -> scalar k ->
  sim n cells ids (set_slot v p (mkVar (v_type (slot v p)) (v_name (slot v p)) x))
    (mkS (known s) (set (sc s) k x) (ar s) (used s)).
Proof.
  intros R Hp Kp Sk. pose proof (s_tab _ _ _ _ _ R) as T. pose proof (tab_len _ _ T) as TL.
  set (x0 := mkVar (v_type (slot v p)) (v_name (slot v p)) x).
  destruct (tab_same n v p x0 T Hp eq_refl (slot_name n v p T Hp)) as [T' [O' K']].
  assert (Sl : forall q, 0 <= q -> slot (set_slot v p x0) q = if q =? p then x0 else slot v q).
  { intros q Hq. exact (slot_set v p q x0 ltac:(lia) Hq). }
  assert (NA : forall q k2, keys v q = Some k2 -> isarr k2 -> q <> p).
  { intros q k2 Hk Ha ->. rewrite Kp in Hk. injection Hk as <-. unfold scalar, isarr in *. lia. }
  constructor.
  - exact T'.
  - cbn [known]. rewrite O'. exact (s_known _ _ _ _ _ R).
  - exact (s_err _ _ _ _ _ R).
  - exact (s_ids _ _ _ _ _ R).
  - exact (s_cells _ _ _ _ _ R).
  - exact (s_len _ _ _ _ _ R).
  - exact (s_size _ _ _ _ _ R).
  - exact (s_next _ _ _ _ _ R).
  - exact (s_used _ _ _ _ _ R).
  - intros q k2 Hq Hk Hs. rewrite K' in Hk by lia. rewrite Sl by lia. cbn [sc]. unfold set.
    destruct (key_eq k2 k) as [->|Ne].
    + rewrite (good_unique key_eq (khash (2^n)) n (keys v) q p k (tab_good _ _ T) Hq Hp Hk Kp), Z.eqb_refl. reflexivity.
    + replace (q =? p) with false by (symmetry; apply Z.eqb_neq; intros ->; congruence).
      apply (s_sc _ _ _ _ _ R); assumption.
  - intros q k2 Hq Hk Ha. rewrite K' in Hk by lia. rewrite Sl by lia.
    pose proof (NA q k2 Hk Ha). replace (q =? p) with false by lia. exact (s_ar _ _ _ _ _ R q k2 Hq Hk Ha).
  - intros k2 Hk. cbn [known sc ar] in *. destruct (s_fresh _ _ _ _ _ R k2 Hk) as [F1 F2]. split; [|exact F2].
    unfold set. destruct (key_eq k2 k) as [->|Ne]; [|exact F1]. exfalso. apply Hk.
    apply (sim_in _ _ _ _ _ _ R), (keys_in n v k T). eauto.
  - intros p1 q1 kp kq op oq xp xq H1 H2 Ne K1 K2 A1 A2 V1 V2 X1 X2. cbn [ar] in *.
    rewrite K' in K1, K2 by lia. rewrite Sl in V1, V2 by lia.
    pose proof (NA p1 kp K1 A1). pose proof (NA q1 kq K2 A2).
    replace (p1 =? p) with false in V1 by lia. replace (q1 =? p) with false in V2 by lia.
    exact (s_disj _ _ _ _ _ R p1 q1 kp kq op oq xp xq H1 H2 Ne K1 K2 A1 A2 V1 V2 X1 X2).
  - exact (s_count _ _ _ _ _ R).
Qed.

Lemma pair_unique d i j i' j' : 0 <= i < d -> 0 <= i' < d -> i + j * d = i' + j' * d -> i = i' /\ j = j'.
Proof. intros H H' E. assert (j = j') by nia. subst. lia. Qed.

Lemma sim_awrite n cells ids v s p k off a i j x :
  sim n cells ids v s -> 0 <= p < 2 ^ n -> keys v p = Some k -> isarr k ->
  v_value (slot v p) = VArr off -> ar s k = Some a -> 0 <= i < d1 a -> 0 <= j < rows (d2 a) ->
  sim n cells ids
    (set_arrs v (mkArr (arr_data_size (arrs v)) (arr_data_next (arrs v))
                  (upd (arr_data (arrs v)) (Z.to_nat (off + 2 + (i + j * d1 a))) x)))
    (mkS (known s) (sc s) (set (ar s) k (Some (mkA (d1 a) (d2 a) (set_elem (elem a) i j x)))) (used s)).
Proof.
  intros R Hp Kp Ak Vp Ap Hi Hj. pose proof (s_tab _ _ _ _ _ R) as T.
  set (c := off + 2 + (i + j * d1 a)).
  set (a' := mkArr (arr_data_size (arrs v)) (arr_data_next (arrs v)) (upd (arr_data (arrs v)) (Z.to_nat c) x)).
  pose proof (s_ar _ _ _ _ _ R p k Hp Kp Ak) as B. rewrite Ap in B. destruct B as [off' [V' B]].
  rewrite Vp in V'. injection V' as <-.
  pose proof (b_off _ _ _ _ B) as Bo. pose proof (b_end _ _ _ _ B) as Be. pose proof (s_used _ _ _ _ _ R) as Us.
  pose proof (s_len _ _ _ _ _ R) as Ln.
  assert (Pc : 0 <= i + j * d1 a < size a) by (unfold size; nia).
  assert (Cell : forall q, 0 <= q -> arr_cell a' q = if q =? c then x else arr_cell (arrs v) q).
  { intros q Hq. unfold arr_cell, a'. simpl. destruct (q =? c) eqn:E.
    - replace (Z.to_nat q) with (Z.to_nat c) by lia. apply nth_upd_same. lia.
    - apply nth_upd_other. lia. }
  set (anew := mkA (d1 a) (d2 a) (set_elem (elem a) i j x)).
  assert (Uq : forall q, 0 <= q < 2 ^ n -> keys v q = Some k -> q = p).
  { intros q Hq Kq. exact (good_unique key_eq (khash (2^n)) n (keys v) q p k (tab_good _ _ T) Hq Hp Kq Kp). }
  constructor.
  - destruct T; constructor; assumption.
  - exact (s_known _ _ _ _ _ R).
  - exact (s_err _ _ _ _ _ R).
  - exact (s_ids _ _ _ _ _ R).
  - exact (s_cells _ _ _ _ _ R).
  - simpl. rewrite upd_len. exact Ln.
  - exact (s_size _ _ _ _ _ R).
  - exact (s_next _ _ _ _ _ R).
  - exact Us.
  - intros q k2 Hq Hk Hs. exact (s_sc _ _ _ _ _ R q k2 Hq Hk Hs).
  - intros q k2 Hq Hk Ha. change (keys v q = Some k2) in Hk. cbn [ar used]. unfold set. fold anew.
    change (arrs (set_arrs v a')) with a'. change (slot (set_arrs v a') q) with (slot v q).
    destruct (key_eq k2 k) as [->|Ne].
    + pose proof (Uq q Hq Hk) as Q. subst q. exists off. split; [exact Vp|]. constructor.
      * exact Bo.
      * exact Be.
      * exact (b_d1 _ _ _ _ B).
      * exact (b_rows _ _ _ _ B).
      * rewrite Cell by lia. replace (off =? c) with false by lia. exact (b_h1 _ _ _ _ B).
      * rewrite Cell by lia. replace (off + 1 =? c) with false by lia. exact (b_h2 _ _ _ _ B).
      * intros i' j' Hi' Hj'. cbn [d1 d2 elem anew] in *.
        assert (P' : 0 <= i' + j' * d1 a < size a) by (unfold size; nia).
        rewrite Cell by lia. unfold set_elem. destruct (off + 2 + (i' + j' * d1 a) =? c) eqn:E.
        -- destruct (pair_unique (d1 a) i' j' i j Hi' Hi ltac:(unfold c in E; lia)) as [-> ->].
           rewrite !Z.eqb_refl. reflexivity.
        -- destruct ((i' =? i) && (j' =? j)) eqn:E2.
           ++ assert (i' = i /\ j' = j) as [-> ->] by lia. unfold c in E. lia.
           ++ exact (b_el _ _ _ _ B i' j' Hi' Hj').
    + pose proof (s_ar _ _ _ _ _ R q k2 Hq Hk Ha) as G. destruct (ar s k2) as [y|] eqn:Ey; [|exact G].
      destruct G as [oq [G1 G2]]. exists oq. split; [exact G1|].
      assert (Np : p <> q) by (intros ->; congruence).
      pose proof (s_disj _ _ _ _ _ R p q k k2 off oq a y Hp Hq Np Kp Hk Ak Ha Vp G1 Ap Ey) as D.
      assert (Out : forall z, oq <= z < oq + 2 + size y -> arr_cell a' z = arr_cell (arrs v) z).
      { intros z Hz. pose proof (b_off _ _ _ _ G2). rewrite Cell by lia. replace (z =? c) with false by lia. reflexivity. }
      assert (0 <= size y). { pose proof (b_d1 _ _ _ _ G2). pose proof (b_rows _ _ _ _ G2). unfold size; nia. }
      constructor.
      * exact (b_off _ _ _ _ G2).
      * exact (b_end _ _ _ _ G2).
      * exact (b_d1 _ _ _ _ G2).
      * exact (b_rows _ _ _ _ G2).
      * rewrite Out by lia. exact (b_h1 _ _ _ _ G2).
      * rewrite Out by lia. exact (b_h2 _ _ _ _ G2).
      * intros i' j' Hi' Hj'. assert (0 <= i' + j' * d1 y < size y) by (unfold size; nia).
        rewrite Out by lia. exact (b_el _ _ _ _ G2 i' j' Hi' Hj').
  - intros k2 Hk. cbn [known sc ar] in *. destruct (s_fresh _ _ _ _ _ R k2 Hk) as [F1 F2]. split; [exact F1|].
    unfold set. destruct (key_eq k2 k) as [->|Ne]; [|exact F2]. congruence.
  - intros p1 q1 kp kq op oq xp xq H1 H2 Ne K1 K2 A1 A2 V1 V2 X1 X2. cbn [ar] in *.
    unfold set in X1, X2.
    assert (S1 : exists y, ar s kp = Some y /\ size y = size xp).
    { destruct (key_eq kp k) as [->|N1]; [|eauto]. injection X1 as <-. exists a. split; [exact Ap|reflexivity]. }
    assert (S2 : exists y, ar s kq = Some y /\ size y = size xq).
    { destruct (key_eq kq k) as [->|N1]; [|eauto]. injection X2 as <-. exists a. split; [exact Ap|reflexivity]. }
    destruct S1 as [y1 [Y1 Z1]]. destruct S2 as [y2 [Y2 Z2]]. rewrite <- Z1, <- Z2.
    exact (s_disj _ _ _ _ _ R p1 q1 kp kq op oq y1 y2 H1 H2 Ne K1 K2 A1 A2 V1 V2 Y1 Y2).
  - exact (s_count _ _ _ _ _ R).
Qed.

(** subscripted access *)
Lemma u32_basic i : basic_int i -> u32 i = if i <? 0 then i + 4294967296 else i.
Proof. unfold basic_int, u32. change (2^32) with 4294967296. intros H. destruct (i <? 0) eqn:E; lia. Qed.

Lemma at_array n cells ids v s p k off a i j t :
  sim n cells ids v s -> 0 <= p < 2 ^ n -> keys v p = Some k -> isarr k ->
  v_value (slot v p) = VArr off -> ar s k = Some a -> basic_int i ->
  match j with None => 0 < rows (d2 a) | Some j => basic_int j /\ j <> -1 /\ d2 a <> None end ->
  match subscript a i j with
  | Ok (i', j') => get_arr_entry_via_ptr v p (u32 i) (idx2 j) t = (v, Ok (off + 2 + (i' + j' * d1 a))) /\
      arr_cell (arrs v) (off + 2 + (i' + j' * d1 a)) = elem a i' j' /\ 0 <= i' < d1 a /\ 0 <= j' < rows (d2 a)
  | Err e => exists v', get_arr_entry_via_ptr v p (u32 i) (idx2 j) t = (v', Err e)
  | UB => False
  end.
Proof.
  intros R Hp Kp Ak Vp Ap Hi Hj.
  pose proof (s_ar _ _ _ _ _ R p k Hp Kp Ak) as B. rewrite Ap in B. destruct B as [off' [V' B]].
  rewrite Vp in V'. injection V' as <-.
  pose proof (b_off _ _ _ _ B) as Bo. pose proof (b_end _ _ _ _ B) as Be. pose proof (s_used _ _ _ _ _ R) as Us.
  pose proof (b_d1 _ _ _ _ B) as B1. pose proof (b_rows _ _ _ _ B) as B2.
  unfold get_arr_entry_via_ptr. rewrite Vp.
  assert (Z1 : arr_size (arrs v) off 0 = d1 a).
  { unfold arr_size. rewrite Z.add_0_r, (b_h1 _ _ _ _ B). reflexivity. }
  assert (Z2 : arr_size (arrs v) off 1 = hd2 (d2 a)).
  { unfold arr_size. rewrite (b_h2 _ _ _ _ B). reflexivity. }
  rewrite Z1, Z2. unfold subscript. rewrite (u32_basic i Hi). unfold basic_int in Hi.
  destruct ((i <? 0) || (i >=? d1 a)) eqn:E1.
  { replace ((if i <? 0 then i + 4294967296 else i) <? d1 a) with false by (destruct (i <? 0) eqn:E; lia).
    eexists; reflexivity. }
  replace (i <? 0) with false by lia. replace (i <? d1 a) with true by lia.
  assert (Done : forall j0, 0 <= j0 < rows (d2 a) ->
    (if (0 <=? arr_entry (arrs v) off i j0) && (arr_entry (arrs v) off i j0 <? arr_data_size (arrs v))
     then (v, Ok (arr_entry (arrs v) off i j0)) else (v, UB)) = (v, Ok (off + 2 + (i + j0 * d1 a)))).
  { intros j0 H0. unfold arr_entry. rewrite Z1, (s_size _ _ _ _ _ R).
    assert (0 <= i + j0 * d1 a < size a) by (unfold size; nia).
    set (m := j0 * d1 a) in *.
    replace ((0 <=? off + 2 + i + m) && (off + 2 + i + m <? cells)) with true by lia.
    f_equal. f_equal. lia. }
  destruct j as [j|].
  - destruct Hj as [Hj [Nj Dj]]. cbn [idx2]. rewrite (u32_basic j Hj). unfold basic_int in Hj.
    destruct (d2 a) as [b|] eqn:Ed; [|congruence]. simpl rows in *. cbn [hd2].
    destruct ((j <? 0) || (j >=? b)) eqn:E2.
    + replace ((if j <? 0 then j + 4294967296 else j) =? ARR_DIM2_UNUSED) with false
        by (unfold ARR_DIM2_UNUSED; destruct (j <? 0) eqn:E; lia).
      replace ((if j <? 0 then j + 4294967296 else j) <? b) with false by (destruct (j <? 0) eqn:E; lia).
      eexists; reflexivity.
    + replace (j <? 0) with false by lia. replace (j =? ARR_DIM2_UNUSED) with false by (unfold ARR_DIM2_UNUSED; lia).
      replace (j <? b) with true by lia. split; [apply Done; lia|]. split; [|lia].
      apply (b_el _ _ _ _ B); [lia|rewrite Ed; simpl; lia].
  - cbn [idx2]. rewrite Z.eqb_refl. split; [apply Done; lia|]. split; [|lia].
    apply (b_el _ _ _ _ B); lia.
Qed.

Lemma sim_in_known n cells ids v s p k : sim n cells ids v s -> 0 <= p < 2 ^ n -> keys v p = Some k -> In k (known s).
Proof. intros R Hp Kp. apply (sim_in _ _ _ _ _ _ R), (keys_in n v k (s_tab _ _ _ _ _ R)). eauto. Qed.

Lemma key_self v p k : keys v p = Some k -> forall val, key_of (mkVar (v_type (slot v p)) (v_name (slot v p)) val) = Some k.
Proof. unfold keys, key_of. simpl. intros H val. exact H. Qed.

Lemma arr_type t : t = 1 \/ t = 2 -> t + VAR_ARRAY = 9 \/ t + VAR_ARRAY = 10.
Proof. unfold VAR_ARRAY. lia. Qed.

(** an element access *)
Lemma entry_sim n cells ids v s name t i j : sim n cells ids v s -> legal_name name -> (t = 1 \/ t = 2) ->
  basic_int i ->
  match j with
  | None => match ar s (name, t + VAR_ARRAY) with Some a => 0 < rows (d2 a) | None => True end
  | Some j => basic_int j /\ j <> -1 /\
              match ar s (name, t + VAR_ARRAY) with Some a => d2 a <> None | None => True end
  end ->
  match access (2 ^ n) cells s name t i j with
  | Ok (s', a, (i', j')) => exists v' p off,
      get_arr_entry v name (t + VAR_ARRAY) (u32 i) (idx2 j) = (v', Ok (off + 2 + (i' + j' * d1 a))) /\
      sim n cells ids v' s' /\ 0 <= p < 2 ^ n /\ keys v' p = Some (name, t + VAR_ARRAY) /\
      v_value (slot v' p) = VArr off /\ ar s' (name, t + VAR_ARRAY) = Some a /\
      arr_cell (arrs v') (off + 2 + (i' + j' * d1 a)) = elem a i' j' /\ 0 <= i' < d1 a /\ 0 <= j' < rows (d2 a)
  | Err e => exists v', get_arr_entry v name (t + VAR_ARRAY) (u32 i) (idx2 j) = (v', Err e)
  | UB => False
  end.
Proof.
  intros R N Ht Hi Hj. pose proof (arr_type t Ht) as At. unfold access, get_arr_entry.
  set (k := (name, t + VAR_ARRAY)) in *.
  assert (Ak : isarr k) by (unfold isarr, k; simpl; lia).
  pose proof (get_var_sim n cells ids v s name (t + VAR_ARRAY) R (legal_valid _ N) ltac:(lia)) as G. fold k in G.
  destruct (touch (2 ^ n) s k) as [s1|] eqn:Et; [|destruct G as [v' G]; rewrite G; eexists; reflexivity].
  destruct G as [v1 [p [G [R1 [Hp [Kp Ik]]]]]]. rewrite G.
  assert (As : ar s1 k = ar s k).
  { unfold touch in Et. destruct (mem k (known s)); [congruence|].
    destruct (Z.of_nat (length (known s)) >=? 2 ^ n); [discriminate|]. injection Et as <-. reflexivity. }
  rewrite <- As in Hj. unfold the_array. pose proof (s_ar _ _ _ _ _ R1 p k Hp Kp Ak) as B.
  destruct (ar s1 k) as [a|] eqn:Ea.
  - destruct B as [off [V B]].
    pose proof (at_array n cells ids v1 s1 p k off a i j (t + VAR_ARRAY) R1 Hp Kp Ak V Ea Hi) as Q.
    specialize (Q ltac:(destruct j; [tauto|exact Hj])).
    destruct (subscript a i j) as [[i' j']|e|]; cbn [bind]; [|exact Q|exact Q].
    destruct Q as [Q1 [Q2 [Q3 Q4]]]. exists v1, p, off. repeat (split; try assumption); tauto.
  - set (b := match j with None => None | Some _ => Some 10 end).
    set (a := mkA 10 b (fun _ _ => zero t)).
    pose proof (alloc_spec (arrs v1) cells 10 b t (s_len _ _ _ _ _ R1) (s_size _ _ _ _ _ R1) (s_cells _ _ _ _ _ R1)) as AS.
    rewrite (s_next _ _ _ _ _ R1) in AS. specialize (AS (s_used _ _ _ _ _ R1) ltac:(lia)).
    specialize (AS ltac:(unfold b; destruct j; [lia|exact I]) Ht). cbv zeta in AS. fold a in AS.
    assert (Eb : (if idx2 j =? ARR_DIM2_UNUSED then ARR_DIM2_UNUSED else 10) = hd2 b).
    { unfold b. destruct j as [j|]; simpl hd2; simpl idx2; [|reflexivity].
      destruct Hj as [Hj [Nj _]]. rewrite (u32_basic j Hj). unfold ARR_DIM2_UNUSED, basic_int in *.
      destruct (j <? 0) eqn:E; [replace (j + 4294967296 =? 4294967295) with false by lia|
        replace (j =? 4294967295) with false by lia]; reflexivity. }
    destruct (used s1 + size a + 2 >=? cells) eqn:Fit.
    + eexists. unfold get_arr_entry_via_ptr. rewrite B, Eb, AS. reflexivity.
    + destruct AS as [a' [AS [L' [S' [N' [B' U']]]]]].
      set (v2 := set_arrs (set_slot v1 p (mkVar (v_type (slot v1 p)) (v_name (slot v1 p)) (VArr (used s1)))) a').
      assert (R2 : sim n cells ids v2 (mkS (known s1) (sc s1) (set (ar s1) k (Some a)) (used s1 + size a + 2))).
      { rewrite N' in B'. unfold a. apply sim_alloc; auto; fold a; try lia.
        simpl. exact (slot_name n v1 p (s_tab _ _ _ _ _ R1) Hp). }
      assert (Kp2 : keys v2 p = Some k).
      { destruct (tab_same n v1 p (mkVar (v_type (slot v1 p)) (v_name (slot v1 p)) (VArr (used s1)))
          (s_tab _ _ _ _ _ R1) Hp ltac:(rewrite (key_self v1 p k Kp); auto)
          (slot_name n v1 p (s_tab _ _ _ _ _ R1) Hp)) as [_ [_ K]].
        change (keys v2 p) with (keys (set_slot v1 p (mkVar (v_type (slot v1 p)) (v_name (slot v1 p)) (VArr (used s1)))) p).
        rewrite K by lia. exact Kp. }
      assert (V2 : v_value (slot v2 p) = VArr (used s1)).
      { change (slot v2 p) with (slot (set_slot v1 p (mkVar (v_type (slot v1 p)) (v_name (slot v1 p)) (VArr (used s1)))) p).
        rewrite slot_set; [rewrite Z.eqb_refl; reflexivity| |lia].
        rewrite (tab_len _ _ (s_tab _ _ _ _ _ R1)). lia. }
      assert (Sub : get_arr_entry_via_ptr v1 p (u32 i) (idx2 j) (t + VAR_ARRAY) =
                    get_arr_entry_via_ptr v2 p (u32 i) (idx2 j) (t + VAR_ARRAY)).
      { unfold get_arr_entry_via_ptr. rewrite V2. rewrite B, Eb, AS. reflexivity. }
      rewrite Sub. set (s2 := mkS (known s1) (sc s1) (set (ar s1) k (Some a)) (used s1 + size a + 2)) in *.
      assert (Ea2 : ar s2 k = Some a).
      { unfold s2. cbn [ar]. unfold set. destruct (key_eq k k); [reflexivity|congruence]. }
      pose proof (at_array n cells ids v2 s2 p k (used s1) a i j (t + VAR_ARRAY) R2 Hp Kp2 Ak V2 Ea2 Hi) as Q.
      specialize (Q ltac:(destruct j; [destruct Hj as [Hj1 [Hj2 _]]; split; [exact Hj1|split; [exact Hj2|unfold a, b; cbn [d2]; congruence]]|unfold a, b; simpl; lia])).
      destruct (subscript a i j) as [[i' j']|e|]; cbn [bind]; [|exact Q|exact Q].
      destruct Q as [Q1 [Q2 [Q3 Q4]]]. exists v2, p, (used s1). repeat (split; try assumption); tauto.
Qed.

(** rewriting a slot with the same key and value *)
Lemma sim_rename n cells ids v s p k x : sim n cells ids v s -> 0 <= p < 2 ^ n -> keys v p = Some k ->
  key_of x = Some k -> length (v_name x) = 16%nat -> v_value x = v_value (slot v p) ->
  sim n cells ids (set_slot v p x) s.
Proof.
  intros R Hp Kp Kx Lx Vx. pose proof (s_tab _ _ _ _ _ R) as T. pose proof (tab_len _ _ T) as TL.
  destruct (tab_same n v p x T Hp ltac:(congruence) Lx) as [T' [O' K']].
  assert (Sl : forall q, 0 <= q -> v_value (slot (set_slot v p x) q) = v_value (slot v q)).
  { intros q Hq. rewrite (slot_set v p q x ltac:(lia) Hq). destruct (q =? p) eqn:E; [|reflexivity].
    replace q with p by lia. exact Vx. }
  destruct R. constructor; try assumption.
  - change (vars (set_slot v p x)) with (vars (set_slot v p x)). rewrite O'. assumption.
  - intros q k2 Hq Hk. rewrite K' in Hk by lia. rewrite Sl by lia. apply s_sc0; assumption.
  - intros q k2 Hq Hk. rewrite K' in Hk by lia. rewrite Sl by lia. apply s_ar0; assumption.
  - intros p1 q1 kp kq op oq xp xq H1 H2 Ne K1 K2 A1 A2 V1 V2 X1 X2.
    rewrite K' in K1, K2 by lia. rewrite Sl in V1, V2 by lia.
    exact (s_disj0 p1 q1 kp kq op oq xp xq H1 H2 Ne K1 K2 A1 A2 V1 V2 X1 X2).
Qed.

Lemma upd_upd {A} (l : list A) i x y : upd (upd l i x) i y = upd l i y.
Proof. revert i. induction l; intros [|i]; simpl; try reflexivity. rewrite IHl. reflexivity. Qed.

Lemma sim_inc_ids n cells v s : sim n cells true v s -> sim n cells true (inc_count v) s.
Proof. intros R. destruct R. constructor; try assumption. - apply tab_inc; assumption. - discriminate. Qed.

Lemma dim_sim n cells ids v s name t a b : sim n cells ids v s -> legal_name name -> (t = 1 \/ t = 2) ->
  0 <= a < 524288 -> match b with None => True | Some b => 0 <= b < 524288 /\ a * b < 2147483648 end ->
  match sstep (2 ^ n) cells ids s (Dim name t a b) with
  | (s', r) => exists v', step v (Dim name t a b) = (v', r) /\ (r = RUnit -> sim n cells ids v' s')
  end.
Proof.
  intros R N Ht Ha Hb. pose proof (arr_type t Ht) as At. cbn [sstep step].
  set (k := (name, t + VAR_ARRAY)).
  assert (Ak : isarr k) by (unfold isarr, k; simpl; lia).
  assert (Ht0 : t + VAR_ARRAY <> 0) by lia.
  pose proof (s_tab _ _ _ _ _ R) as T. pose proof (sim_full _ _ _ _ _ R) as FL.
  assert (Ea : u32 a = a) by (unfold u32; change (2^32) with 4294967296; lia).
  assert (Eb : idx2 b = hd2 b).
  { destruct b as [b|]; simpl; [|reflexivity]. unfold u32. change (2^32) with 4294967296. lia. }
  rewrite Ea, Eb. unfold dim.
  set (x := mkA a b (fun _ _ => zero t)).
  pose proof (alloc_spec (arrs v) cells a b t (s_len _ _ _ _ _ R) (s_size _ _ _ _ _ R) (s_cells _ _ _ _ _ R)) as AS.
  rewrite (s_next _ _ _ _ _ R) in AS. specialize (AS (s_used _ _ _ _ _ R) Ha Hb Ht). cbv zeta in AS. fold x in AS.
  unfold touch.
  pose proof (search_cases n v name (t + VAR_ARRAY) T (legal_valid _ N) Ht0) as SC.
  change (name, t + VAR_ARRAY) with k in SC. cbv zeta in SC.
  destruct SC as [[p [E [Hp Kp]]]|[[p [E [Hp [Kp [F [NO Len]]]]]]|[E [NO Len]]]]; rewrite E.
  - (* known *)
    pose proof (sim_in_known _ _ _ _ _ _ _ R Hp Kp) as Ik.
    replace (mem k (known s)) with true by (symmetry; apply mem_spec; exact Ik).
    assert (Nt : v_type (slot v p) =? VAR_EMPTY = false).
    { unfold keys, key_of in Kp. destruct (v_type (slot v p) =? VAR_EMPTY); [discriminate|reflexivity]. }
    rewrite Nt, (s_ids _ _ _ _ _ R). cbn [orb andb].
    pose proof (s_ar _ _ _ _ _ R p k Hp Kp Ak) as B.
    destruct (ar s k) as [y|] eqn:Ey.
    { destruct B as [off [V _]]. rewrite V. rewrite andb_false_r. cbn [negb].
      unfold dim_result. cbn [v_error set_error]. eexists. split; [reflexivity|discriminate]. }
    rewrite B. destruct ids; cbn [andb negb].
    2:{ unfold dim_result. cbn [v_error set_error]. eexists. split; [reflexivity|discriminate]. }
    pose proof (sim_inc_ids _ _ _ _ R) as Ri.
    pose proof (key_new name (t + VAR_ARRAY) (v_name (slot v p)) ) as KN.
    assert (LN : length (set_name (v_name (slot v p)) name) = 16%nat).
    { apply set_name_length; [exact (slot_name n v p T Hp)|apply N]. }
    change (arrs (inc_count v)) with (arrs v).
    destruct (used s + size x + 2 >=? cells) eqn:Fit.
    + rewrite AS. unfold dim_result. cbn [v_error inc_count set_slot set_vars]. rewrite (s_err _ _ _ _ _ R).
      eexists. split; [reflexivity|]. intros _.
      apply (sim_rename n cells true (inc_count v) s p k); auto.
    + destruct AS as [a' [AS [L' [S' [N' [B' U']]]]]]. rewrite AS.
      unfold dim_result. cbn [v_error inc_count set_slot set_vars set_arrs]. rewrite (s_err _ _ _ _ _ R).
      eexists. split; [reflexivity|]. intros _.
      apply (sim_alloc n cells true (inc_count v) s p k a b t a'); auto; fold x; try lia. rewrite <- N'. exact B'.
  - (* new *)
    assert (NI : ~ In k (known s)) by (intro C; apply NO, (sim_in _ _ _ _ _ _ R), C).
    replace (mem k (known s)) with false by (symmetry; apply not_true_is_false; intro C; apply mem_spec in C; contradiction).
    cbn [andb]. rewrite FL. replace (Z.of_nat (length (okeys (vars v))) >=? 2 ^ n) with false by lia.
    assert (Nt : v_type (slot v p) =? VAR_EMPTY = true).
    { unfold keys, key_of in Kp. destruct (v_type (slot v p) =? VAR_EMPTY); [reflexivity|discriminate]. }
    rewrite Nt. cbn [orb].
    pose proof (fun val => key_new name (t + VAR_ARRAY) (v_name (slot v p)) val N Ht0) as KN.
    assert (LN : length (set_name (v_name (slot v p)) name) = 16%nat).
    { apply set_name_length; [exact (slot_name n v p T Hp)|apply N]. }
    assert (R' : sim n cells ids (set_slot (inc_count v) p (mkVar (t + VAR_ARRAY) (set_name (v_name (slot v p)) name) VNull))
        (mkS (k :: known s) (sc s) (ar s) (used s))).
    { apply sim_insert with (v := v) (s := s) (k := k); auto. unfold scalar; simpl. intros. lia. }
    change (arrs (inc_count v)) with (arrs v). cbn [used sc known ar].
    destruct (used s + size x + 2 >=? cells) eqn:Fit.
    + rewrite AS. unfold dim_result. cbn [v_error inc_count set_slot set_vars]. rewrite (s_err _ _ _ _ _ R).
      eexists. split; [reflexivity|]. intros _. exact R'.
    + destruct AS as [a' [AS [L' [S' [N' [B' U']]]]]]. rewrite AS.
      unfold dim_result. cbn [v_error inc_count set_slot set_vars set_arrs]. rewrite (s_err _ _ _ _ _ R).
      eexists. split; [reflexivity|]. intros _.
      set (v1 := set_slot (inc_count v) p (mkVar (t + VAR_ARRAY) (set_name (v_name (slot v p)) name) VNull)) in *.
      assert (Kv1 : keys v1 p = Some k).
      { unfold keys, v1. rewrite slot_set; [rewrite Z.eqb_refl; apply KN| |lia].
        simpl. rewrite (tab_len _ _ T). lia. }
      set (x0 := mkVar (t + VAR_ARRAY) (set_name (v_name (slot v p)) name) (VArr (used s))).
      assert (Same : set_arrs (set_slot (inc_count v) p x0) a' = set_arrs (set_slot v1 p x0) a').
      { unfold v1, set_slot, set_vars, set_arrs. simpl. rewrite upd_upd. reflexivity. }
      change (sim n cells ids (set_arrs (set_slot (inc_count v) p x0) a')
        (mkS (k :: known s) (sc s) (set (ar s) k (Some x)) (used s + size x + 2))).
      rewrite Same.
      apply (sim_alloc n cells ids v1 (mkS (k :: known s) (sc s) (ar s) (used s)) p k a b t a'); auto; fold x; cbn [ar used]; try lia.
      * destruct (s_fresh _ _ _ _ _ R k NI) as [_ Fr]. exact Fr.
      * rewrite <- N'. exact B'.
      * apply KN.
  - (* full *)
    assert (NI : ~ In k (known s)) by (intro C; apply NO, (sim_in _ _ _ _ _ _ R), C).
    replace (mem k (known s)) with false by (symmetry; apply not_true_is_false; intro C; apply mem_spec in C; contradiction).
    cbn [andb]. rewrite FL. replace (Z.of_nat (length (okeys (vars v))) >=? 2 ^ n) with true by lia.
    unfold dim_result. cbn [v_error set_error]. eexists. split; [reflexivity|discriminate].
Qed.
