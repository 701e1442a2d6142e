(** Histories of variable and array operations follow the reference behaviour *)
From Verif Require Import Base BaseLemmas Hash HashProofs Vars VarsSpec VarsProofs VarsSim.
From Coq Require Import Permutation.
Open Scope Z_scope.
Ltac Zify.zify_post_hook ::= Z.div_mod_to_equations.

Lemma okeys_none l : (forall x, In x l -> key_of x = None) -> okeys l = [].
Proof.
  intros H. destruct (okeys l) as [|k t] eqn:E; [reflexivity|].
  assert (In k (okeys l)) by (rewrite E; left; reflexivity).
  apply okeys_in in H0 as [x [Hx Kx]]. rewrite (H x Hx) in Kx. discriminate.
Qed.

(** a table without any name *)
Lemma sim_none n cells ids v : 0 <= n -> 0 <= cells < 2 ^ 30 -> vars_max v = 2 ^ n ->
  length (vars v) = Z.to_nat (2 ^ n) -> Forall (fun x => length (v_name x) = 16%nat) (vars v) ->
  (forall x, In x (vars v) -> v_type x = VAR_EMPTY) ->
  v_error v = None -> clear_values v = ids -> var_count v = 0 ->
  length (arr_data (arrs v)) = Z.to_nat cells -> arr_data_size (arrs v) = cells -> arr_data_next (arrs v) = 0 ->
  sim n cells ids v (mkS [] (fun k => zero (snd k)) (fun _ => None) 0).
Proof.
  intros Hn Hc Mx Ln Nm Em Er Id Ct La Sz Nx.
  assert (Kn : forall x, In x (vars v) -> key_of x = None).
  { intros x Hx. unfold key_of. rewrite (Em x Hx). reflexivity. }
  assert (Ks : forall p, 0 <= p < 2 ^ n -> keys v p = None).
  { intros p Hp. apply Kn. apply nth_In. lia. }
  assert (Kz : forall p, keys v p = None).
  { intros p. unfold keys, slot. destruct (nth_in_or_default (Z.to_nat p) (vars v) no_var) as [H|H].
    - apply Kn, H. - rewrite H. reflexivity. }
  constructor; cbn [known sc ar used]; try assumption; try lia.
  - constructor; try assumption. intros p k Hp K. rewrite Ks in K by assumption. discriminate.
  - rewrite okeys_none by assumption. constructor.
  - intros p k Hp K. rewrite Kz in K. discriminate.
  - intros p k Hp K. rewrite Kz in K. discriminate.
  - intros k _. split; reflexivity.
  - intros p q kp kq op oq xp xq H1 H2 Ne K1. rewrite Kz in K1. discriminate.
  - intros _. exact Ct.
Qed.

Lemma repeat_all {A} (x y : A) m : In y (repeat x m) -> y = x.
Proof. apply repeat_spec. Qed.

Lemma init_sim n elements ids : 0 <= n -> 0 <= elements -> elements + 2 * 2 ^ n < 2 ^ 30 ->
  sim n (elements + 2 * 2 ^ n) ids (init_vars (2 ^ n) elements ids) sinit.
Proof.
  intros Hn He Hc. assert (0 < 2 ^ n) by (apply Z.pow_pos_nonneg; lia).
  apply sim_none; try assumption; try reflexivity; try lia.
  - simpl. apply repeat_length.
  - apply Forall_forall. intros x Hx. simpl in Hx. apply repeat_all in Hx. subst. reflexivity.
  - intros x Hx. simpl in Hx. apply repeat_all in Hx. subst. reflexivity.
  - simpl. apply repeat_length.
Qed.

Lemma key_reset x : key_of (reset_value x) = key_of x.
Proof. reflexivity. Qed.
Lemma slot_reset v p : slot (set_vars v (map reset_value (vars v))) p = reset_value (slot v p).
Proof.
  unfold slot. simpl. replace no_var with (reset_value no_var) at 1 by reflexivity. apply map_nth.
Qed.
Lemma okeys_map_reset l : okeys (map reset_value l) = okeys l.
Proof. unfold okeys. rewrite !flat_map_concat_map, map_map. reflexivity. Qed.

Lemma clear_sim n cells ids v s : sim n cells ids v s ->
  sim n cells ids (cmd_clear v) (mkS (if ids then known s else []) (fun k => zero (snd k)) (fun _ => None) 0).
Proof.
  intros R. pose proof (s_tab _ _ _ _ _ R) as T. unfold cmd_clear, reset_var. rewrite (s_ids _ _ _ _ _ R).
  destruct ids.
  - set (v' := set_arrs _ _).
    assert (Sl : forall p, slot v' p = reset_value (slot v p)) by (intro p; exact (slot_reset v p)).
    assert (Ks : forall p, keys v' p = keys v p) by (intro p; unfold keys; rewrite Sl; apply key_reset).
    constructor; cbn [known sc ar used].
    + constructor.
      * exact (tab_n _ _ T).
      * exact (tab_max _ _ T).
      * simpl. rewrite map_length. exact (tab_len _ _ T).
      * simpl. apply Forall_map. eapply Forall_impl; [|exact (tab_names _ _ T)]. intros x Hx. exact Hx.
      * intros p k Hp K. rewrite Ks in K. eapply first_stop_ext; [|exact (tab_good _ _ T p k Hp K)].
        intros q. unfold stop_for. rewrite Ks. reflexivity.
    + simpl. rewrite okeys_map_reset. exact (s_known _ _ _ _ _ R).
    + exact (s_err _ _ _ _ _ R).
    + exact (s_ids _ _ _ _ _ R).
    + exact (s_cells _ _ _ _ _ R).
    + simpl. rewrite repeat_length, (s_size _ _ _ _ _ R). reflexivity.
    + exact (s_size _ _ _ _ _ R).
    + reflexivity.
    + pose proof (s_cells _ _ _ _ _ R). lia.
    + intros p k Hp K Hs. rewrite Sl. rewrite Ks in K. unfold keys, key_of in K.
      destruct (v_type (slot v p) =? VAR_EMPTY); [discriminate|]. injection K as <-.
      unfold scalar in Hs. simpl in Hs. simpl. unfold zero. destruct Hs as [->| ->]; reflexivity.
    + intros p k Hp K Hs. rewrite Sl. rewrite Ks in K. unfold keys, key_of in K.
      destruct (v_type (slot v p) =? VAR_EMPTY); [discriminate|]. injection K as <-.
      unfold isarr in Hs. simpl in Hs. simpl. destruct Hs as [->| ->]; reflexivity.
    + intros k _. split; reflexivity.
    + intros p q kp kq op oq xp xq H1 H2 Ne K1 K2 A1 A2 V1 V2 X1. discriminate.
    + discriminate.
  - apply sim_none; try reflexivity.
    + exact (tab_n _ _ T).
    + exact (s_cells _ _ _ _ _ R).
    + exact (tab_max _ _ T).
    + simpl. rewrite map_length. exact (tab_len _ _ T).
    + simpl. apply Forall_map. eapply Forall_impl; [|exact (tab_names _ _ T)]. intros x Hx. exact Hx.
    + intros x Hx. simpl in Hx. apply in_map_iff in Hx as [y [<- _]]. reflexivity.
    + exact (s_err _ _ _ _ _ R).
    + simpl. rewrite repeat_length, (s_size _ _ _ _ _ R). reflexivity.
    + exact (s_size _ _ _ _ _ R).
Qed.

Definition fails (r : result) : bool := match r with RErr _ | RUB => true | _ => false end.

Lemma step_sim n cells ids v s o : sim n cells ids v s -> allowed ids s o ->
  match sstep (2 ^ n) cells ids s o with
  | (s', r) => exists v', step v o = (v', r) /\ (fails r = false -> sim n cells ids v' s') /\ r <> RUB
  end.
Proof.
  intros R Al. destruct o as [nm t|nm t x|nm t a b|nm t i j|nm t i j x| |].
  - destruct Al as [N Ht]. cbn [sstep step].
    pose proof (get_var_sim n cells ids v s nm t R (legal_valid _ N) ltac:(lia)) as G.
    destruct (touch (2 ^ n) s (nm, t)) as [s1|].
    + destruct G as [v1 [p [G [R1 [Hp [Kp _]]]]]]. rewrite G. exists v1. split.
      * f_equal. f_equal. apply (s_sc _ _ _ _ _ R1 p (nm, t) Hp Kp). unfold scalar. simpl. exact Ht.
      * split; [intros _; exact R1|discriminate].
    + destruct G as [v' G]. rewrite G. eexists. split; [reflexivity|]. split; discriminate.
  - destruct Al as [N Ht]. cbn [sstep step].
    pose proof (get_var_sim n cells ids v s nm t R (legal_valid _ N) ltac:(lia)) as G.
    destruct (touch (2 ^ n) s (nm, t)) as [s1|].
    + destruct G as [v1 [p [G [R1 [Hp [Kp _]]]]]]. rewrite G. eexists. split; [reflexivity|].
      split; [intros _|discriminate]. apply sim_write; auto.
    + destruct G as [v' G]. rewrite G. eexists. split; [reflexivity|]. split; discriminate.
  - destruct Al as [N [Ht [Ha Hb]]].
    pose proof (dim_sim n cells ids v s nm t a b R N Ht Ha Hb) as D.
    destruct (sstep (2 ^ n) cells ids s (Dim nm t a b)) as [s' r] eqn:E.
    destruct D as [v' [D1 D2]]. exists v'. split; [exact D1|].
    assert (Ok : r = RUnit \/ exists e, r = RErr e).
    { cbn [sstep] in E. destruct (_ && negb _); [injection E as _ <-; eauto|].
      destruct (touch _ _ _); [|injection E as _ <-; eauto].
      destruct (_ >=? cells); injection E as _ <-; auto. }
    destruct Ok as [->|[e ->]]; (split; [auto|discriminate]). simpl; discriminate.
  - destruct Al as [N [Ht [Hi Hj]]]. cbn [sstep step].
    pose proof (entry_sim n cells ids v s nm t i j R N Ht Hi Hj) as D.
    destruct (access (2 ^ n) cells s nm t i j) as [[[s' a] [i' j']]|e|]; [| |contradiction].
    + destruct D as [v' [p [off [D1 [R' [Hp [Kp [V [Ea [C _]]]]]]]]]]. rewrite D1. exists v'.
      split; [rewrite C; reflexivity|]. split; [intros _; exact R'|discriminate].
    + destruct D as [v' D]. rewrite D. eexists. split; [reflexivity|]. split; discriminate.
  - destruct Al as [N [Ht [Hi Hj]]]. cbn [sstep step].
    pose proof (entry_sim n cells ids v s nm t i j R N Ht Hi Hj) as D.
    destruct (access (2 ^ n) cells s nm t i j) as [[[s' a] [i' j']]|e|]; [| |contradiction].
    + destruct D as [v' [p [off [D1 [R' [Hp [Kp [V [Ea [C [Bi Bj]]]]]]]]]]]. rewrite D1. eexists.
      split; [reflexivity|]. split; [intros _|discriminate].
      apply (sim_awrite n cells ids v' s' p (nm, t + VAR_ARRAY) off a i' j' x R' Hp Kp); auto.
      unfold isarr. simpl. apply arr_type, Ht.
    + destruct D as [v' D]. rewrite D. eexists. split; [reflexivity|]. split; discriminate.
  - cbn [sstep step]. eexists. split; [reflexivity|]. split; [intros _|discriminate]. apply clear_sim, R.
  - cbn [sstep step]. exists v. split.
    + rewrite (tab_max _ _ (s_tab _ _ _ _ _ R)), (s_count _ _ _ _ _ R Al). reflexivity.
    + split; [intros _; exact R|discriminate].
Qed.

Lemma run_sim n cells ids ops : forall v s, sim n cells ids v s -> all_allowed (2 ^ n) cells ids s ops ->
  run v ops = srun (2 ^ n) cells ids s ops.
Proof.
  induction ops as [|o t IH]; intros v s R Al; [reflexivity|].
  destruct Al as [A1 A2]. pose proof (step_sim n cells ids v s o R A1) as S. cbn [run srun].
  destruct (sstep (2 ^ n) cells ids s o) as [s' r]. destruct S as [v' [E [R' _]]]. rewrite E.
  destruct r; try reflexivity; f_equal; apply IH; auto.
Qed.

Lemma run_no_ub n cells ids ops : forall v s, sim n cells ids v s -> all_allowed (2 ^ n) cells ids s ops ->
  ~ In RUB (run v ops).
Proof.
  induction ops as [|o t IH]; intros v s R Al; [simpl; tauto|].
  destruct Al as [A1 A2]. pose proof (step_sim n cells ids v s o R A1) as S. cbn [run].
  destruct (sstep (2 ^ n) cells ids s o) as [s' r]. destruct S as [v' [E [R' NU]]]. rewrite E.
  destruct r as [x| |e|]; [| | |congruence].
  - intros [C|C]; [discriminate|]. exact (IH v' s' (R' eq_refl) A2 C).
  - intros [C|C]; [discriminate|]. exact (IH v' s' (R' eq_refl) A2 C).
  - intros [C|C]; [discriminate|exact C].
Qed.

Lemma history n elements ids ops : 0 <= n -> 0 <= elements -> elements + 2 * 2 ^ n < 2 ^ 30 ->
  all_allowed (2 ^ n) (elements + 2 * 2 ^ n) ids sinit ops ->
  run (init_vars (2 ^ n) elements ids) ops = srun (2 ^ n) (elements + 2 * 2 ^ n) ids sinit ops /\
  ~ In RUB (run (init_vars (2 ^ n) elements ids) ops).
Proof.
  intros Hn He Hc Al. pose proof (init_sim n elements ids Hn He Hc) as R. split.
  - apply (run_sim _ _ _ _ _ _ R Al).
  - apply (run_no_ub _ _ _ _ _ _ R Al).
Qed.
