(** Two hosts that correspond step by step run programs alike: what the reference run [run_program] does on the first
    it does on the second.  Where the first host leaves something unspecified, nothing is claimed. *)
From Verif Require Import Base Tokens ExprSpec ExprProofs NumText Bytecode BytecodeSpec Runner RunnerSpec StmtSpec ExecProofs FlowSpec ForSpec ProgSpec.

Lemma Forall2_length {A B} (P : A -> B -> Prop) l m : Forall2 P l m -> length l = length m.
Proof. induction 1; cbn [length]; congruence. Qed.
Definition okr {A B} (Q : A -> B -> Prop) (x : outcome A) (y : outcome B) : Prop :=
  match x with Ok a => exists b, y = Ok b /\ Q a b | Err e => y = Err e | UB => True end.
Lemma okr_bind {A B C D} (Q : A -> B -> Prop) (P : C -> D -> Prop) x y f g :
  okr Q x y -> (forall a b, Q a b -> okr P (f a) (g b)) -> okr P (bind x f) (bind y g).
Proof. destruct x as [a|e|]; cbn [okr bind]; [|intros -> _; reflexivity|auto]. intros (b & -> & G) F. apply F. exact G. Qed.
Lemma okr_mono {A B} (Q P : A -> B -> Prop) x y : okr Q x y -> (forall a b, Q a b -> P a b) -> okr P x y.
Proof. destruct x; cbn [okr]; auto. intros (b & E & G) F. eauto. Qed.
Lemma okr_ok {A B} (Q : A -> B -> Prop) a b : Q a b -> okr Q (Ok a) (Ok b).
Proof. intros G. exists b. auto. Qed.

Section HostSim.
Variables h1 h2 : host.
Variable R : St h1 -> St h2 -> Prop.
(** places that correspond, in states that correspond *)
Variable LR : St h1 -> St h2 -> bool -> Loc h1 -> Loc h2 -> Prop.
Definition ext s1 s2 t1 t2 : Prop := forall b l m, LR s1 s2 b l m -> LR t1 t2 b l m.
Definition er s1 s2 (x : entry (Loc h1)) (y : entry (Loc h2)) : Prop :=
  match x, y with
  | EN a, EN b => a = b
  | ES c a, ES d b => c = d /\ a = b
  | ER b l, ER c m => b = c /\ LR s1 s2 b l m
  | EO a, EO b => a = b
  | _, _ => False
  end.
(** the states after, still knowing the places of before *)
Definition on s1 s2 t1 t2 : Prop := R t1 t2 /\ ext s1 s2 t1 t2.
Definition on_state s1 s2 t1 t2 : Prop := on s1 s2 t1 t2.
Definition on_value s1 s2 (x : entry (Loc h1) * St h1) (y : entry (Loc h2) * St h2) : Prop :=
  on s1 s2 (snd x) (snd y) /\ er (snd x) (snd y) (fst x) (fst y).
Definition on_values s1 s2 (x : list (entry (Loc h1)) * St h1) (y : list (entry (Loc h2)) * St h2) : Prop :=
  on s1 s2 (snd x) (snd y) /\ Forall2 (er (snd x) (snd y)) (fst x) (fst y).
Definition on_place s1 s2 (x : bool * Loc h1 * St h1) (y : bool * Loc h2 * St h2) : Prop :=
  let '(b, l, t1) := x in let '(c, m, t2) := y in b = c /\ on s1 s2 t1 t2 /\ LR t1 t2 b l m.

Variable strv1 : St h1 -> Loc h1 -> list Z.
Variable strv2 : St h2 -> Loc h2 -> list Z.
Record hosts_agree : Prop := {
  a_same : forall s1 s2 b c l m l' m', R s1 s2 -> LR s1 s2 b l m -> LR s1 s2 c l' m' -> same h1 l l' = same h2 m m';
  a_getn : forall s1 s2 l m, R s1 s2 -> LR s1 s2 false l m -> getn h1 s1 l = getn h2 s2 m;
  a_setn : forall s1 s2 l m v, R s1 s2 -> LR s1 s2 false l m -> on s1 s2 (setn h1 s1 l v) (setn h2 s2 m v);
  a_strv : forall s1 s2 l m, R s1 s2 -> LR s1 s2 true l m -> strv1 s1 l = strv2 s2 m;
  a_var : forall r s1 s2, R s1 s2 -> okr (on_place s1 s2) (hvar h1 r s1) (hvar h2 r s2);
  a_arr : forall r s1 s2 vs ws, R s1 s2 -> Forall2 (er s1 s2) vs ws -> okr (on_place s1 s2) (harr h1 r vs s1) (harr h2 r ws s2);
  a_dim : forall w s1 s2 vs ws, R s1 s2 -> Forall2 (er s1 s2) vs ws -> okr (on_state s1 s2) (hdim h1 w vs s1) (hdim h2 w ws s2);
  a_un : forall o s1 s2 v w, R s1 s2 -> er s1 s2 v w -> okr (on_value s1 s2) (hun h1 o v s1) (hun h2 o w s2);
  a_bin : forall o s1 s2 v w v' w', R s1 s2 -> er s1 s2 v w -> er s1 s2 v' w' -> okr (on_value s1 s2) (hbin h1 o v v' s1) (hbin h2 o w w' s2);
  a_sassign : forall s1 s2 l m v w, R s1 s2 -> LR s1 s2 true l m -> er s1 s2 v w -> okr (on_state s1 s2) (hsassign h1 l v s1) (hsassign h2 m w s2);
  a_fun : forall c s1 s2 vs ws, R s1 s2 -> Forall2 (er s1 s2) vs ws -> okr (on_value s1 s2) (hfun h1 c vs s1) (hfun h2 c ws s2);
  a_sys : forall c s1 s2, R s1 s2 -> okr (on_value s1 s2) (hsys h1 c s1) (hsys h2 c s2);
  a_check : forall c s1 s2, R s1 s2 -> okr (on_state s1 s2) (hcheck h1 c s1) (hcheck h2 c s2);
  a_cmd : forall c s1 s2 vs ws, R s1 s2 -> Forall2 (er s1 s2) vs ws -> okr (on_state s1 s2) (hcmd h1 c vs s1) (hcmd h2 c ws s2)
}.
Hypothesis A : hosts_agree.
Variable ref : bool -> list Z -> vref.

Lemma ext_refl s1 s2 : ext s1 s2 s1 s2. Proof. intros b l m G. exact G. Qed.
Lemma on_refl s1 s2 : R s1 s2 -> on s1 s2 s1 s2. Proof. intros G. split; [exact G|apply ext_refl]. Qed.
Lemma on_trans s1 s2 t1 t2 u1 u2 : on s1 s2 t1 t2 -> on t1 t2 u1 u2 -> on s1 s2 u1 u2.
Proof. intros [_ E] [G F]. split; [exact G|]. intros b l m L. apply F, E, L. Qed.
Lemma er_ext s1 s2 t1 t2 x y : ext s1 s2 t1 t2 -> er s1 s2 x y -> er t1 t2 x y.
Proof. intros E. destruct x, y; cbn [er]; auto. intros [-> L]. auto. Qed.
Lemma ers_ext s1 s2 t1 t2 x y : ext s1 s2 t1 t2 -> Forall2 (er s1 s2) x y -> Forall2 (er t1 t2) x y.
Proof. intros E F. induction F; constructor; eauto using er_ext. Qed.

Lemma place_value s1 s2 x y : okr (on_place s1 s2) x y ->
  okr (on_value s1 s2) (let* (b, l, st) := x in Ok (ER b l, st)) (let* (b, l, st) := y in Ok (ER b l, st)).
Proof.
  intros G. eapply okr_bind; [exact G|]. intros [[b l] t1] [[c m] t2] (-> & O & L). apply okr_ok. split; [exact O|]. cbn. auto.
Qed.
Lemma sems_sim l : Forall (fun e => forall s1 s2, R s1 s2 -> okr (on_value s1 s2) (sem h1 ref e s1) (sem h2 ref e s2)) l ->
  forall s1 s2, R s1 s2 -> okr (on_values s1 s2) (sems h1 ref l s1) (sems h2 ref l s2).
Proof.
  induction 1 as [|e l He F IH]; intros s1 s2 G; cbn [sems]; [apply okr_ok; split; [apply on_refl, G|constructor]|].
  eapply okr_bind; [apply He, G|]. intros [v t1] [w t2] (O1 & E1). cbn [fst snd] in *. eapply okr_bind; [apply IH, O1|].
  intros [vs u1] [ws u2] (O2 & E2). cbn [fst snd] in *. apply okr_ok. split; [eapply on_trans; eauto|]. constructor; [|exact E2]. eapply er_ext; [apply O2|exact E1].
Qed.
Lemma sem_sim e : forall s1 s2, R s1 s2 -> okr (on_value s1 s2) (sem h1 ref e s1) (sem h2 ref e s2).
Proof.
  induction e as [k c w|e IH|o e IH|o l r IHl IHr|fn c w b args IH] using expr_ind2; intros s1 s2 G; cbn [sem].
  - assert (V : okr (on_value s1 s2) (let* (b, l, st) := hvar h1 (ref false w) s1 in Ok (ER b l, st)) (let* (b, l, st) := hvar h2 (ref false w) s2 in Ok (ER b l, st)))
      by (apply place_value, (a_var A), G).
    assert (N : okr (on_value s1 s2) (match lit k w with Some v => Ok (EN v, s1) | None => UB end) (match lit k w with Some v => Ok (EN v, s2) | None => UB end)).
    { destruct (lit k w); [|exact I]. apply okr_ok. split; [apply on_refl, G|reflexivity]. }
    destruct k; try exact V; try exact N.
    + apply okr_ok. split; [apply on_refl, G|split; reflexivity].
    + apply (a_sys A), G.
  - apply IH, G.
  - eapply okr_bind; [apply IH, G|]. intros [v t1] [w t2] (O1 & E1). cbn [fst snd] in *.
    eapply okr_mono; [apply (a_un A); [apply O1|exact E1]|]. intros [v' u1] [w' u2] (O2 & E2). split; [eapply on_trans; eauto|exact E2].
  - eapply okr_bind; [apply IHl, G|]. intros [v t1] [w t2] (O1 & E1). cbn [fst snd] in *.
    eapply okr_bind; [apply IHr, O1|]. intros [v' u1] [w' u2] (O2 & E2). cbn [fst snd] in *.
    eapply okr_mono; [apply (a_bin A); [apply O2|eapply er_ext; [apply O2|exact E1]|exact E2]|]. intros [x y1] [x' y2] (O3 & E3).
    split; [eapply on_trans; [eapply on_trans; eauto|exact O3]|exact E3].
  - rewrite !sem_sems. eapply okr_bind; [apply sems_sim; [exact IH|exact G]|]. intros [vs t1] [ws t2] (O1 & E1). cbn [fst snd] in *.
    assert (Up : forall x y, okr (on_value t1 t2) x y -> okr (on_value s1 s2) x y).
    { intros x y H. eapply okr_mono; [exact H|]. intros p q (O2 & E2). split; [eapply on_trans; eauto|exact E2]. }
    destruct fn; [apply Up, (a_fun A); [apply O1|exact E1]|].
    inversion E1; subst; apply Up, place_value; [apply (a_var A), O1|apply (a_arr A); [apply O1|exact E1]].
Qed.
Lemma asem_sim a s1 s2 : R s1 s2 -> okr (on_value s1 s2) (asem h1 ref a s1) (asem h2 ref a s2).
Proof. intros G. destruct a; cbn [asem]; [apply sem_sim, G|]. apply okr_ok. split; [apply on_refl, G|split; reflexivity]. Qed.
Lemma asems_sim l : forall s1 s2, R s1 s2 -> okr (on_values s1 s2) (asems h1 ref l s1) (asems h2 ref l s2).
Proof.
  induction l as [|a l IH]; intros s1 s2 G; cbn [asems]; [apply okr_ok; split; [apply on_refl, G|constructor]|].
  eapply okr_bind; [apply asem_sim, G|]. intros [v t1] [w t2] (O1 & E1). cbn [fst snd] in *. eapply okr_bind; [apply IH, O1|].
  intros [vs u1] [ws u2] (O2 & E2). cbn [fst snd] in *. apply okr_ok. split; [eapply on_trans; eauto|]. constructor; [|exact E2]. eapply er_ext; [apply O2|exact E1].
Qed.
Lemma osem_sim o s1 s2 : R s1 s2 -> okr (on_values s1 s2) (osem h1 ref o s1) (osem h2 ref o s2).
Proof.
  intros G. destruct o as [e|]; cbn [osem]; [|apply okr_ok; split; [apply on_refl, G|constructor]].
  eapply okr_bind; [apply sem_sim, G|]. intros [v t1] [w t2] (O1 & E1). apply okr_ok. split; [exact O1|]. constructor; [exact E1|constructor].
Qed.
Lemma isems_sim l : forall s1 s2, R s1 s2 -> okr (on_values s1 s2) (isems h1 ref l s1) (isems h2 ref l s2).
Proof.
  induction l as [|[o s] l IH]; intros s1 s2 G; cbn [isems]; [apply okr_ok; split; [apply on_refl, G|constructor]|].
  eapply okr_bind; [apply osem_sim, G|]. intros [v t1] [w t2] (O1 & E1). cbn [fst snd] in *. eapply okr_bind; [apply IH, O1|].
  intros [vs u1] [ws u2] (O2 & E2). cbn [fst snd] in *. apply okr_ok. split; [eapply on_trans; eauto|]. cbn [fst snd].
  apply Forall2_app; [eapply ers_ext; [apply O2|exact E1]|]. constructor; [reflexivity|exact E2].
Qed.
Lemma value_num_sim s1 s2 v w : R s1 s2 -> er s1 s2 v w -> okr eq (value_num h1 s1 v) (value_num h2 s2 w).
Proof.
  intros G E. destruct v as [x|c x|[] l|x], w as [y|d y|[] m|y]; cbn [er value_num] in *; try contradiction; try exact I; try (destruct E as [? _]; discriminate).
  - subst. apply okr_ok. reflexivity.
  - destruct E as [_ L]. apply okr_ok. apply (a_getn A); assumption.
Qed.
Lemma assign_sim s1 s2 a b v w : R s1 s2 -> er s1 s2 a b -> er s1 s2 v w -> okr (on_state s1 s2) (assign h1 a v s1) (assign h2 b w s2).
Proof.
  intros G Ea Ev. destruct a as [x|c x|[] l|x], b as [y|d y|[] m|y]; cbn [er assign] in *; try contradiction; try exact I; try (destruct Ea as [? _]; discriminate).
  - destruct Ea as [_ L]. apply (a_sassign A); assumption.
  - destruct Ea as [_ L]. eapply okr_bind; [apply value_num_sim; eassumption|]. intros x ? <-. apply okr_ok. apply (a_setn A); assumption.
Qed.
Definition on_opt s1 s2 (x : option (entry (Loc h1))) (y : option (entry (Loc h2))) : Prop :=
  match x, y with Some v, Some w => er s1 s2 v w | None, None => True | _, _ => False end.
Lemma target_sim s1 s2 vs ws : R s1 s2 -> Forall2 (er s1 s2) vs ws -> okr (on_opt s1 s2) (target h1 s1 vs) (target h2 s2 ws).
Proof.
  intros G F. destruct F as [|v w vs ws E F]; cbn [target]; [exact I|].
  assert (L : length vs = length ws) by (eapply Forall2_length; exact F).
  assert (T : okr (on_opt s1 s2)
    (let* x := value_num h1 s1 v in let n := x / 4096 in
     if (0 <=? n) && (n <? Z.of_nat (length vs)) then
       match nth_error vs (Z.to_nat n) with Some (ES b w) => Ok (Some (ES b w)) | Some (EO _) => Err ERR_SYNTAX | _ => UB end else Ok None)
    (let* x := value_num h2 s2 w in let n := x / 4096 in
     if (0 <=? n) && (n <? Z.of_nat (length ws)) then
       match nth_error ws (Z.to_nat n) with Some (ES b w) => Ok (Some (ES b w)) | Some (EO _) => Err ERR_SYNTAX | _ => UB end else Ok None)).
  { eapply okr_bind; [apply value_num_sim; eassumption|]. intros x ? <-. cbv zeta. rewrite <- L. destruct (_ && _); [|apply okr_ok; exact I].
    generalize (Z.to_nat (x / 4096)). clear L. induction F as [|a b vs ws Eab F IH]; intros [|n]; cbn [nth_error]; try exact I; [|apply IH].
    destruct a, b; cbn [er] in Eab; try contradiction; try exact I; [|reflexivity]. apply okr_ok. cbn. exact Eab. }
  destruct v as [x|c x|[] l|x], w as [y|d y|[] m|y]; cbn [er] in E; try contradiction; try exact T; try (destruct E as [? _]; discriminate).
  - apply okr_ok. exact E.
  - apply okr_ok. exact E.
Qed.

Variable lab1 : labels_fun h1.
Variable lab2 : labels_fun h2.
Hypothesis Lab : forall s1 s2 v w, R s1 s2 -> er s1 s2 v w -> okr eq (lab1 v s1) (lab2 w s2).
Definition on_flow s1 s2 (x : flow h1) (y : flow h2) : Prop :=
  match x, y with
  | Fall t1, Fall t2 => on s1 s2 t1 t2
  | Jump i t1, Jump j t2 => i = j /\ on s1 s2 t1 t2
  | FlowSpec.Call v o t1, FlowSpec.Call w o' t2 => er t1 t2 v w /\ o = o' /\ on s1 s2 t1 t2
  | Ret t1, Ret t2 => on s1 s2 t1 t2
  | Stop t1, Stop t2 => on s1 s2 t1 t2
  | _, _ => False
  end.
Lemma flow_trans s1 s2 t1 t2 x y : on s1 s2 t1 t2 -> on_flow t1 t2 x y -> on_flow s1 s2 x y.
Proof.
  intros O. destruct x, y; cbn [on_flow]; auto; try (intros F; eapply on_trans; eauto).
  - intros [-> F]. split; [reflexivity|]. eapply on_trans; eauto.
  - intros (E & -> & F). split; [exact E|]. split; [reflexivity|]. eapply on_trans; eauto.
Qed.
Lemma perform_sim c s1 s2 vs ws : R s1 s2 -> Forall2 (er s1 s2) vs ws -> okr (on_flow s1 s2) (perform h1 lab1 c vs s1) (perform h2 lab2 c ws s2).
Proof.
  intros G F. unfold perform. destruct (c =? CMD_GOTO).
  { eapply okr_bind; [apply target_sim; eassumption|]. intros [v|] [w|] E; cbn [on_opt] in E; try contradiction.
    - eapply okr_bind; [apply Lab; eassumption|]. intros i ? <-. apply okr_ok. split; [reflexivity|]. apply on_refl, G.
    - apply okr_ok. apply on_refl, G. }
  destruct (c =? CMD_GOSUB).
  { eapply okr_bind; [apply target_sim; eassumption|]. intros [v|] [w|] E; cbn [on_opt] in E; try contradiction.
    - apply okr_ok. split; [exact E|]. split; [reflexivity|]. apply on_refl, G.
    - apply okr_ok. apply on_refl, G. }
  destruct (c =? CMD_RETURN); [apply okr_ok; apply on_refl, G|]. destruct (c =? CMD_END); [apply okr_ok; apply on_refl, G|].
  destruct (c =? CMD_STOP); [reflexivity|]. eapply okr_bind; [apply (a_cmd A); eassumption|]. intros t1 t2 O. apply okr_ok. exact O.
Qed.
Lemma sems_all_sim l : forall s1 s2, R s1 s2 -> okr (on_values s1 s2) (sems h1 ref l s1) (sems h2 ref l s2).
Proof.
  induction l as [|a l IH]; intros s1 s2 G; cbn [sems]; [apply okr_ok; split; [apply on_refl, G|constructor]|].
  eapply okr_bind; [apply sem_sim, G|]. intros [v t1] [w t2] (O1 & E1). cbn [fst snd] in *. eapply okr_bind; [apply IH, O1|].
  intros [vs u1] [ws u2] (O2 & E2). cbn [fst snd] in *. apply okr_ok. split; [eapply on_trans; eauto|]. constructor; [|exact E2]. eapply er_ext; [apply O2|exact E1].
Qed.
Lemma dims_sim l : forall s1 s2, R s1 s2 -> okr (on_state s1 s2) (dims h1 ref l s1) (dims h2 ref l s2).
Proof.
  induction l as [|e l IH]; intros s1 s2 G; cbn [dims]; [apply okr_ok, on_refl, G|].
  eapply okr_bind; [apply sems_all_sim, G|]. intros [vs t1] [ws t2] (O1 & E1). cbn [fst snd] in *.
  eapply okr_bind; [apply (a_dim A); [apply O1|exact E1]|]. intros u1 u2 O2. eapply okr_mono; [apply IH, O2|]. intros x y O3. eapply on_trans; [eapply on_trans; eauto|exact O3].
Qed.
Lemma exec_stmt_sim s s1 s2 : R s1 s2 -> okr (on_flow s1 s2) (exec_stmt h1 ref lab1 s s1) (exec_stmt h2 ref lab2 s s2).
Proof.
  intros G. destruct s as [lv e|c args|e c args|items last|lv a b s|w|items]; cbn [exec_stmt].
  - eapply okr_bind; [apply sem_sim, G|]. intros [r t1] [r' t2] (O1 & E1). cbn [fst snd] in *.
    eapply okr_bind; [apply sem_sim, O1|]. intros [v u1] [w u2] (O2 & E2). cbn [fst snd] in *.
    eapply okr_bind; [apply assign_sim; [apply O2|eapply er_ext; [apply O2|exact E1]|exact E2]|]. intros x1 x2 O3. apply okr_ok.
    eapply on_trans; [eapply on_trans; eauto|exact O3].
  - eapply okr_bind; [apply asems_sim, G|]. intros [vs t1] [ws t2] (O1 & E1). cbn [fst snd] in *.
    eapply okr_mono; [apply perform_sim; [apply O1|exact E1]|]. intros x y F. eapply flow_trans; eauto.
  - eapply okr_bind; [apply sem_sim, G|]. intros [v t1] [w t2] (O1 & E1). cbn [fst snd] in *.
    eapply okr_bind; [apply asems_sim, O1|]. intros [vs u1] [ws u2] (O2 & E2). cbn [fst snd] in *.
    eapply okr_mono; [apply perform_sim; [apply O2|constructor; [eapply er_ext; [apply O2|exact E1]|exact E2]]|]. intros x y F. eapply flow_trans; [eapply on_trans; eauto|exact F].
  - eapply okr_bind; [apply isems_sim, G|]. intros [vs t1] [ws t2] (O1 & E1). cbn [fst snd] in *.
    eapply okr_bind; [apply osem_sim, O1|]. intros [us u1] [xs u2] (O2 & E2). cbn [fst snd] in *.
    eapply okr_bind; [apply (a_cmd A); [apply O2|apply Forall2_app; [eapply ers_ext; [apply O2|exact E1]|exact E2]]|]. intros x1 x2 O3. apply okr_ok.
    eapply on_trans; [eapply on_trans; eauto|exact O3].
  - exact I.
  - eapply okr_bind; [apply (Lab s1 s2 (ES true w) (ES true w)); [exact G|split; reflexivity]|]. intros i ? <-. apply okr_ok. split; [reflexivity|]. apply on_refl, G.
  - eapply okr_bind; [apply dims_sim, G|]. intros t1 t2 O. apply okr_ok. exact O.
Qed.
Lemma truth_sim s1 s2 v w : R s1 s2 -> er s1 s2 v w -> okr eq (truth h1 s1 v) (truth h2 s2 w).
Proof. intros G E. unfold truth. eapply okr_bind; [apply value_num_sim; eassumption|]. intros x ? <-. apply okr_ok. reflexivity. Qed.
Fixpoint exec_lin_sim (l : lin) : forall s1 s2, R s1 s2 -> okr (on_flow s1 s2) (exec_lin h1 ref lab1 l s1) (exec_lin h2 ref lab2 l s2).
Proof.
  intros s1 s2 G. destruct l as [s|s l|e t el]; cbn [exec_lin].
  - apply exec_stmt_sim, G.
  - eapply okr_bind; [apply exec_stmt_sim, G|]. intros x y F. destruct x, y; cbn [on_flow] in F; try contradiction; try (apply okr_ok; exact F).
    + eapply okr_mono; [apply exec_lin_sim, F|]. intros x y F'. eapply flow_trans; eauto.
    + apply okr_ok. destruct F as (E & _ & O). repeat split; auto; apply O.
  - eapply okr_bind; [apply sem_sim, G|]. intros [v t1] [w t2] (O1 & E1). cbn [fst snd] in *.
    eapply okr_bind; [apply truth_sim; [apply O1|exact E1]|]. intros b ? <-.
    assert (Up : forall x y, okr (on_flow t1 t2) x y -> okr (on_flow s1 s2) x y) by (intros x y F; eapply okr_mono; [exact F|]; intros; eapply flow_trans; eauto).
    destruct b; [apply Up, exec_lin_sim, O1|]. destruct el as [el|]; [apply Up, exec_lin_sim, O1|]. apply okr_ok. exact O1.
Qed.
Lemma exec_rest_sim o s1 s2 : R s1 s2 -> okr (on_flow s1 s2) (exec_rest h1 ref lab1 o s1) (exec_rest h2 ref lab2 o s2).
Proof. intros G. destruct o; cbn [exec_rest]; [apply exec_lin_sim, G|]. apply okr_ok. apply on_refl, G. Qed.
Definition on_limits s1 s2 (x : Z * Z * St h1) (y : Z * Z * St h2) : Prop := fst x = fst y /\ on s1 s2 (snd x) (snd y).
Lemma limits_sim b s s1 s2 : R s1 s2 -> okr (on_limits s1 s2) (limits h1 ref b s s1) (limits h2 ref b s s2).
Proof.
  intros G. unfold limits. eapply okr_bind; [apply sem_sim, G|]. intros [v t1] [w t2] (O1 & E1). cbn [fst snd] in *.
  eapply okr_bind; [apply osem_sim, O1|]. intros [vs u1] [ws u2] (O2 & E2). cbn [fst snd] in *.
  eapply okr_bind; [apply value_num_sim; [apply O2|eapply er_ext; [apply O2|exact E1]]|]. intros e ? <-.
  destruct E2 as [|v' w' vs ws E2 _].
  - apply okr_ok. split; [reflexivity|]. eapply on_trans; eauto.
  - eapply okr_bind; [apply value_num_sim; [apply O2|exact E2]|]. intros x ? <-. apply okr_ok. split; [reflexivity|]. eapply on_trans; eauto.
Qed.
End HostSim.

(** ** whole programs *)
Section ProgSim2.
Variables h1 h2 : host.
Variable R : St h1 -> St h2 -> Prop.
Variable LR : St h1 -> St h2 -> bool -> Loc h1 -> Loc h2 -> Prop.
Variable strv1 : St h1 -> Loc h1 -> list Z.
Variable strv2 : St h2 -> Loc h2 -> list Z.
Hypothesis A : hosts_agree h1 h2 R LR strv1 strv2.
Variable ref : bool -> list Z -> vref.
Variable us : list statement.
Notation slab1 := (slab h1 strv1 us).
Notation slab2 := (slab h2 strv2 us).
Notation er := (er h1 h2 LR).
Notation on := (on h1 h2 R LR).
Lemma slab_sim s1 s2 v w : R s1 s2 -> er s1 s2 v w -> okr eq (slab1 v s1) (slab2 w s2).
Proof.
  intros G E. unfold slab, label_name. destruct v as [x|[] x|[] l|x], w as [y|[] y|[] m|y]; cbn [HostSim.er] in E; try contradiction; try exact I; try (destruct E as [? _]; discriminate).
  1, 2: destruct E as [_ <-].
  3: destruct E as [_ L]; rewrite <- (a_strv _ _ _ _ _ _ A s1 s2 l m G L).
  all: destruct (valid_nameb _); [|exact I]; destruct (find_lab _ us); [apply okr_ok|]; reflexivity.
Qed.
Definition fr s1 s2 (f : frame h1) (g : frame h2) : Prop :=
  match f, g with FGosub n o, FGosub m o' => n = m /\ o = o' | FFor n r, FFor m r' => n = m /\ LR s1 s2 false r r' | FLeft, FLeft => True | _, _ => False end.
Lemma fr_ext s1 s2 t1 t2 fs gs : on s1 s2 t1 t2 -> Forall2 (fr s1 s2) fs gs -> Forall2 (fr t1 t2) fs gs.
Proof. intros [_ E] F. induction F as [|f g fs gs G F IH]; constructor; [|exact IH]. destruct f, g; cbn [fr] in *; auto. destruct G. split; auto. Qed.
Definition mr (x : move h1) (y : move h2) : Prop :=
  match x with
  | ProgSpec.Go p fs st => exists gs st', y = ProgSpec.Go p gs st' /\ R st st' /\ Forall2 (fr st st') fs gs
  | ProgSpec.End st => exists st', y = ProgSpec.End st' /\ R st st'
  | Stops e => y = Stops e
  | Unspecified => True
  end.
Lemma mr_go p s1 s2 t1 t2 fs gs : on s1 s2 t1 t2 -> Forall2 (fr s1 s2) fs gs -> mr (ProgSpec.Go p fs t1) (ProgSpec.Go p gs t2).
Proof. intros O F. exists gs, t2. split; [reflexivity|]. split; [apply O|]. eapply fr_ext; eauto. Qed.
Lemma mr_outcome {X Y} (Q : X -> Y -> Prop) x y f g : okr Q x y -> (forall a b, Q a b -> mr (f a) (g b)) -> mr (of_outcome h1 x f) (of_outcome h2 y g).
Proof. destruct x as [a|e|]; cbn [okr of_outcome]; [|intros -> _; reflexivity|intros; exact I]. intros (b & -> & G) F. apply F, G. Qed.
Lemma unwind_sim s1 s2 fs gs : Forall2 (fr s1 s2) fs gs ->
  match unwind_ h1 fs with
  | Some (n, o, fs') => exists gs', unwind_ h2 gs = Some (n, o, gs') /\ Forall2 (fr s1 s2) fs' gs'
  | None => unwind_ h2 gs = None
  end.
Proof. induction 1 as [|f g fs gs G F IH]; cbn [unwind_]; [reflexivity|]. destruct f, g; cbn [fr] in G; try contradiction; [|exact IH|exact IH]. destruct G as [-> ->]. eauto. Qed.
Lemma settle_sim n s1 s2 fs gs x y : Forall2 (fr s1 s2) fs gs -> okr (on_flow h1 h2 R LR s1 s2) x y ->
  mr (settle h1 strv1 us n fs x) (settle h2 strv2 us n gs y).
Proof.
  intros F. assert (L : length fs = length gs) by (eapply Forall2_length; exact F). destruct x as [a|e|]; cbn [okr]; [|intros ->; reflexivity|intros; exact I].
  intros (b & -> & G). destruct a, b; cbn [on_flow] in G; try contradiction; cbn [settle].
  - eapply mr_go; eauto.
  - destruct G as [-> G]. eapply mr_go; eauto.
  - destruct G as (E & -> & O). pose proof (slab_sim _ _ _ _ (proj1 O) E) as S. destruct (slab1 _ _) as [i|e|]; cbn [okr] in S; [| |exact I].
    + destruct S as (j & -> & <-). rewrite <- L. destruct (_ =? _)%nat; [reflexivity|]. do 2 eexists. split; [reflexivity|]. split; [apply O|]. constructor; [split; reflexivity|]. eapply fr_ext; eauto.
    + rewrite S. rewrite <- L. destruct (_ =? _)%nat; reflexivity.
  - pose proof (unwind_sim _ _ _ _ F) as U. destruct (unwind_ h1 fs) as [[[m o] fs']|].
    + destruct U as (gs' & -> & F'). eapply mr_go; eauto.
    + rewrite U. destruct F; [reflexivity|exact I].
  - eexists. split; [reflexivity|]. apply G.
Qed.
Lemma no_loop_sim s1 s2 fs gs : Forall2 (fr s1 s2) fs gs -> forallb (no_loop h1) fs = forallb (no_loop h2) gs.
Proof. induction 1 as [|f g fs gs G F IH]; [reflexivity|]. cbn [forallb]. rewrite IH. destruct f, g; cbn [fr] in G; try contradiction; reflexivity. Qed.
Lemma pstep_sim p s1 s2 fs gs : R s1 s2 -> Forall2 (fr s1 s2) fs gs -> mr (pstep h1 ref strv1 us p fs s1) (pstep h2 ref strv2 us p gs s2).
Proof.
  intros G F. assert (L : length fs = length gs) by (eapply Forall2_length; exact F). pose proof (on_refl h1 h2 R LR _ _ G) as O0. destruct p as [n|n o|n]; cbn [pstep].
  - destruct (nth_error us n) as [[w|l|lv a b s|args|c|src]|].
    + eapply mr_go; eauto.
    + eapply settle_sim; [exact F|]. apply (exec_lin_sim h1 h2 R LR strv1 strv2 A); [|exact G]. intros; apply slab_sim; assumption.
    + eapply mr_outcome; [apply (sem_sim h1 h2 R LR strv1 strv2 A), G|]. intros [v t1] [w t2] (O1 & E1). cbn [fst snd] in *.
      destruct v as [x|x0 x|[] r|x], w as [y|y0 y|[] r'|y]; cbn [HostSim.er] in E1; try contradiction; try exact I; try (destruct E1 as [? _]; discriminate).
      destruct E1 as [_ Lr]. rewrite <- L. destruct (_ =? _)%nat; [reflexivity|].
      eapply mr_outcome; [apply (sem_sim h1 h2 R LR strv1 strv2 A), O1|]. intros [v u1] [w u2] (O2 & E2). cbn [fst snd] in *.
      eapply mr_outcome; [apply (value_num_sim h1 h2 R LR strv1 strv2 A); [apply O2|exact E2]|]. intros x ? <-.
      pose proof (a_setn _ _ _ _ _ _ A _ _ _ _ x (proj1 O2) (proj2 O2 _ _ _ Lr)) as O3. do 2 eexists. split; [reflexivity|]. split; [apply O3|].
      constructor; [split; [reflexivity|]; apply O3, O2, Lr|]. eapply fr_ext; [|exact F]. eapply on_trans; [eapply on_trans; [exact O1|exact O2]|exact O3].
    + eapply mr_outcome; [apply (asems_sim h1 h2 R LR strv1 strv2 A), G|]. intros [vs t1] [ws t2] (O1 & E1). cbn [fst snd] in *.
      rewrite <- (no_loop_sim _ _ _ _ F). destruct (forallb _ fs); [reflexivity|]. pose proof (fr_ext _ _ _ _ _ _ O1 F) as F1.
      destruct F1 as [|f g fs gs Ef F1]; [exact I|]. destruct f as [m o|m r|], g as [m' o'|m' r'|]; cbn [fr] in Ef; try contradiction; try exact I. destruct Ef as [<- Lr].
      assert (K : mr (match bounds_of us m with
                | Some (b, s) => match limits h1 ref b s t1 with
                    | Ok (e, x, st) => let v := getn h1 st r + x in
                        if (v >? INT_MAX) || (v <? INT_MIN) then Stops ERR_OVERFLOW else if overb x e v then ProgSpec.Go (At (S n)) fs (setn h1 st r v) else ProgSpec.Go (Head m) (FFor m r :: fs) (setn h1 st r v)
                    | _ => Unspecified end
                | None => Unspecified end)
               (match bounds_of us m with
                | Some (b, s) => match limits h2 ref b s t2 with
                    | Ok (e, x, st) => let v := getn h2 st r' + x in
                        if (v >? INT_MAX) || (v <? INT_MIN) then Stops ERR_OVERFLOW else if overb x e v then ProgSpec.Go (At (S n)) gs (setn h2 st r' v) else ProgSpec.Go (Head m) (FFor m r' :: gs) (setn h2 st r' v)
                    | _ => Unspecified end
                | None => Unspecified end)).
      { destruct (bounds_of us m) as [[b s]|]; [|exact I]. pose proof (limits_sim h1 h2 R LR strv1 strv2 A ref b s t1 t2 (proj1 O1)) as Li.
        destruct (limits h1 ref b s t1) as [[[e x] u1]|e|]; cbn [okr] in Li; [|exact I|exact I]. destruct Li as ([[e' x'] u2] & -> & [Eq O2]). cbn [fst snd] in *. injection Eq as <- <-.
        cbv zeta. rewrite <- (a_getn _ _ _ _ _ _ A _ _ _ _ (proj1 O2) (proj2 O2 _ _ _ Lr)). destruct (_ || _); [reflexivity|].
        pose proof (a_setn _ _ _ _ _ _ A _ _ _ _ (getn h1 u1 r + x) (proj1 O2) (proj2 O2 _ _ _ Lr)) as O3.
        pose proof (on_trans _ _ _ _ _ _ _ _ _ _ O2 O3) as O4. destruct (overb _ _ _); [eapply mr_go; eauto|]. eapply mr_go; [exact O4|]. constructor; [|exact F1]. split; [reflexivity|exact Lr]. }
      inversion E1 as [|v w vs' ws' Ev E1']; subst.
      * exact K.
      * destruct v as [x|x0 x|[] q|x], w as [y|y0 y|[] q'|y]; cbn [HostSim.er] in Ev; try contradiction; try exact I; try (destruct Ev as [? _]; discriminate).
        destruct E1' as [|? ? ? ? ? ?]; [|exact I]. destruct Ev as [_ Lq]. rewrite <- (a_same _ _ _ _ _ _ A _ _ _ _ _ _ _ _ (proj1 O1) Lr Lq). destruct (same h1 r q); [exact K|exact I].
    + eapply mr_outcome; [apply (a_check _ _ _ _ _ _ A), G|]. intros t1 t2 O1. eapply mr_go; [exact O1|exact F].
    + eapply mr_go; eauto.
    + eexists. split; [reflexivity|exact G].
  - eapply settle_sim; [exact F|]. apply (exec_rest_sim h1 h2 R LR strv1 strv2 A); [|exact G]. intros; apply slab_sim; assumption.
  - destruct F as [|f g fs gs Ef F]; [exact I|]. destruct f as [m o|m r|], g as [m' o'|m' r'|]; cbn [fr] in Ef; try contradiction; try exact I. destruct Ef as [<- Lr].
    destruct (bounds_of us n) as [[b s]|]; [|exact I]. eapply mr_outcome; [apply (limits_sim h1 h2 R LR strv1 strv2 A), G|]. intros [[e x] u1] [[e' x'] u2] [Eq O]. cbn [fst snd] in *. injection Eq as <- <-.
    rewrite <- (a_getn _ _ _ _ _ _ A _ _ _ _ (proj1 O) (proj2 O _ _ _ Lr)). destruct (overb _ _ _); [|eapply mr_go; [exact O|]; constructor; [split; [reflexivity|exact Lr]|exact F]].
    assert (F' : Forall2 (fr s1 s2) (FLeft :: fs) (FLeft :: gs)) by (constructor; [exact I|exact F]).
    unfold no_pass. destruct (closing 0 (skipn (S n) us)) as [ka args| |]; [|reflexivity|exact I].
    destruct args as [|[[[] c w| | | |]|] [|]]; try exact I; [eapply mr_go; eauto|].
    eapply mr_outcome; [apply (sem_sim h1 h2 R LR strv1 strv2 A), O|]. intros [v t1] [w' t2] (O1 & E1). cbn [fst snd] in *.
    destruct v as [y|y0 y|[] q|y], w' as [z|z0 z|[] q'|z]; cbn [HostSim.er] in E1; try contradiction; try exact I; try (destruct E1 as [? _]; discriminate).
    destruct E1 as [_ Lq]. rewrite <- (a_same _ _ _ _ _ _ A _ _ _ _ _ _ _ _ (proj1 O1) (proj2 O1 _ _ _ (proj2 O _ _ _ Lr)) Lq). destruct (same h1 r q); [|exact I]. eapply mr_go; [|exact F']. eapply on_trans; eauto.
Qed.
Theorem run_program_sim n s1 s2 : R s1 s2 -> mr (run_program h1 ref strv1 us n s1) (run_program h2 ref strv2 us n s2).
Proof.
  intros G. unfold run_program. assert (F : Forall2 (fr s1 s2) [] []) by constructor. revert G F. generalize (At 0), (@nil (frame h1)), (@nil (frame h2)). revert s1 s2.
  induction n as [|n IH]; intros s1 s2 p fs gs G F; cbn [prun]; [exists gs, s2; auto|].
  pose proof (pstep_sim p s1 s2 fs gs G F) as S. destruct (pstep h1 _ _ _ _ _ _) as [q fs' t1|t1|e|]; cbn [mr] in S.
  - destruct S as (gs' & t2 & -> & G' & F'). apply IH; assumption.
  - destruct S as (t2 & -> & G'). exists t2. auto.
  - rewrite S. reflexivity.
  - exact I.
Qed.
End ProgSim2.
