From Verif Require Import Base BaseLemmas Tokens ExprSpec ExprProofs.
Ltac Zify.zify_post_hook ::= Z.div_mod_to_equations.

Lemma loop_step E prev t r E1 t1 : ev_step E prev t (hd_error r) = Ok (E1, t1, false) -> ev_loop E prev (t :: r) = ev_loop E1 (Some t1) r.
Proof. intros G. cbn [ev_loop]. rewrite G. reflexivity. Qed.

Definition topless (o : list token) (x : Z) : Prop := match o with [] => True | t :: _ => prio t < x end.
Lemma topless_le o x y : topless o x -> x <= y -> topless o y.
Proof. destruct o; cbn; auto. lia. Qed.
Lemma clean_app P O r p : Forall (fun t => p <= prio t) P -> topless O p -> clean (P ++ O) r p = (O, r ++ P).
Proof.
  revert r. induction P as [|t P IH]; intros r F T; cbn [app].
  - rewrite app_nil_r. destruct O as [|t O]; cbn [clean]; [reflexivity|]. cbn in T. replace (prio t >=? p) with false by lia. reflexivity.
  - inversion F; subst. cbn [clean]. replace (prio t >=? p) with true by lia. rewrite IH by assumption. rewrite <- app_assoc. reflexivity.
Qed.
Definition with_or (E : eval) (o r : list token) : eval := set_ops E o r.
Lemma clean_stack_app E P O p : ops E = P ++ O -> Forall (fun t => p <= prio t) P -> topless O p -> clean_stack E p = set_ops E O (res E ++ P).
Proof. intros G F T. unfold clean_stack. rewrite G, clean_app by assumption. reflexivity. Qed.
Lemma set_ops_same E : set_ops E (ops E) (res E) = E.
Proof. destruct E. reflexivity. Qed.

Definition same_flags (E E' : eval) : Prop :=
  is_for E' = is_for E /\ is_dim E' = is_dim E /\ is_if E' = is_if E /\ is_sort E' = is_sort E /\ implicit_commas E' = implicit_commas E.
Lemma same_flags_refl E : same_flags E E. Proof. repeat split. Qed.
Lemma same_flags_trans A B C : same_flags A B -> same_flags B C -> same_flags A C.
Proof. unfold same_flags. intuition congruence. Qed.
Definition argc_ok (E : eval) : Prop := length (argcs E) = 64%nat /\ 0 <= argc_i E < 64.
Definition argc_same (E E' : eval) : Prop :=
  argc_i E' = argc_i E /\ length (argcs E') = length (argcs E) /\ forall j, (j <= Z.to_nat (argc_i E))%nat -> nth j (argcs E') 0 = nth j (argcs E) 0.
Lemma argc_same_refl E : argc_same E E. Proof. repeat split. Qed.
Lemma argc_same_trans A B C : argc_same A B -> argc_same B C -> argc_same A C.
Proof. intros (A1 & A2 & A3) (B1 & B2 & B3). repeat split; try congruence. intros j L. rewrite B3 by (rewrite A1; exact L). apply A3. exact L. Qed.

(** the token before an operand, and the last token of one *)
Definition start_prev (prev : option token) : Prop :=
  match prev with Some q => ty q <> name /\ ty q <> function /\ ty q <> dim_arr | None => False end.
Definition end_prev (q : token) : Prop := is_op q OP_OPEN_PAREN = false /\ level q = 0 /\ ty q <> newline.

(** * single steps *)
Lemma step_atom E prev k c w nx : atom_ty k = true -> is_sort E = false ->
  ev_step E prev (mk k c 0 w) nx = Ok (push_res E (mk k c 0 w), mk k c 0 w, false).
Proof. intros A S. unfold ev_step, is_ty, level. cbn [ty prio cl]. rewrite S. destruct k; try discriminate A; reflexivity. Qed.

Lemma pushed E t : Z.of_nat (length (ops E)) < 100 -> push_op E t = Ok (set_ops E (t :: ops E) (res E)).
Proof. intros L. unfold push_op. replace (Z.of_nat (length (ops E)) <? 100) with true by lia. reflexivity. Qed.

Lemma step_is_push E prev o p nx : p mod 8 <> 0 -> 1 < p -> ev_step E prev (op_tok o p) nx = ev_push E (op_tok o p).
Proof.
  intros M L. unfold ev_step, level, is_ty. cbn [op_tok ty prio tty_beq andb].
  replace (p mod 8 =? 0) with false by lia. replace (p =? 1) with false by lia. replace (p >? 0) with true by lia. reflexivity.
Qed.
Lemma step_is_zero E prev o p nx : p mod 8 = 0 -> ev_step E prev (op_tok o p) nx = ev_zero E prev (op_tok o p).
Proof. intros M. unfold ev_step, level, is_ty. cbn [op_tok ty prio tty_beq andb]. rewrite M. reflexivity. Qed.
Lemma step_bin E prev o k n nx P O : bin_level o = Some k -> 0 <= n -> n mod 8 = 0 -> ops E = P ++ O ->
  Forall (fun t => n + k <= prio t) P -> topless O (n + k) -> Z.of_nat (length (ops E)) < 100 ->
  ev_step E prev (op_tok o (n + k)) nx = Ok (set_ops E (op_tok o (n + k) :: O) (res E ++ P), op_tok o (n + k), false).
Proof.
  intros B N0 N8 Eo F T L.
  assert (K : 2 <= k <= 5). { pose proof (bin_prec o (Atom number 0 []) (Atom number 0 [])) as Q. cbn [prec] in Q. rewrite B in Q. apply Q. discriminate. }
  rewrite step_is_push by lia. unfold ev_push, level. cbn [op_tok ty prio cl].
  replace ((n + k) mod 8 =? 6) with false by lia. cbn [b2z]. change (negb (is_ty (op_tok o (n + k)) operation)) with false. cbn [orb].
  assert (C : o =? OP_COMMA = false).
  { unfold OP_COMMA. destruct (o =? 1) eqn:X; [|reflexivity]. assert (o = 1) by lia. subst o. discriminate B. }
  rewrite C. cbn [negb].
  assert (G : (if match ops E with [] => true | x :: _ => prio x <? n + k + 0 end then E else clean_stack E (n + k)) = set_ops E O (res E ++ P)).
  { rewrite <- (clean_stack_app E P O (n + k) Eo F T). destruct (ops E) as [|x r] eqn:Q.
    - unfold clean_stack. rewrite Q. cbn [clean]. rewrite <- Q. rewrite set_ops_same. reflexivity.
    - destruct (prio x <? n + k + 0) eqn:X; [|reflexivity]. unfold clean_stack. rewrite Q. cbn [clean].
      replace (prio x >=? n + k) with false by lia. rewrite <- Q. rewrite set_ops_same. reflexivity. }
  rewrite G. rewrite pushed; [reflexivity|]. cbn [set_ops ops]. rewrite Eo, app_length in L. lia.
Qed.
Lemma step_un E prev o n nx : is_unary o = true -> 0 <= n -> n mod 8 = 0 -> topless (ops E) (n + 7) -> Z.of_nat (length (ops E)) < 100 ->
  ev_step E prev (op_tok o (n + 6)) nx = Ok (set_ops E (op_tok o (n + 6) :: ops E) (res E), op_tok o (n + 6), false).
Proof.
  intros U N0 N8 T L. rewrite step_is_push by lia. unfold ev_push, level. cbn [op_tok ty prio cl].
  replace ((n + 6) mod 8 =? 6) with true by lia. cbn [b2z]. change (negb (is_ty (op_tok o (n + 6)) operation)) with false. cbn [orb].
  assert (C : o =? OP_COMMA = false) by (unfold is_unary, OP_NEGATE, OP_NOT, OP_LOGICAL_NOT in U; unfold OP_COMMA; lia).
  rewrite C. cbn [negb].
  replace (match ops E with [] => true | x :: _ => prio x <? n + 6 + 1 end) with true by (destruct (ops E); [reflexivity|cbn in T; lia]).
  rewrite pushed by exact L. reflexivity.
Qed.
(** the name of a function or array before its bracket *)
Lemma step_callee E prev (fn : bool) c w n nx : 0 <= n -> n mod 8 = 0 -> topless (ops E) (n + 7) -> (is_dim E = true -> 0 < n) -> Z.of_nat (length (ops E)) < 100 ->
  let t := mk (if fn then function else name) c (n + 7) w in
  ev_step E prev t nx = Ok (set_ops E (t :: ops E) (res E), t, false).
Proof.
  intros N0 N8 T D L t.
  assert (C : match ops E with [] => true | x :: _ => prio x <? n + 7 + b2z ((n + 7) mod 8 =? 6) end = true).
  { replace ((n + 7) mod 8 =? 6) with false by lia. destruct (ops E); [reflexivity|]. cbn in T. cbn [b2z]. lia. }
  unfold ev_step, ev_push, t, is_ty, level. destruct fn; cbn [ty prio cl tty_beq andb orb negb]; replace (n + 7 >? 0) with true by lia.
  - cbn [orb ty prio cl tty_beq negb]. rewrite C. rewrite pushed by exact L. reflexivity.
  - replace ((n + 7 =? 7) && is_dim E) with false.
    2:{ destruct (is_dim E); [|rewrite andb_false_r; reflexivity]. specialize (D eq_refl). replace (n + 7 =? 7) with false by lia. reflexivity. }
    cbn [orb ty prio cl tty_beq negb]. rewrite C. rewrite pushed by exact L. reflexivity.
Qed.

Lemma argc_put_ok E v : argc_ok E -> argc_put E v = Ok (set_argc E (argc_i E) (upd (argcs E) (Z.to_nat (argc_i E)) (u8 v))).
Proof. intros [L I]. unfold argc_put. replace ((0 <=? argc_i E) && (argc_i E <? 64)) with true by lia. reflexivity. Qed.
Lemma argc_get_ok E : argc_ok E -> argc_get E = Ok (nth (Z.to_nat (argc_i E)) (argcs E) 0).
Proof. intros [L I]. unfold argc_get. replace ((0 <=? argc_i E) && (argc_i E <? 64)) with true by lia. reflexivity. Qed.
Lemma u8_small x : 0 <= x < 256 -> u8 x = x.
Proof. intros R. unfold u8. change (2 ^ 8) with 256. apply Z.mod_small. exact R. Qed.
Lemma upd_upd {A} (l : list A) i a b : upd (upd l i a) i b = upd l i b.
Proof. revert i. induction l as [|x l IH]; intros [|i]; cbn; auto. f_equal. apply IH. Qed.

(** opening: the new level's counter is 129 for plain parentheses, 1 after a function or array *)
Definition opened (E : eval) (v : Z) (o : list token) : eval :=
  mkE o (argc_i E + 1) (upd (argcs E) (Z.to_nat (argc_i E + 1)) v) (res E) (is_for E) (is_dim E) (is_if E) (is_sort E) (implicit_commas E).
Lemma step_open E b n q nx : 0 <= n -> n mod 8 = 0 -> length (argcs E) = 64%nat -> 0 <= argc_i E < 63 -> 
  ev_step E (Some q) (op_tok (opens b) (n + 8)) nx =
    Ok ((if is_ty q name then opened E 1 (mark_array (ops E))
         else if is_ty q function || is_ty q dim_arr then opened E 1 (ops E) else opened E 129 (ops E)), op_tok (opens b) (n + 8), false).
Proof.
  intros N0 N8 L I. rewrite step_is_zero by lia. unfold ev_zero. cbn [op_tok ty prio cl].
  replace (opens b =? OP_ASSIGN) with false by (destruct b; reflexivity).
  replace ((opens b =? OP_OPEN_BRACKET) || (opens b =? OP_OPEN_PAREN)) with true by (destruct b; reflexivity).
  rewrite u8_small by lia. set (E1 := set_argc E (argc_i E + 1) (argcs E)).
  assert (A1 : argc_ok E1) by (split; [exact L|cbn; lia]). rewrite argc_put_ok by exact A1. cbn [bind]. change (u8 1) with 1.
  set (E2 := set_argc E1 (argc_i E1) (upd (argcs E1) (Z.to_nat (argc_i E1)) 1)).
  assert (A2 : argc_ok E2) by (split; [unfold E2; cbn [set_argc argcs]; rewrite upd_length; exact L|cbn; lia]).
  destruct (is_ty q name) eqn:T1; [reflexivity|]. destruct (is_ty q function) eqn:T2; [reflexivity|]. destruct (is_ty q dim_arr) eqn:T3; [reflexivity|].
  cbn [negb andb orb]. rewrite argc_get_ok by exact A2. cbn [bind]. rewrite argc_put_ok by exact A2. cbn [bind].
  assert (G : nth (Z.to_nat (argc_i E2)) (argcs E2) 0 = 1).
  { unfold E2, E1. cbn [set_argc argc_i argcs]. apply nth_upd_same. lia. }
  rewrite G. change (u8 (Z.lor 1 128)) with 129. unfold E2. cbn [set_argc argcs argc_i]. rewrite upd_upd. reflexivity.
Qed.
(** closing a plain parenthesis *)
Lemma step_close_plain E b n q nx : 0 <= n -> n mod 8 = 0 -> argc_ok E -> 0 < argc_i E -> is_op q OP_OPEN_PAREN = false ->
  nth (Z.to_nat (argc_i E)) (argcs E) 0 = 129 ->
  ev_step E (Some q) (op_tok (closes b) (n + 8)) nx = Ok (set_argc E (argc_i E - 1) (argcs E), op_tok (closes b) (n + 8), false).
Proof.
  intros N0 N8 A I Q V. rewrite step_is_zero by lia. unfold ev_zero. cbn [op_tok ty prio cl].
  replace (closes b =? OP_ASSIGN) with false by (destruct b; reflexivity).
  replace ((closes b =? OP_OPEN_BRACKET) || (closes b =? OP_OPEN_PAREN)) with false by (destruct b; reflexivity).
  rewrite Q. cbn [bind]. rewrite argc_get_ok by exact A. cbn [bind]. rewrite V. change (Z.land 129 128 =? 0) with false. cbv iota.
  destruct A as [_ A]. rewrite u8_small by lia. reflexivity.
Qed.
(** closing the arguments of a call *)
Lemma step_close_call E b n q nx P O c : 0 <= n -> n mod 8 = 0 -> argc_ok E -> 0 < argc_i E ->
  (if is_op q OP_OPEN_PAREN then c = 0 else nth (Z.to_nat (argc_i E)) (argcs E) 0 = c) -> 0 <= c < 128 ->
  ops E = P ++ O -> Forall (fun t => n + 8 <= prio t) P -> topless O (n + 8) -> Z.of_nat (length (ops E)) < 100 ->
  exists E', ev_step E (Some q) (op_tok (closes b) (n + 8)) nx = Ok (E', mk arg_count c (n + 8) [], false) /\
    ops E' = mk arg_count c (n + 8) [] :: O /\ res E' = res E ++ P /\ same_flags E E' /\ argc_i E' = argc_i E - 1 /\
    length (argcs E') = length (argcs E) /\ forall j, (j < Z.to_nat (argc_i E))%nat -> nth j (argcs E') 0 = nth j (argcs E) 0.
Proof.
  intros N0 N8 A I Q C Eo F T L. rewrite step_is_zero by lia. unfold ev_zero. cbn [op_tok ty prio cl].
  replace (closes b =? OP_ASSIGN) with false by (destruct b; reflexivity).
  replace ((closes b =? OP_OPEN_BRACKET) || (closes b =? OP_OPEN_PAREN)) with false by (destruct b; reflexivity).
  assert (Z0 : Z.land c 128 = 0).
  { change 128 with (2 ^ 7). apply Z.bits_inj'. intros m Hm. rewrite Z.land_spec, Z.bits_0, Z.pow2_bits_eqb by lia.
    destruct (7 =? m) eqn:E7; [|apply andb_false_r]. replace m with 7 by lia. rewrite andb_true_r. apply Z.bits_above_log2; [lia|].
    destruct (Z.eq_dec c 0) as [-> |]; [cbn; lia|]. apply Z.log2_lt_pow2; [lia|change (2 ^ 7) with 128; lia]. }
  assert (G : exists E1, (if is_op q OP_OPEN_PAREN then argc_put E 0 else Ok E) = Ok E1 /\ argc_ok E1 /\ ops E1 = ops E /\ res E1 = res E /\ same_flags E E1 /\
     argc_i E1 = argc_i E /\ length (argcs E1) = length (argcs E) /\ nth (Z.to_nat (argc_i E)) (argcs E1) 0 = c /\
     forall j, (j < Z.to_nat (argc_i E))%nat -> nth j (argcs E1) 0 = nth j (argcs E) 0).
  { destruct (is_op q OP_OPEN_PAREN).
    - rewrite argc_put_ok by exact A. eexists. split; [reflexivity|]. destruct A as [A1 A2]. cbn [set_argc argcs ops res argc_i]. 
      split; [split; cbn [set_argc argcs argc_i]; [rewrite upd_length|]; assumption|]. split; [reflexivity|]. split; [reflexivity|]. split; [repeat split|]. split; [reflexivity|].
      split; [apply upd_length|]. split; [rewrite nth_upd_same by lia; subst c; reflexivity|]. intros j J. apply nth_upd_other. lia.
    - exists E. split; [reflexivity|]. split; [exact A|]. repeat split; auto. }
  destruct G as (E1 & -> & A1 & O1 & R1 & F1 & I1 & L1 & V1 & J1). cbn [bind]. rewrite argc_get_ok by exact A1. cbn [bind]. rewrite I1, V1, Z0. change (0 =? 0) with true. cbv iota.
  destruct A as [A2 A3]. rewrite u8_small by lia. cbn [text].
  set (E2 := set_argc E1 (argc_i E - 1) (argcs E1)).
  rewrite (clean_stack_app E2 P O (n + 8)) by (auto; unfold E2; cbn [set_argc ops]; congruence).
  rewrite pushed by (cbn [set_ops ops]; rewrite Eo, app_length in L; lia). cbn [bind]. eexists. split; [reflexivity|].
  unfold E2. cbn [set_ops set_argc ops res argc_i argcs]. rewrite R1. split; [reflexivity|]. split; [reflexivity|]. split; [exact F1|]. split; [reflexivity|]. split; [exact L1|exact J1].
Qed.
(** a comma between arguments of a call *)
Lemma step_comma E n (q : option token) nx P O : 0 < n -> n mod 8 = 0 -> argc_ok E -> ops E = P ++ O -> Forall (fun t => n + 1 <= prio t) P -> topless O (n + 1) ->
  exists E', ev_step E q (op_tok OP_COMMA (n + 1)) nx = Ok (E', op_tok OP_COMMA (n + 1), false) /\
    ops E' = O /\ res E' = res E ++ P /\ same_flags E E' /\ argc_i E' = argc_i E /\ length (argcs E') = length (argcs E) /\
    nth (Z.to_nat (argc_i E)) (argcs E') 0 = u8 (nth (Z.to_nat (argc_i E)) (argcs E) 0 + 1) /\
    forall j, (j < Z.to_nat (argc_i E))%nat -> nth j (argcs E') 0 = nth j (argcs E) 0.
Proof.
  intros N0 N8 A Eo F T. rewrite step_is_push by lia. unfold ev_push, level. cbn [op_tok ty prio cl].
  replace ((n + 1) mod 8 =? 6) with false by lia. cbn [b2z]. change (negb (is_ty (op_tok OP_COMMA (n + 1)) operation)) with false. change (OP_COMMA =? OP_COMMA) with true. cbn [negb orb].
  assert (G : (if match ops E with [] => true | x :: _ => prio x <? n + 1 + 0 end then E else clean_stack E (n + 1)) = set_ops E O (res E ++ P)).
  { rewrite <- (clean_stack_app E P O (n + 1) Eo F T). destruct (ops E) as [|x r] eqn:Q.
    - unfold clean_stack. rewrite Q. cbn [clean]. rewrite <- Q. rewrite set_ops_same. reflexivity.
    - destruct (prio x <? n + 1 + 0) eqn:X; [|reflexivity]. unfold clean_stack. rewrite Q. cbn [clean].
      replace (prio x >=? n + 1) with false by lia. rewrite <- Q. rewrite set_ops_same. reflexivity. }
  rewrite G. set (E1 := set_ops E O (res E ++ P)). assert (A1 : argc_ok E1) by exact A.
  rewrite argc_get_ok by exact A1. cbn [bind]. rewrite argc_put_ok by exact A1. cbn [bind]. eexists. split; [reflexivity|].
  unfold E1. cbn [set_ops set_argc ops res argc_i argcs]. destruct A as [A2 A3]. split; [reflexivity|]. split; [reflexivity|]. split; [repeat split|].
  split; [reflexivity|]. split; [apply upd_length|]. split; [apply nth_upd_same; lia|]. intros j J. apply nth_upd_other. lia.
Qed.

(** * whole expressions *)
Definition lim (e : expr) : Z := if prec e =? 6 then 7 else prec e.
Lemma lim_range e : wfe e -> 2 <= lim e <= 7 /\ prec e <= lim e.
Proof. intros G. pose proof (prec_range e G). unfold lim. destruct (prec e =? 6) eqn:Q; lia. Qed.
Definition size (e : expr) : nat := length (toks e).
Definition sizes (l : list expr) : nat := length (sep (op_tok OP_COMMA 0) (map toks l)).

Definition run_ok (e : expr) : Prop := forall n E prev r,
  n mod 8 = 0 -> 0 <= n -> topless (ops E) (n + lim e) -> is_sort E = false -> (is_dim E = true -> 0 < n) -> start_prev prev ->
  length (argcs E) = 64%nat -> 0 <= argc_i E -> argc_i E + Z.of_nat (depth e) < 64 -> (length (ops E) + size e <= 100)%nat ->
  exists E' q P R, ev_loop E prev (ptoks n e ++ r) = ev_loop E' (Some q) r /\
    ops E' = P ++ ops E /\ res E' = res E ++ R /\ R ++ P = rpn n e /\ Forall (fun t => n + prec e <= prio t) P /\
    same_flags E E' /\ argc_same E E' /\ end_prev q /\ (length P <= size e)%nat.

Lemma start_op o p : start_prev (Some (op_tok o p)).
Proof. cbn. repeat split; discriminate. Qed.
Lemma level_n8 k o n w : n mod 8 = 0 -> level (mk k o (n + 8) w) = 0.
Proof. intros M. unfold level. cbn [prio]. lia. Qed.
Lemma Forall_ge_weak (a b : Z) P : b <= a -> Forall (fun t => a <= prio t) P -> Forall (fun t => b <= prio t) P.
Proof. intros L. apply Forall_impl. intros t. lia. Qed.

(** the arguments of a call, from just after the opening bracket *)
Lemma run_args n n8 l : n8 = n + 8 -> forall a, Forall wfe (a :: l) -> Forall run_ok (a :: l) -> forall E prev r f O,
  n mod 8 = 0 -> 0 <= n -> ops E = f :: O -> prio f < n + 8 -> is_sort E = false -> start_prev prev ->
  length (argcs E) = 64%nat -> 0 <= argc_i E ->
  argc_i E + Z.of_nat (fold_right (fun e m => Nat.max (depth e) m) 0%nat (a :: l)) < 64 -> (length (ops E) + sizes (a :: l) <= 100)%nat ->
  exists E' q P R, ev_loop E prev (sep (op_tok OP_COMMA (n + 9)) (map (ptoks n8) (a :: l)) ++ r) = ev_loop E' (Some q) r /\
    ops E' = P ++ ops E /\ res E' = res E ++ R /\ R ++ P = concat (map (rpn n8) (a :: l)) /\ Forall (fun t => n + 8 <= prio t) P /\
    same_flags E E' /\ argc_i E' = argc_i E /\ length (argcs E') = length (argcs E) /\
    (forall j, (j < Z.to_nat (argc_i E))%nat -> nth j (argcs E') 0 = nth j (argcs E) 0) /\
    (nth (Z.to_nat (argc_i E)) (argcs E) 0 = 1 \/ True ->
     0 <= nth (Z.to_nat (argc_i E)) (argcs E) 0 -> nth (Z.to_nat (argc_i E)) (argcs E) 0 + Z.of_nat (length l) < 256 ->
     nth (Z.to_nat (argc_i E)) (argcs E') 0 = nth (Z.to_nat (argc_i E)) (argcs E) 0 + Z.of_nat (length l)) /\
    end_prev q /\ (length P <= sizes (a :: l))%nat.
Proof.
  intros ->. induction l as [|x l IH]; intros a Hw Hr E prev r f O N8 N0 Eo Hf Hs Hp La Ia Id Ls.
  - inversion Hw as [|? ? Wa _]; subst. inversion Hr as [|? ? Ra _]; subst. cbn [map sep concat fold_right] in *.
    destruct (Ra (n + 8) E prev r) as (E' & q & P & R & G & G1 & G2 & G3 & G4 & G5 & G6 & G7 & G8); auto; try lia.
    { rewrite Eo. cbn. pose proof (lim_range a Wa). lia. }
    exists E', q, P, R. rewrite app_nil_r. destruct G6 as (H1 & H2 & H3). pose proof (prec_range a Wa).
    split; [exact G|]. split; [exact G1|]. split; [exact G2|]. split; [exact G3|]. split; [eapply Forall_ge_weak; [|exact G4]; lia|].
    split; [exact G5|]. split; [exact H1|]. split; [exact H2|]. split; [intros j J; apply H3; lia|]. split; [|auto].
    intros _ _ _. cbn [length]. rewrite H3 by lia. lia.
  - inversion Hw as [|? ? Wa Wl]; subst. inversion Hr as [|? ? Ra Rl]; subst.
    assert (S1 : forall {A} (s : A) u v t, sep s (u :: v :: t) = u ++ s :: sep s (v :: t)) by reflexivity.
    change (map (ptoks (n + 8)) (a :: x :: l)) with (ptoks (n + 8) a :: ptoks (n + 8) x :: map (ptoks (n + 8)) l). rewrite S1.
    change (ptoks (n + 8) x :: map (ptoks (n + 8)) l) with (map (ptoks (n + 8)) (x :: l)).
    assert (Sz : sizes (a :: x :: l) = (size a + 1 + sizes (x :: l))%nat).
    { unfold sizes, size. change (map toks (a :: x :: l)) with (toks a :: toks x :: map toks l). rewrite S1, app_length. cbn [length map]. lia. }
    change (fold_right (fun e m => Nat.max (depth e) m) 0%nat (a :: x :: l)) with (Nat.max (depth a) (fold_right (fun e m => Nat.max (depth e) m) 0%nat (x :: l))) in Id.
    rewrite <- app_assoc, <- app_comm_cons. pose proof (prec_range a Wa) as Pa.
    destruct (Ra (n + 8) E prev (op_tok OP_COMMA (n + 9) :: sep (op_tok OP_COMMA (n + 9)) (map (ptoks (n + 8)) (x :: l)) ++ r)) as (E1 & q1 & P1 & R1 & G & G1 & G2 & G3 & G4 & G5 & (H1 & H2 & H3) & G7 & G8); auto; try lia.
    { rewrite Eo. cbn [topless]. pose proof (lim_range a Wa). lia. }
    destruct (step_comma E1 (n + 8) (Some q1) (hd_error (sep (op_tok OP_COMMA (n + 9)) (map (ptoks (n + 8)) (x :: l)) ++ r)) P1 (ops E)) as (E2 & K & K1 & K2 & K3 & K4 & K5 & K6 & K7); auto; try lia.
    { split; [congruence|]. rewrite H1. lia. }
    { eapply Forall_ge_weak; [|exact G4]. lia. }
    { rewrite Eo. cbn [topless]. lia. }
    replace (n + 8 + 1) with (n + 9) in K by lia.
    destruct (IH x Wl Rl E2 (Some (op_tok OP_COMMA (n + 9))) r f O) as (E3 & q & P & R & M & M1 & M2 & M3 & M4 & M5 & M6 & M7 & M8 & M9 & M10 & M11); auto; try lia.
    { rewrite K1, Eo. reflexivity. }
    { destruct K3 as (? & ? & ? & -> & ?), G5 as (? & ? & ? & -> & ?). exact Hs. }
    { apply start_op. }
    { rewrite K1. lia. }
    exists E3, q, P, (R1 ++ P1 ++ R).
    split; [rewrite G, (loop_step _ _ _ _ _ _ K); exact M|].
    split; [rewrite M1, K1; reflexivity|]. split; [rewrite M2, K2, G2, <- !app_assoc; reflexivity|].
    split. { change (map (rpn (n + 8)) (a :: x :: l)) with (rpn (n + 8) a :: map (rpn (n + 8)) (x :: l)). cbn [concat]. rewrite <- M3, <- G3, <- !app_assoc. reflexivity. }
    split; [exact M4|]. split; [eapply same_flags_trans; [exact G5|]; eapply same_flags_trans; eauto|]. split; [congruence|]. split; [congruence|].
    split. { intros j J. rewrite M8 by (rewrite K4, H1; exact J). rewrite K7 by (rewrite H1; exact J). apply H3. lia. }
    split; [|split; [exact M10|lia]].
    intros _ B0 B1. rewrite K4, H1 in M9. rewrite H1 in K6. rewrite (H3 (Z.to_nat (argc_i E))) in K6 by lia. cbn [length] in *.
    rewrite u8_small in K6 by lia. rewrite M9; [lia|auto|lia|lia].
Qed.

Lemma run_expr e : wfe e -> run_ok e.
Proof.
  induction e as [k c w|e IH|o e IH|o l r IHl IHr|fn c w b args IH] using expr_ind2; cbn [wfe]; intros Hw n E prev rest N8 N0 T Hs Hd Hp La Ia Id Ls.
  - cbn [ptoks app]. rewrite (loop_step _ _ _ _ _ _ (step_atom E prev k c w _ Hw Hs)).
    exists (push_res E (mk k c 0 w)), (mk k c 0 w), [], [mk k c 0 w]. split; [reflexivity|]. cbn [push_res set_ops ops res app rpn].
    split; [reflexivity|]. split; [reflexivity|]. split; [reflexivity|]. split; [constructor|]. split; [repeat split|]. split; [repeat split|].
    split; [|cbn; lia]. split; [destruct k; reflexivity || discriminate Hw|]. split; [reflexivity|]. cbn. intros ->. discriminate Hw.
  - cbn [ptoks rpn depth size toks] in *. unfold size in Ls. cbn [toks length] in Ls. rewrite app_length in Ls. cbn [length] in Ls.
    destruct prev as [q0|]; [|destruct Hp]. destruct Hp as (Q1 & Q2 & Q3).
    rewrite <- app_comm_cons, <- app_assoc. pose proof (prec_range e Hw) as Pe. pose proof (lim_range e Hw) as Le.
    pose proof (step_open E false n q0 (hd_error (ptoks (n + 8) e ++ [op_tok OP_CLOSE_PAREN (n + 8)] ++ rest)) N0 N8 La ltac:(lia)) as S1.
    assert (T1 : is_ty q0 name = false) by (unfold is_ty; destruct (ty q0); congruence || reflexivity).
    assert (T2 : is_ty q0 function = false) by (unfold is_ty; destruct (ty q0); congruence || reflexivity).
    assert (T3 : is_ty q0 dim_arr = false) by (unfold is_ty; destruct (ty q0); congruence || reflexivity).
    rewrite T1, T2, T3 in S1. cbn [orb] in S1. change (opens false) with OP_OPEN_PAREN in S1. rewrite (loop_step _ _ _ _ _ _ S1).
    set (E1 := opened E 129 (ops E)).
    assert (L1 : length (argcs E1) = 64%nat) by (unfold E1, opened; cbn [argcs]; rewrite upd_length; exact La).
    destruct (IH Hw (n + 8) E1 (Some (op_tok OP_OPEN_PAREN (n + 8))) ([op_tok OP_CLOSE_PAREN (n + 8)] ++ rest)) as (E2 & q & P & R & G & G1 & G2 & G3 & G4 & G5 & (H1 & H2 & H3) & G7 & G8);
      try (unfold E1, opened; cbn [argc_i ops is_sort is_dim]); auto; try lia.
    { eapply topless_le; [exact T|]. cbn [lim prec Z.eqb]. pose proof (lim_range e Hw). unfold lim in *. cbn [prec]. change (7 =? 6) with false. cbv iota. lia. }
    { apply start_op. }
    { unfold size. lia. }
    unfold E1, opened in G. cbn [argc_i ops is_sort is_dim] in G. rewrite G. cbn [app]. destruct G7 as (G71 & G72 & G73).
    assert (Ie : argc_i E2 = argc_i E + 1) by (rewrite H1; reflexivity).
    pose proof (step_close_plain E2 false n q (hd_error rest) N0 N8) as S2. change (closes false) with OP_CLOSE_PAREN in S2.
    erewrite loop_step; [|apply S2; [split; [congruence|lia]|lia|exact G71|]].
    2:{ rewrite H1. rewrite H3 by lia. unfold E1, opened. cbn [argc_i argcs]. apply nth_upd_same. lia. }
    eexists _, _, P, R. split; [reflexivity|]. cbn [set_argc ops res]. split; [exact G1|]. split; [exact G2|]. split; [exact G3|].
    split; [eapply Forall_ge_weak; [|exact G4]; cbn [prec]; lia|]. split; [exact G5|].
    split. { unfold argc_same. cbn [set_argc argc_i argcs]. split; [lia|]. split; [congruence|]. intros j J. rewrite H3 by (unfold E1, opened; cbn [argc_i]; lia).
             unfold E1, opened. cbn [argcs]. apply nth_upd_other. lia. }
    split. { split; [reflexivity|]. split; [apply level_n8; exact N8|discriminate]. }
    unfold size in *. cbn [toks length]. rewrite app_length. cbn [length]. lia.
  - destruct Hw as (U & Hw & Hp6). cbn [ptoks rpn depth] in *. unfold size in Ls |- *. cbn [toks length] in Ls |- *. cbn [app].
    assert (Lm : lim e = 7) by (unfold lim; pose proof (prec_range e Hw); destruct (prec e =? 6) eqn:Q; lia).
    rewrite (loop_step _ _ _ _ _ _ (step_un E prev o n _ U N0 N8 T ltac:(lia))).
    set (E1 := set_ops E (op_tok o (n + 6) :: ops E) (res E)).
    destruct (IH Hw n E1 (Some (op_tok o (n + 6))) rest) as (E2 & q & P & R & G & G1 & G2 & G3 & G4 & G5 & G6 & G7 & G8); auto.
    { unfold E1. cbn [set_ops ops topless prio op_tok]. lia. }
    { apply start_op. }
    { unfold E1, size. cbn [set_ops ops length]. lia. }
    exists E2, q, (P ++ [op_tok o (n + 6)]), R. split; [exact G|]. split; [rewrite G1, <- app_assoc; reflexivity|]. split; [exact G2|].
    split; [rewrite app_assoc, G3; reflexivity|].
    split. { apply Forall_app. split; [eapply Forall_ge_weak; [|exact G4]; cbn [prec]; lia|]. repeat constructor. cbn. lia. }
    split; [exact G5|]. split; [exact G6|]. split; [exact G7|]. rewrite app_length. cbn [length]. unfold size in G8. lia.
  - destruct Hw as (B & Hl & Hr & Pl & Pr & Hm). assert (Pk : prec (Bin o l r) = match bin_level o with Some k => k | None => 0 end) by reflexivity.
    destruct (bin_level o) as [k|] eqn:L; [|destruct (B eq_refl)]. cbn [ptoks rpn depth] in *. rewrite Pk in *.
    assert (K : 2 <= k <= 5) by (rewrite <- Pk; apply bin_prec; rewrite L; discriminate).
    assert (Lim : lim (Bin o l r) = k) by (unfold lim; rewrite Pk; destruct (k =? 6) eqn:Q; lia). rewrite Lim in T.
    pose proof (lim_range l Hl) as Ll. pose proof (lim_range r Hr) as Lr.
    unfold size in Ls |- *. cbn [toks] in Ls |- *. rewrite app_length in Ls |- *. cbn [length] in Ls |- *.
    rewrite <- app_assoc. cbn [app].
    destruct (IHl Hl n E prev (op_tok o (n + k) :: ptoks n r ++ rest)) as (E1 & q1 & P1 & R1 & G & G1 & G2 & G3 & G4 & G5 & G6 & G7 & G8); auto; try lia.
    { eapply topless_le; [exact T|lia]. }
    { unfold size. lia. }
    assert (Lo : (length (ops E1) <= length (ops E) + length (toks l))%nat) by (rewrite G1, app_length; unfold size in G8; lia).
    pose proof (step_bin E1 (Some q1) o k n (hd_error (ptoks n r ++ rest)) P1 (ops E) L N0 N8 G1 ltac:(eapply Forall_ge_weak; [|exact G4]; lia) T ltac:(lia)) as S1.
    rewrite G, (loop_step _ _ _ _ _ _ S1). set (E2 := set_ops E1 (op_tok o (n + k) :: ops E) (res E1 ++ P1)).
    destruct G6 as (H1 & H2 & H3). destruct G5 as (F1 & F2 & F3 & F4 & F5).
    destruct (IHr Hr n E2 (Some (op_tok o (n + k))) rest) as (E3 & q & P & R & M & M1 & M2 & M3 & M4 & M5 & M6 & M7 & M8); auto.
    { unfold E2. cbn [set_ops ops topless prio op_tok]. lia. }
    { unfold E2. cbn [set_ops is_sort]. congruence. }
    { unfold E2. cbn [set_ops is_dim]. rewrite F2. exact Hd. }
    { apply start_op. }
    { unfold E2. cbn [set_ops argcs]. congruence. }
    { unfold E2. cbn [set_ops argc_i]. lia. }
    { unfold E2. cbn [set_ops argc_i]. lia. }
    { unfold E2, size. cbn [set_ops ops length]. lia. }
    exists E3, q, (P ++ [op_tok o (n + k)]), (R1 ++ P1 ++ R). split; [exact M|].
    split; [rewrite M1; unfold E2; cbn [set_ops ops]; rewrite <- app_assoc; reflexivity|].
    split; [rewrite M2; unfold E2; cbn [set_ops res]; rewrite G2, <- !app_assoc; reflexivity|].
    split; [rewrite <- G3, <- M3, <- !app_assoc; reflexivity|].
    split. { apply Forall_app. split; [eapply Forall_ge_weak; [|exact M4]; lia|]. repeat constructor. cbn. lia. }
    split. { eapply same_flags_trans; [|exact M5]. repeat split; assumption. }
    split. { eapply argc_same_trans; [|exact M6]. repeat split; assumption. }
    split; [exact M7|]. rewrite app_length. cbn [length]. unfold size in M8. lia.
  - destruct Hw as (Ha & Lna & Hb). rewrite wfe_args in Ha. cbn [ptoks rpn depth] in *.
    unfold size in Ls |- *. cbn [toks length] in Ls |- *. rewrite app_length in Ls |- *. cbn [length] in Ls |- *.
    set (f := mk (if fn then function else name) c (n + 7) w). rewrite <- !app_comm_cons, <- app_assoc.
    assert (Lm : lim (Call fn c w b args) = 7) by reflexivity. rewrite Lm in T.
    pose proof (step_callee E prev fn c w n (hd_error (op_tok (opens b) (n + 8) :: sep (op_tok OP_COMMA (n + 9)) (map (ptoks (n + 8)) args) ++ [op_tok (closes b) (n + 8)] ++ rest)) N0 N8 T Hd ltac:(lia)) as S0.
    cbv zeta in S0. fold f in S0. rewrite (loop_step _ _ _ _ _ _ S0). set (E1 := set_ops E (f :: ops E) (res E)).
    set (g := mk (if fn then function else array_name) c (n + 7) w).
    set (E2 := opened E1 1 (g :: ops E)).
    assert (S1 : forall nx, ev_step E1 (Some f) (op_tok (opens b) (n + 8)) nx = Ok (E2, op_tok (opens b) (n + 8), false)).
    { intros nx. rewrite step_open by (auto; cbn [E1 set_ops argc_i argcs]; lia). unfold E2, f, g. destruct fn; reflexivity. }
    rewrite (loop_step _ _ _ _ _ _ (S1 _)).
    assert (L2 : length (argcs E2) = 64%nat) by (unfold E2, opened; cbn [argcs]; rewrite upd_length; exact La).
    assert (V2 : nth (Z.to_nat (argc_i E2)) (argcs E2) 0 = 1) by (unfold E2, opened, E1; cbn [argc_i argcs set_ops]; apply nth_upd_same; lia).
    assert (V2' : forall j, (j <= Z.to_nat (argc_i E))%nat -> nth j (argcs E2) 0 = nth j (argcs E) 0).
    { intros j J. unfold E2, opened, E1. cbn [argc_i argcs set_ops]. apply nth_upd_other. lia. }
    assert (I2 : argc_i E2 = argc_i E + 1) by reflexivity.
    assert (Fin : forall E3 q P R,
       ev_loop E2 (Some (op_tok (opens b) (n + 8))) (sep (op_tok OP_COMMA (n + 9)) (map (ptoks (n + 8)) args) ++ [op_tok (closes b) (n + 8)] ++ rest) = ev_loop E3 (Some q) ([op_tok (closes b) (n + 8)] ++ rest) ->
       ops E3 = P ++ ops E2 -> res E3 = res E2 ++ R -> R ++ P = concat (map (rpn (n + 8)) args) -> Forall (fun t => n + 8 <= prio t) P -> same_flags E2 E3 ->
       argc_i E3 = argc_i E2 -> length (argcs E3) = 64%nat -> (forall j, (j < Z.to_nat (argc_i E2))%nat -> nth j (argcs E3) 0 = nth j (argcs E2) 0) ->
       (if is_op q OP_OPEN_PAREN then Z.of_nat (length args) = 0 else nth (Z.to_nat (argc_i E2)) (argcs E3) 0 = Z.of_nat (length args)) ->
       (length P <= sizes args)%nat ->
       exists E' q P R, ev_loop E2 (Some (op_tok (opens b) (n + 8))) (sep (op_tok OP_COMMA (n + 9)) (map (ptoks (n + 8)) args) ++ [op_tok (closes b) (n + 8)] ++ rest) = ev_loop E' (Some q) rest /\
         ops E' = P ++ ops E /\ res E' = res E ++ R /\ R ++ P = concat (map (rpn (n + 8)) args) ++ [mk arg_count (Z.of_nat (length args)) (n + 8) []; g] /\
         Forall (fun t => n + prec (Call fn c w b args) <= prio t) P /\ same_flags E E' /\ argc_same E E' /\ end_prev q /\
         (length P <= S (S (length (sep (op_tok OP_COMMA 0) (map toks args)) + 1)))%nat).
    { intros E3 q P R X X1 X2 X3 X4 X5 X6 X7 X8 X9 X10.
      assert (Lg : (length (ops E3) < 100)%nat) by (rewrite X1, app_length; unfold E2, opened; cbn [ops length]; unfold sizes in *; lia).
      destruct (step_close_call E3 b n q (hd_error rest) P (ops E2) (Z.of_nat (length args))) as (E4 & Y & Y1 & Y2 & Y3 & Y4 & Y5 & Y6); auto; try lia.
      { split; [exact X7|lia]. }
      { destruct (is_op q OP_OPEN_PAREN); [exact X9|]. rewrite X6. exact X9. }
      { unfold E2, opened, g. cbn [ops topless prio]. lia. }
      eexists E4, _, [mk arg_count (Z.of_nat (length args)) (n + 8) []; g], (R ++ P).
      split; [rewrite X; cbn [app]; rewrite (loop_step _ _ _ _ _ _ Y); reflexivity|].
      split; [rewrite Y1; reflexivity|]. split; [rewrite Y2, X2, <- app_assoc; reflexivity|]. split; [rewrite X3; reflexivity|].
      split. { cbn [prec]. repeat constructor; cbn [prio g]; lia. }
      split. { eapply same_flags_trans; [|exact Y3]. eapply same_flags_trans; [|exact X5]. repeat split. }
      split. { unfold argc_same. split; [lia|]. split; [lia|]. intros j J. rewrite Y6 by lia. rewrite X8 by lia. apply V2'. exact J. }
      split. { split; [reflexivity|]. split; [apply level_n8; exact N8|discriminate]. }
      cbn [length]. lia. }
    destruct args as [|a args].
    + cbn [map sep app] in *. destruct b.
      { destruct (Hb eq_refl). }
      apply (Fin E2 (op_tok (opens false) (n + 8)) [] []); auto using same_flags_refl; try (rewrite app_nil_r; reflexivity).
      all: try (apply Forall_nil). cbn. lia.
    + destruct (run_args n (n + 8) args eq_refl a Ha) with (E := E2) (prev := Some (op_tok (opens b) (n + 8))) (r := [op_tok (closes b) (n + 8)] ++ rest) (f := g) (O := ops E)
        as (E3 & q & P & R & M & M1 & M2 & M3 & M4 & M5 & M6 & M7 & M8 & M9 & M10 & M11); auto; try lia.
      { rewrite Forall_forall in *. intros x Hx. apply IH; auto. }
      { unfold g. cbn [prio]. lia. }
      { apply start_op. }
      { unfold E2, opened, sizes. cbn [ops length]. lia. }
      apply (Fin E3 q P R); auto; try lia.
      destruct M10 as (M101 & _). rewrite M101. rewrite M9; [|auto|lia|cbn [length] in Lna; lia]. rewrite V2. cbn [length]. lia.
Qed.
