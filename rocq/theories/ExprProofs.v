From Verif Require Import Base BaseLemmas Tokens ExprSpec.
Ltac Zify.zify_post_hook ::= Z.div_mod_to_equations.

(** * induction on expressions *)
Section Ind.
  Variable P : expr -> Prop.
  Hypothesis HA : forall k c w, P (Atom k c w).
  Hypothesis HP : forall e, P e -> P (Paren e).
  Hypothesis HU : forall o e, P e -> P (Un o e).
  Hypothesis HB : forall o l r, P l -> P r -> P (Bin o l r).
  Hypothesis HC : forall fn c w b args, Forall P args -> P (Call fn c w b args).
  Fixpoint expr_ind2 (e : expr) : P e :=
    match e with
    | Atom k c w => HA k c w
    | Paren e => HP e (expr_ind2 e)
    | Un o e => HU o e (expr_ind2 e)
    | Bin o l r => HB o l r (expr_ind2 l) (expr_ind2 r)
    | Call fn c w b args => HC fn c w b args
        ((fix f (l : list expr) : Forall P l := match l with [] => Forall_nil P | x :: r => Forall_cons x (expr_ind2 x) (f r) end) args)
    end.
End Ind.

Lemma wfe_args l : ((fix all (l : list expr) : Prop := match l with [] => True | x :: r => wfe x /\ all r end) l) <-> Forall wfe l.
Proof. induction l as [|x r IH]; split; intros G; auto. - destruct G. constructor; [assumption|]. apply IH. assumption. - inversion G; subst. split; [assumption|]. apply IH. assumption. Qed.

Lemma bin_prec o l r : bin_level o <> None -> 2 <= prec (Bin o l r) <= 5.
Proof. cbn [prec]. unfold bin_level. intros N. repeat match goal with |- context [if ?b then _ else _] => destruct b end; lia || (exfalso; apply N; reflexivity). Qed.
Lemma prec_range e : wfe e -> 2 <= prec e <= 7.
Proof. destruct e; cbn [wfe]; intros G; try (cbn [prec]; lia). destruct G as [G _]. pose proof (bin_prec o e1 e2 G). lia. Qed.

(** * tok_prio *)
Fixpoint ptoks (n : Z) (e : expr) : list token :=
  match e with
  | Atom k c w => [mk k c 0 w]
  | Paren e => op_tok OP_OPEN_PAREN (n + 8) :: ptoks (n + 8) e ++ [op_tok OP_CLOSE_PAREN (n + 8)]
  | Un o e => op_tok o (n + 6) :: ptoks n e
  | Bin o l r => ptoks n l ++ op_tok o (n + prec (Bin o l r)) :: ptoks n r
  | Call fn c w b args =>
      mk (if fn then function else name) c (n + 7) w :: op_tok (opens b) (n + 8) ::
      sep (op_tok OP_COMMA (n + 9)) (map (ptoks (n + 8)) args) ++ [op_tok (closes b) (n + 8)]
  end.
Definition value_end (t : token) : Prop :=
  ty t = number \/ ty t = name \/ ty t = sysvar \/ (ty t = operation /\ cl t > OP_OPEN_PAREN).
Lemma value_end_binary t d : value_end t -> binary_minus (t :: d) = Ok true.
Proof.
  unfold binary_minus, value_end, is_ty. intros [E|[E|[E|[E C]]]]; rewrite E; cbn [tty_beq orb andb]; try reflexivity.
  replace (cl t >? OP_OPEN_PAREN) with true by lia. reflexivity.
Qed.
(** last token *)
Lemma last_ptoks e : wfe e -> forall n, exists l t, ptoks n e = l ++ [t] /\ (ends_value e = true -> value_end t).
Proof.
  induction e as [k c w|e IH|o e IH|o l r IHl IHr|fn c w b args IH] using expr_ind2; cbn [wfe]; intros Hw n; cbn [ptoks ends_value].
  - exists [], (mk k c 0 w). split; [reflexivity|]. unfold value_end. cbn [ty cl]. destruct k; intros X; try discriminate X; auto.
  - exists (op_tok OP_OPEN_PAREN (n + 8) :: ptoks (n + 8) e), (op_tok OP_CLOSE_PAREN (n + 8)). split; [reflexivity|].
    intros _. right. right. right. split; [reflexivity|]. reflexivity.
  - destruct Hw as (_ & Hw & _). destruct (IH Hw n) as (a & t & E & V). rewrite E. exists (op_tok o (n + 6) :: a), t. split; [reflexivity|exact V].
  - destruct Hw as (_ & _ & Hw & _). destruct (IHr Hw n) as (a & t & E & V). rewrite E.
    exists (ptoks n l ++ op_tok o (n + prec (Bin o l r)) :: a), t. split; [rewrite <- app_assoc; reflexivity|exact V].
  - exists (mk (if fn then function else name) c (n + 7) w :: op_tok (opens b) (n + 8) :: sep (op_tok OP_COMMA (n + 9)) (map (ptoks (n + 8)) args)), (op_tok (closes b) (n + 8)).
    split; [reflexivity|]. intros _. right. right. right. split; [reflexivity|]. destruct b; reflexivity.
Qed.

(** a position where an operand may start *)
Definition opnd (e : expr) (done : list token) : Prop :=
  exists p d, done = p :: d /\ ty p <> name /\ (starts_minus e = true -> binary_minus done = Ok false).

Lemma u16_small x : 0 <= x < 65536 -> u16 x = x.
Proof. intros R. unfold u16. change (2 ^ 16) with 65536. apply Z.mod_small. exact R. Qed.

Lemma op_level_bin o k : bin_level o = Some k -> o <> OP_SUBTRACT -> op_level o = Some k /\ o <> OP_OPEN_BRACKET /\ o <> OP_OPEN_PAREN /\ o <> OP_CLOSE_BRACKET /\ o <> OP_CLOSE_PAREN.
Proof.
  unfold bin_level, op_level, OP_AND, OP_OR, OP_XOR, OP_EQUAL, OP_GREATER_EQUAL, OP_ADD, OP_SUBTRACT, OP_MULTIPLY, OP_DIVIDE, OP_MODULO,
    OP_ASSIGN, OP_COMMA, OP_SEMICOLON, OP_LESS, OP_LESS_EQUAL, OP_GREATER, OP_NOT_EQUAL, OP_NOT, OP_LOGICAL_NOT, OP_OPEN_BRACKET, OP_OPEN_PAREN, OP_CLOSE_BRACKET, OP_CLOSE_PAREN.
  intros E N. destruct ((o =? 15) || (o =? 16) || (o =? 17)) eqn:A1.
  - injection E as <-. replace (o =? 6) with false by lia. replace ((o =? 1) || (o =? 5)) with false by lia. split; [reflexivity|lia].
  - destruct ((8 <=? o) && (o <=? 13)) eqn:A2.
    + injection E as <-. replace (o =? 6) with false by lia. replace ((o =? 1) || (o =? 5)) with false by lia.
      replace ((o =? 10) || (o =? 12) || (o =? 13) || (o =? 11) || (o =? 8) || (o =? 9)) with true by lia. split; [reflexivity|lia].
    + destruct ((o =? 0) || (o =? 2)) eqn:A3.
      * injection E as <-. assert (o = 0) by lia. subst o. split; [reflexivity|lia].
      * destruct ((o =? 3) || (o =? 4) || (o =? 14)) eqn:A4; [|discriminate E]. injection E as <-.
        replace (o =? 6) with false by lia. replace ((o =? 1) || (o =? 5)) with false by lia.
        replace ((o =? 10) || (o =? 12) || (o =? 13) || (o =? 11) || (o =? 8) || (o =? 9)) with false by lia.
        replace (o =? 0) with false by lia. split; [reflexivity|lia].
Qed.
Lemma bin_le20 o k : bin_level o = Some k -> o <= OP_OPEN_PAREN.
Proof.
  unfold bin_level, OP_AND, OP_OR, OP_XOR, OP_EQUAL, OP_GREATER_EQUAL, OP_ADD, OP_SUBTRACT, OP_MULTIPLY, OP_DIVIDE, OP_MODULO, OP_OPEN_PAREN. intros E.
  destruct ((o =? 15) || (o =? 16) || (o =? 17)) eqn:A1; [lia|]. destruct ((8 <=? o) && (o <=? 13)) eqn:A2; [lia|].
  destruct ((o =? 0) || (o =? 2)) eqn:A3; [lia|]. destruct ((o =? 3) || (o =? 4) || (o =? 14)) eqn:A4; [lia|discriminate E].
Qed.
Lemma op_not_value o p d : o <= OP_OPEN_PAREN -> binary_minus (op_tok o p :: d) = Ok false.
Proof. intros L. unfold binary_minus, is_ty. cbn [op_tok ty cl tty_beq orb andb]. replace (o >? OP_OPEN_PAREN) with false by lia. reflexivity. Qed.
Lemma opnd_op e o p d : o <= OP_OPEN_PAREN -> opnd e (op_tok o p :: d).
Proof. intros L. eexists _, _. split; [reflexivity|]. split; [discriminate|]. intros _. apply op_not_value. exact L. Qed.

(** one step of prio_loop *)
Lemma prio_bin o k done n r : bin_level o = Some k -> (o = OP_SUBTRACT -> binary_minus done = Ok true) -> 0 <= n -> n + 8 < 65536 ->
  prio_loop done n (op_tok o 0 :: r) = prio_loop (op_tok o (n + k) :: done) n r.
Proof.
  intros E M N0 N1. assert (2 <= k <= 5).
  { pose proof (bin_prec o (Atom number 0 []) (Atom number 0 [])) as B. cbn [prec] in B. rewrite E in B. apply B. discriminate. }
  cbn [prio_loop op_tok ty cl]. unfold set_prio. cbn [op_tok ty cl text]. rewrite u16_small by lia. destruct (o =? OP_SUBTRACT) eqn:S.
  - rewrite M by lia. cbn [bind]. assert (o = 2) by (unfold OP_SUBTRACT in S; lia). subst o. injection E as <-. reflexivity.
  - destruct (op_level_bin o k E ltac:(lia)) as (-> & A & B & C & D).
    replace ((o =? OP_OPEN_BRACKET) || (o =? OP_OPEN_PAREN)) with false by lia.
    replace ((o =? OP_CLOSE_BRACKET) || (o =? OP_CLOSE_PAREN)) with false by lia. rewrite u16_small by lia. reflexivity.
Qed.
Lemma prio_un o done n r : is_unary o = true -> (o = OP_NEGATE -> binary_minus done = Ok false) -> 0 <= n -> n + 8 < 65536 ->
  prio_loop done n (op_tok (minus_char o) 0 :: r) = prio_loop (op_tok o (n + 6) :: done) n r.
Proof.
  intros U M N0 N1. unfold minus_char. destruct (o =? OP_NEGATE) eqn:S.
  - assert (o = OP_NEGATE) by lia. subst o. cbn [prio_loop op_tok ty cl]. change (OP_SUBTRACT =? OP_SUBTRACT) with true. cbv iota.
    rewrite M by lia. cbn [bind text]. rewrite u16_small by lia. reflexivity.
  - assert (O : o = OP_NOT \/ o = OP_LOGICAL_NOT) by (unfold is_unary in U; lia).
    cbn [prio_loop op_tok ty cl]. unfold set_prio. destruct O as [-> | ->]; cbn; rewrite u16_small by lia; reflexivity.
Qed.
Lemma prio_open b done n r : 0 <= n -> n + 8 < 65536 -> match done with p :: _ => ty p <> name | [] => True end ->
  prio_loop done n (op_tok (opens b) 0 :: r) = prio_loop (op_tok (opens b) (n + 8) :: done) (n + 8) r.
Proof.
  intros N0 N1 H. cbn [prio_loop op_tok ty cl]. replace (opens b =? OP_SUBTRACT) with false by (destruct b; reflexivity).
  replace ((opens b =? OP_OPEN_BRACKET) || (opens b =? OP_OPEN_PAREN)) with true by (destruct b; reflexivity).
  unfold set_prio at 1. cbn [ty cl text]. rewrite u16_small by lia. destruct done as [|p d]; [reflexivity|].
  unfold is_ty. destruct (tty_beq (ty p) name) eqn:T; [exfalso; apply H; destruct (ty p); try discriminate T; reflexivity|]. reflexivity.
Qed.
Lemma prio_close b done n r : 0 <= n < 65536 ->
  prio_loop done n (op_tok (closes b) 0 :: r) = prio_loop (op_tok (closes b) n :: done) (n - 8) r.
Proof.
  intros N0. cbn [prio_loop op_tok ty cl]. replace (closes b =? OP_SUBTRACT) with false by (destruct b; reflexivity).
  replace ((closes b =? OP_OPEN_BRACKET) || (closes b =? OP_OPEN_PAREN)) with false by (destruct b; reflexivity).
  replace ((closes b =? OP_CLOSE_BRACKET) || (closes b =? OP_CLOSE_PAREN)) with true by (destruct b; reflexivity).
  unfold set_prio. cbn [ty cl text]. rewrite u16_small by lia. reflexivity.
Qed.
Lemma prio_comma done n r : 0 <= n -> n + 8 < 65536 ->
  prio_loop done n (op_tok OP_COMMA 0 :: r) = prio_loop (op_tok OP_COMMA (n + 1) :: done) n r.
Proof. intros. cbn [prio_loop op_tok ty cl]. unfold set_prio. cbn. rewrite u16_small by lia. reflexivity. Qed.
Lemma prio_atom k c w done n r : atom_ty k = true -> prio_loop done n (mk k c 0 w :: r) = prio_loop (mk k c 0 w :: done) n r.
Proof. destruct k; intros X; try discriminate X; reflexivity. Qed.

Definition ends_ok (e : expr) (n : Z) (done : list token) : Prop :=
  exists t d, rev (ptoks n e) ++ done = t :: d /\ (ends_value e = true -> binary_minus (t :: d) = Ok true).
Lemma ends_ok_all e n done : wfe e -> ends_ok e n done.
Proof.
  intros Hw. destruct (last_ptoks e Hw n) as (l & t & E & V). unfold ends_ok. rewrite E, rev_app_distr. cbn [rev app].
  eexists _, _. split; [reflexivity|]. intros Q. apply value_end_binary. apply V. exact Q.
Qed.

Lemma prio_expr e : wfe e -> forall done n r, opnd e done -> 0 <= n -> n + 8 * Z.of_nat (depth e) + 16 < 65536 ->
  prio_loop done n (toks e ++ r) = prio_loop (rev (ptoks n e) ++ done) n r.
Proof.
  induction e as [k c w|e IH|o e IH|o l r IHl IHr|fn c w b args IH] using expr_ind2; cbn [wfe]; intros Hw done n rest (p & d & Ed & Nn & Sm) N0 N1; cbn [toks ptoks depth starts_minus] in *.
  - cbn [app rev]. rewrite prio_atom by exact Hw. reflexivity.
  - rewrite <- app_comm_cons, <- app_assoc. change OP_OPEN_PAREN with (opens false) at 1.
    rewrite prio_open; [|lia|lia|rewrite Ed; exact Nn]. rewrite IH; [|exact Hw|apply opnd_op; apply Z.le_refl|lia|lia].
    cbn [app]. change OP_CLOSE_PAREN with (closes false) at 1. rewrite prio_close by lia.
    replace (n + 8 - 8) with n by lia. cbn [rev]. rewrite rev_app_distr, <- !app_assoc. reflexivity.
  - destruct Hw as (U & Hw & Hp). cbn [app]. rewrite prio_un; [|exact U| |lia|lia].
    + rewrite IH; [|exact Hw| |lia|lia]. * cbn [rev]. rewrite <- app_assoc. reflexivity.
      * apply opnd_op. unfold is_unary, OP_NEGATE, OP_NOT, OP_LOGICAL_NOT in U. unfold OP_OPEN_PAREN. lia.
    + intros ->. apply Sm. reflexivity.
  - destruct Hw as (B & Hl & Hr & Pl & Pr & Hm). cbn [prec] in Pl, Pr |- *. destruct (bin_level o) as [k|] eqn:L; [|destruct (B eq_refl)].
    rewrite <- app_assoc. rewrite IHl; [|exact Hl| |lia|lia].
    2:{ exists p, d. split; [exact Ed|]. split; [exact Nn|]. exact Sm. }
    cbn [app]. rewrite (prio_bin o k); [|exact L| |lia|lia].
    2:{ intros Q. destruct (ends_ok_all l n done Hl) as (t & d' & E & V). rewrite E. apply V. auto. }
    rewrite IHr; [|exact Hr|apply opnd_op; eapply bin_le20; eauto|lia|lia].
    rewrite rev_app_distr. cbn [rev]. rewrite <- !app_assoc. reflexivity.
  - destruct Hw as (Ha & La & Hb). rewrite wfe_args in Ha. rewrite <- !app_comm_cons, <- app_assoc.
    assert (F : forall r', prio_loop done n (mk (if fn then function else name) c 0 w :: op_tok (opens b) 0 :: r') =
                prio_loop (op_tok (opens b) (n + 8) :: mk (if fn then function else name) c (n + 7) w :: done) (n + 8) r').
    { intros r'. destruct fn.
      - change (prio_loop done n (mk function c 0 w :: op_tok (opens b) 0 :: r')) with (prio_loop (set_prio (mk function c 0 w) (n + 7) :: done) n (op_tok (opens b) 0 :: r')).
        rewrite prio_open by (cbn; try lia; discriminate). unfold set_prio. cbn [ty cl text]. rewrite u16_small by lia. reflexivity.
      - change (prio_loop done n (mk name c 0 w :: op_tok (opens b) 0 :: r')) with (prio_loop (set_prio (mk name c 0 w) 0 :: done) n (op_tok (opens b) 0 :: r')).
        cbn [prio_loop op_tok ty cl]. replace (opens b =? OP_SUBTRACT) with false by (destruct b; reflexivity).
        replace ((opens b =? OP_OPEN_BRACKET) || (opens b =? OP_OPEN_PAREN)) with true by (destruct b; reflexivity).
        unfold set_prio, is_ty. cbn [ty cl text tty_beq]. rewrite !u16_small by lia. reflexivity. }
    rewrite F. clear F.
    assert (Close : forall dn, prio_loop dn (n + 8) ([op_tok (closes b) 0] ++ rest) = prio_loop (op_tok (closes b) (n + 8) :: dn) n rest).
    { intros dn. cbn [app]. rewrite prio_close by lia. replace (n + 8 - 8) with n by lia. reflexivity. }
    destruct args as [|a args].
    + cbn [sep map app rev]. change (op_tok (closes b) 0 :: rest) with ([op_tok (closes b) 0] ++ rest). rewrite Close. reflexivity.
    + assert (G : forall l a dn, Forall wfe (a :: l) -> opnd a dn ->
          Forall (fun e => wfe e -> forall done n r, opnd e done -> 0 <= n -> n + 8 * Z.of_nat (depth e) + 16 < 65536 ->
             prio_loop done n (toks e ++ r) = prio_loop (rev (ptoks n e) ++ done) n r) (a :: l) ->
          n + 8 + 8 * Z.of_nat (fold_right (fun e m => Nat.max (depth e) m) 0%nat (a :: l)) + 16 < 65536 ->
          forall rs, prio_loop dn (n + 8) (sep (op_tok OP_COMMA 0) (map toks (a :: l)) ++ rs) =
            prio_loop (rev (sep (op_tok OP_COMMA (n + 9)) (map (ptoks (n + 8)) (a :: l))) ++ dn) (n + 8) rs).
      { clear - N0. intros l. induction l as [|x l IHl]; intros a dn Hw O IHs D rs.
        - cbn [map sep fold_right] in *. inversion IHs; subst. inversion Hw; subst. apply H1; auto; lia.
        - inversion IHs as [|? ? Ia Il]; subst. inversion Hw as [|? ? Wa Wl]; subst.
          change (map toks (a :: x :: l)) with (toks a :: map toks (x :: l)).
          change (map (ptoks (n + 8)) (a :: x :: l)) with (ptoks (n + 8) a :: map (ptoks (n + 8)) (x :: l)).
          assert (S1 : forall {A} (s : A) u v t, sep s (u :: v :: t) = u ++ s :: sep s (v :: t)) by reflexivity.
          change (map toks (x :: l)) with (toks x :: map toks l) in *. change (map (ptoks (n + 8)) (x :: l)) with (ptoks (n + 8) x :: map (ptoks (n + 8)) l) in *.
          rewrite !S1. rewrite <- app_assoc, <- app_comm_cons. cbn [fold_right] in D. rewrite Ia; [|exact Wa|exact O|lia|lia].
          rewrite prio_comma by lia. replace (n + 8 + 1) with (n + 9) by lia.
          change (toks x :: map toks l) with (map toks (x :: l)). change (ptoks (n + 8) x :: map (ptoks (n + 8)) l) with (map (ptoks (n + 8)) (x :: l)).
          rewrite IHl; [|exact Wl|apply opnd_op; discriminate|exact Il|cbn [fold_right]; lia].
          rewrite rev_app_distr. cbn [rev]. rewrite <- !app_assoc. reflexivity. }
      rewrite G; [|exact Ha| |exact IH|cbn [fold_right] in *; lia].
      * rewrite Close. cbn [rev]. rewrite rev_app_distr. cbn [rev app]. rewrite <- !app_assoc. reflexivity.
      * destruct b.
        -- eexists _, _. split; [reflexivity|]. split; [discriminate|]. intros Q. specialize (Hb eq_refl). cbn in Hb. rewrite Q in Hb. discriminate Hb.
        -- apply opnd_op. apply Z.le_refl.
Qed.
