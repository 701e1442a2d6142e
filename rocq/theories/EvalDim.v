(** The arrays of a DIM statement: compiled like array elements, the name marked as the array to make. *)
From Verif Require Import Base BaseLemmas Tokens ExprSpec ExprProofs EvalProofs StmtSpec.
Ltac Zify.zify_post_hook ::= Z.div_mod_to_equations.

Lemma step_dim E prev c w nx : topless (ops E) 7 -> is_dim E = true -> Z.of_nat (length (ops E)) < 100 ->
  ev_step E prev (mk name c 7 w) nx = Ok (set_ops E (mk dim_arr c 7 w :: ops E) (res E), mk dim_arr c 7 w, false).
Proof.
  intros T D L. assert (C : match ops E with [] => true | x :: _ => prio x <? 7 + b2z (7 mod 8 =? 6) end = true) by (destruct (ops E); [reflexivity|]; cbn in T; cbn; lia).
  unfold ev_step, ev_push, is_ty, level. cbn [ty prio cl tty_beq andb orb negb]. change (7 >? 0) with true. change (7 =? 7) with true. rewrite D. cbn [andb]. unfold retag. cbn [ty prio cl text tty_beq negb orb].
  rewrite C, pushed by exact L. reflexivity.
Qed.
Lemma run_dim c w b args : wfe (Call false c w b args) -> args <> [] -> forall E prev r,
  topless (ops E) 7 -> is_sort E = false -> is_dim E = true ->
  length (argcs E) = 64%nat -> 0 <= argc_i E -> argc_i E + Z.of_nat (depth (Call false c w b args)) < 64 -> (length (ops E) + size (Call false c w b args) <= 100)%nat ->
  exists E' q P R, ev_loop E prev (ptoks 0 (Call false c w b args) ++ r) = ev_loop E' (Some q) r /\
    ops E' = P ++ ops E /\ res E' = res E ++ R /\ R ++ P = dcode (Call false c w b args) /\ Forall (fun t => 7 <= prio t) P /\
    same_flags E E' /\ argc_same E E' /\ end_prev q.
Proof.
  intros (Ha & Lna & Hb) Na E prev rest T Hs Hd La Ia Id Ls. rewrite wfe_args in Ha. cbn [ptoks depth dcode] in *. change (0 + 8) with 8 in *. change (0 + 7) with 7 in *. change (0 + 9) with 9 in *.
  unfold size in Ls. cbn [toks length] in Ls. rewrite app_length in Ls. cbn [length] in Ls.
  set (g := mk dim_arr c 7 w). rewrite <- !app_comm_cons, <- app_assoc.
  pose proof (step_dim E prev c w (hd_error (op_tok (opens b) 8 :: sep (op_tok OP_COMMA 9) (map (ptoks 8) args) ++ [op_tok (closes b) 8] ++ rest)) T Hd ltac:(lia)) as S0.
  rewrite (loop_step _ _ _ _ _ _ S0). fold g. set (E1 := set_ops E (g :: ops E) (res E)). set (E2 := opened E1 1 (g :: ops E)).
  assert (S1 : forall nx, ev_step E1 (Some g) (op_tok (opens b) (0 + 8)) nx = Ok (E2, op_tok (opens b) (0 + 8), false)).
  { intros nx. rewrite step_open by (auto; cbn [E1 set_ops argc_i argcs]; lia). reflexivity. }
  change (0 + 8) with 8 in S1. rewrite (loop_step _ _ _ _ _ _ (S1 _)).
  assert (L2 : length (argcs E2) = 64%nat) by (unfold E2, opened; cbn [argcs]; rewrite upd_length; exact La).
  assert (V2 : nth (Z.to_nat (argc_i E2)) (argcs E2) 0 = 1) by (unfold E2, opened, E1; cbn [argc_i argcs set_ops]; apply nth_upd_same; lia).
  assert (V2' : forall j, (j <= Z.to_nat (argc_i E))%nat -> nth j (argcs E2) 0 = nth j (argcs E) 0).
  { intros j J. unfold E2, opened, E1. cbn [argc_i argcs set_ops]. apply nth_upd_other. lia. }
  assert (I2 : argc_i E2 = argc_i E + 1) by reflexivity.
  destruct args as [|a args]; [destruct (Na eq_refl)|].
  destruct (run_args 0 8 args eq_refl a Ha) with (E := E2) (prev := Some (op_tok (opens b) 8)) (r := [op_tok (closes b) 8] ++ rest) (f := g) (O := ops E)
    as (E3 & q & P & R & M & M1 & M2 & M3 & M4 & M5 & M6 & M7 & M8 & M9 & M10 & M11); auto; try lia.
  { rewrite Forall_forall in *. intros x Hx. apply run_expr. auto. }
  { unfold g. cbn [prio]. lia. }
  { apply start_op. }
  { unfold E2, opened, sizes. cbn [ops length]. lia. }
  change (0 + 9) with 9 in M. change (0 + 8) with 8 in M4.
  assert (Lg : (length (ops E3) < 100)%nat) by (rewrite M1, app_length; unfold E2, opened; cbn [ops length]; unfold sizes in *; lia).
  destruct (step_close_call E3 b 0 q (hd_error rest) P (ops E2) (Z.of_nat (length (a :: args)))) as (E4 & Y & Y1 & Y2 & Y3 & Y4 & Y5 & Y6); auto; try lia.
  { split; lia. }
  { destruct M10 as (M101 & _). rewrite M101, M6, M9; [|auto|lia|cbn [length] in Lna; lia]. rewrite V2. cbn [length]. lia. }
  { unfold E2, opened, g. cbn [ops topless prio]. lia. }
  change (0 + 8) with 8 in *. eexists E4, _, [mk arg_count (Z.of_nat (length (a :: args))) 8 []; g], (R ++ P).
  split; [rewrite M; cbn [app]; rewrite (loop_step _ _ _ _ _ _ Y); reflexivity|].
  split; [rewrite Y1; reflexivity|]. split; [rewrite Y2, M2, <- app_assoc; reflexivity|]. split; [rewrite M3; reflexivity|].
  split. { repeat constructor; cbn [prio g]; lia. }
  split. { eapply same_flags_trans; [|exact Y3]. eapply same_flags_trans; [|exact M5]. repeat split. }
  split. { unfold argc_same. split; [lia|]. split; [lia|]. intros j J. rewrite Y6 by lia. rewrite M8 by lia. apply V2'. exact J. }
  split; [reflexivity|]. split; [reflexivity|discriminate].
Qed.
