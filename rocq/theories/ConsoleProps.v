(** C25: the text console. *)
From Verif Require Import Base Strs Console ConsoleSpec ConsoleProofs.

(** Any sequence of PRINT, LOCATE, CLS, COLOR and TABSTEP keeps the cursor legal, never writes outside
    the screen (no UB), and the screen is the last 24 lines of the reference page. *)
Theorem C25_console : forall l, exists c, run init_console l = Ok c /\
  0 <= cx c < 32 /\ (0 <= cy c < 24 \/ cy c = 24 /\ cx c = 0) /\
  text c = map fst (visible (page_run l)) /\ color c = map snd (visible (page_run l)) /\ length (text c) = 768%nat /\
  pos (page_run l) = top (page_run l) + 32 * cy c + cx c.
Proof. exact console_refines. Qed.
(** On the page, text occupies consecutive positions from the cursor in the current colour and changes nothing else. *)
Theorem C25_page_layout : forall ws p, 0 <= pos p -> Z.of_nat (length (cells p)) = 32 * lines p ->
  pos (puts p ws) = pos p + Z.of_nat (length ws) /\ colr (puts p ws) = colr p /\ (length (cells p) <= length (cells (puts p ws)))%nat /\
  forall n d, (n < length (cells p))%nat \/ pos p <= Z.of_nat n < pos p + Z.of_nat (length ws) ->
    nth n (cells (puts p ws)) d = if (pos p <=? Z.of_nat n) && (Z.of_nat n <? pos p + Z.of_nat (length ws))
                                  then (nth (n - Z.to_nat (pos p)) ws 0, colr p) else nth n (cells p) d.
Proof. exact puts_layout. Qed.
(** LOCATE x,y then CSRX, CSRY give x, y; outside the screen LOCATE does nothing *)
Theorem C25_locate : forall c x y,
  (0 <= x < 32 /\ 0 <= y < 24 -> sys_csrx (cmd_locate c x y) = x * 4096 /\ sys_csry (cmd_locate c x y) = y * 4096) /\
  (~ (0 <= x < 32 /\ 0 <= y < 24) -> cmd_locate c x y = c).
Proof.
  intros c x y. unfold cmd_locate, CW, CH. split; intros G.
  - replace ((x >=? 0) && (y >=? 0) && (x <? 32) && (y <? 24)) with true by lia. unfold sys_csrx, sys_csry. cbn [set_cursor cx cy].
    rewrite !BaseLemmas.INT_TO_FP_exact by (change (2 ^ 19) with 524288; lia). split; reflexivity.
  - replace ((x >=? 0) && (y >=? 0) && (x <? 32) && (y <? 24)) with false by lia. reflexivity.
Qed.
(** CHKCHR returns the character printed at a screen position, -1 outside *)
Theorem C25_chkchr : forall l c x y, run init_console l = Ok c ->
  func_chkchr c x y = INT_TO_FP (if (0 <=? x) && (x <? 32) && (0 <=? y) && (y <? 24)
    then to_char (fst (nth (Z.to_nat (32 * y + x)) (visible (page_run l)) (0, 0))) else -1).
Proof.
  intros l c x y E. destruct (console_refines l) as (c' & E' & _ & _ & T & _). rewrite E in E'. injection E' as <-.
  unfold func_chkchr, CW, CH. f_equal. replace ((x >=? 0) && (x <? 32) && (y >=? 0) && (y <? 24)) with ((0 <=? x) && (x <? 32) && (0 <=? y) && (y <? 24)) by lia.
  destruct ((0 <=? x) && (x <? 32) && (0 <=? y) && (y <? 24)); [|reflexivity]. f_equal. rewrite T.
  change 0 with (fst (0, 0)) at 1. rewrite map_nth. replace (y * 32 + x) with (32 * y + x) by lia. reflexivity.
Qed.
(** INPUT and LINPUT put their '?' without the scroll check: after text that ends exactly at the end
    of the last row the write is outside the screen. *)
Theorem C25_input_prompt_refuted : exists l c, run init_console l = Ok c /\ con_prompt c None = UB.
Proof. exists [Locate 0 23; Print [Text (repeat 65 32); Semicolon]]. eexists. split; [vm_compute; reflexivity|vm_compute; reflexivity]. Qed.
Theorem C25_input_prompt_partial : forall l c prompt, run init_console l = Ok c -> cy c < 24 -> prompt = None ->
  exists c', con_prompt c prompt = Ok c' /\ 0 <= cx c' < 32 /\ cy c' <= 24.
Proof.
  intros l c prompt E G ->. destruct (run_R l _ _ R_init) as (c' & E' & Rc & _). rewrite E in E'. injection E' as <-.
  unfold con_prompt. cbn [bind]. destruct (con_put_R c _ (to_wide 63) Rc G) as (c1 & -> & R1). cbn [bind]. eexists. split; [reflexivity|].
  destruct (cx c1 =? 0) eqn:X.
  - destruct R1 as [(_ & _ & _ & _ & _ & _ & _ & _ & _ & X1 & _) Y1]. lia.
  - destruct (con_newline_R _ _ R1) as [(_ & _ & _ & _ & _ & _ & _ & _ & _ & X1 & _) Y1]. lia.
Qed.

Example C25_example : exists c, run init_console [Color 5 (Some 2); Locate 30 23; Print [Text [65; 66; 67]; Comma; Text [68]]; Print [Semicolon]] = Ok c /\
  cx c = 0 /\ cy c = 23 /\ nth (22 * 32) (text c) 0 = 67 /\ nth (21 * 32 + 30) (text c) 0 = 65 /\ nth (22 * 32 + 4) (text c) 0 = 68 /\ nth (22 * 32) (color c) 0 = 37.
Proof. eexists. split; [vm_compute; reflexivity|]. vm_compute. repeat split; reflexivity. Qed.

Print Assumptions C25_console.
Print Assumptions C25_chkchr.
