(** C23 keyboard buffer, C24 buttons. *)
From Verif Require Import Base Strs Input InputSpec InputProofs.

(** every interleaving of typed keys and reads answers exactly like a queue of 256 keys *)
Theorem C23_queue : forall l, exists i', key_run init_inkey l = Ok (i', snd (queue_run [] l)).
Proof. exact key_run_init. Qed.
(** in particular the accepted keys come out in order, each once; what is not yet read is still queued *)
Theorem C23_fifo : forall l, Forall (fun e => e <> Typed 0) l ->
  exists i' r left, key_run init_inkey l = Ok (i', r) /\ accepted l r = returned r ++ left.
Proof.
  intros l F. destruct (key_run_init l) as (i' & E). pose proof (queue_fifo l [] (Forall_nil _) F) as Q.
  destruct (queue_run [] l) as [left r]. exists i', r, left. split; [exact E|exact Q].
Qed.
(** INKEY$ after any history returns the oldest unread character, or the empty string when there is none *)
Theorem C23_inkey : forall l i r, key_run init_inkey l = Ok (i, r) ->
  forall q, Forall (fun c => 0 < c < 256) q -> fst (queue_run [] l) = map to_wide q ->
  exists i', func_inkey i = Ok (hd_error q, i').
Proof.
  intros l i r E q F Q. destruct (key_run_queue l init_inkey [] qrep_init) as (i1 & E1 & R). rewrite E in E1. injection E1 as <- _.
  rewrite Q in R. destruct (func_inkey_spec i q R F) as (i' & E' & _). exists i'. exact E'.
Qed.
(** a key with code 0 (a NUL character in a KEY string) is consumed but reported as "no key" *)
Theorem C23_nul_key_refuted : exists i, key_run init_inkey [Typed 0; Typed (to_wide 65)] = Ok i /\
  exists i', func_inkey (fst i) = Ok (None, i') /\ current_write i' = 1.
Proof. eexists. split; [vm_compute; reflexivity|]. eexists. split; vm_compute; reflexivity. Qed.
Example C23_example : exists i, key_run init_inkey [Typed (to_wide 65); Typed (to_wide 66); Read; Typed (to_wide 177)] =
  Ok (i, [inl true; inl true; inr (to_wide 65); inl true]) /\
  fst (queue_run [] [Typed (to_wide 65); Typed (to_wide 66); Read; Typed (to_wide 177)]) = map to_wide [66; 177].
Proof. eexists. split; vm_compute; reflexivity. Qed.

(** BUTTON(mode) and BTRIG after any history of frames and BREPEAT commands *)
Theorem C24_button : forall l mode, Z.of_nat (length l) < 2 ^ 31 -> Forall valid_event l -> 0 <= mode <= 3 ->
  exists s v, button_run l = Ok s /\ func_button s mode = Ok (v * 4096) /\ 0 <= v < 4096 /\
    (mode = 1 -> func_btrig s = v * 4096) /\
    forall j, 0 <= j < 12 -> (Z.testbit v j = true <-> shows mode l j).
Proof. exact button_spec. Qed.
(** other modes are an error *)
Theorem C24_bad_mode : forall s mode, ~ (0 <= mode <= 3) -> func_button s mode = Err ERR_INVALID_ARGUMENT_VALUE.
Proof.
  intros s mode H. unfold func_button. replace (mode =? 0) with false by lia. replace (mode =? 1) with false by lia.
  replace (mode =? 2) with false by lia. replace (mode =? 3) with false by lia. reflexivity.
Qed.
(** SELECT breaks the program in the first frame it is held *)
Theorem C24_select_break : forall l b, Z.of_nat (length l) < 2 ^ 31 - 1 -> Forall valid_event l -> 0 <= b < 4096 ->
  exists s s' brk, button_run l = Ok s /\ set_input s b = Ok (brk, s') /\
    (brk = true <-> Z.testbit b 11 = true /\ held 11 l = 0).
Proof. exact select_break. Qed.
Theorem C24_brepeat_range : forall s id st rp, ~ (0 <= id <= 12) -> cmd_brepeat s [id; st; rp] = (s, Some ERR_OUT_OF_RANGE).
Proof. exact brepeat_range. Qed.
(** a rejected BREPEAT (negative interval) has already changed the start delay *)
Theorem C24_brepeat_error_effect_refuted : exists s s', cmd_brepeat s [4; 30; -1] = (s', Some ERR_OUT_OF_RANGE) /\ s' <> s.
Proof. exists init_buttons. eexists. split; [vm_compute; reflexivity|]. vm_compute. intro W. discriminate W. Qed.
Example C24_example : exists s, button_run [Frame 17; Frame 17; Frame 16; Brepeat 4 1 1] = Ok s /\ func_button s 1 = Ok 0 /\
  func_button s 2 = Ok 0 /\ exists s', button_run [Frame 16; Frame 17; Frame 17; Frame 16; Brepeat 4 1 1] = Ok s' /\
  func_button s' 1 = Ok (16 * 4096) /\ func_button s' 3 = Ok (1 * 4096).
Proof. eexists. split; [vm_compute; reflexivity|]. split; [reflexivity|]. split; [reflexivity|]. eexists. split; [vm_compute; reflexivity|]. split; reflexivity. Qed.

Print Assumptions C23_fifo.
Print Assumptions C24_button.
