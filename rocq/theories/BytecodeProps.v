(** C32: scanning compiled programs. *)
From Verif Require Import Base BaseLemmas Tokens NumText Bytecode BytecodeSpec BytecodeProofs.

(** A scan started at instruction [k] of a program finds the first instruction with the wanted
    letter from there on, and reports the position where it starts and where its predecessor starts. *)
Theorem C32_scan_finds_instructions : forall (prog : list instr) (k : nat) (find : Z),
  Forall good prog -> (k <= length prog)%nat ->
  match bc_scan_pair (encode prog) (start prog k) find with
  | (prev, Some x) => exists j, (k <= j < length prog)%nat /\ opcode (nth j prog ILoop) = find /\
      (forall i, (k <= i < j)%nat -> opcode (nth i prog ILoop) <> find) /\
      x = start prog j /\ prev = (if Nat.eqb j k then None else Some (start prog (j - 1)))
  | (_, None) => forall i, (k <= i < length prog)%nat -> opcode (nth i prog ILoop) <> find
  end.
Proof.
  intros prog k find F K. rewrite (start_split prog k K). unfold start.
  assert (Fs : Forall good (skipn k prog)) by (rewrite <- (firstn_skipn k prog) in F; apply Forall_app in F; apply F).
  rewrite bc_scan_seek by exact Fs. pose proof (seek_spec (skipn k prog) find None (Z.of_nat (length (encode (firstn k prog))))) as Q.
  assert (N : forall i, nth i (skipn k prog) ILoop = nth (k + i) prog ILoop).
  { intros i. rewrite <- (firstn_skipn k prog) at 2. rewrite app_nth2 by (rewrite firstn_length; lia). f_equal. rewrite firstn_length. lia. }
  assert (L : length (skipn k prog) = (length prog - k)%nat) by apply skipn_length.
  assert (St : forall j, (j <= length prog - k)%nat -> Z.of_nat (length (encode (firstn k prog))) + start (skipn k prog) j = Z.of_nat (length (encode (firstn (k + j) prog)))).
  { intros j J. unfold start. rewrite <- Nat2Z.inj_add, <- app_length, <- encode_app. f_equal. f_equal. f_equal.
    rewrite <- (firstn_skipn k prog) at 3. rewrite firstn_app, firstn_length. replace (k + j - Nat.min k (length prog))%nat with j by lia.
    f_equal. rewrite firstn_firstn. f_equal. lia. }
  destruct (seek None _ (skipn k prog) find) as [q [x|]].
  - destruct Q as (j & J1 & J2 & J3 & J4 & J5). exists (k + j)%nat. rewrite L in J1. split; [lia|]. rewrite <- N. split; [exact J2|].
    split. { intros i I. specialize (J3 (i - k)%nat ltac:(lia)). rewrite N in J3. replace (k + (i - k))%nat with i in J3 by lia. exact J3. }
    rewrite St in J4 by lia. split; [exact J4|]. destruct j as [|j']; [rewrite Nat.add_0_r, Nat.eqb_refl; exact J5|].
    replace (k + S j' =? k)%nat with false by (symmetry; apply Nat.eqb_neq; lia). rewrite J5, St by lia. f_equal. f_equal. f_equal. f_equal. f_equal. lia.
  - intros i I. rewrite Forall_forall in Q. assert (J : (i - k < length (skipn k prog))%nat) by lia. specialize (Q _ (nth_In _ ILoop J)).
    rewrite N in Q. replace (k + (i - k))%nat with i in Q by lia. exact Q.
Qed.
Print Assumptions C32_scan_finds_instructions.

(** Whatever the source lines and the argument checker, with or without variable numbers, the code
    produced is a sequence of whole instructions (so the previous theorem applies to it), provided
    names are at most 64 characters long. *)
Theorem C32_compiler_emits_instructions_partial : forall errno ids no_labels test lines code,
  (forall f, ids = Some f -> good_ids f) -> (forall e, is_byte (errno e)) -> Forall good_line lines ->
  compile errno ids no_labels test [] lines = Ok code -> exists prog, code = encode prog /\ Forall good prog.
Proof.
  intros errno ids nl test lines code Gi Ge F C. destruct (compile_instr errno ids nl test lines Gi Ge F [] code eq_refl C) as (is & -> & G).
  exists is. rewrite app_nil_l. auto.
Qed.
Print Assumptions C32_compiler_emits_instructions_partial.

Definition txt_tok (k : tty) (s : list Z) : token := mk k (Z.of_nat (length s)) 0 s.
Definition nl_tok : token := mk newline 1 0 [].
Definition no_test (l : list token) : option err := None.
Definition no_errno (e : err) : Z := 0.
(** the line  A$="NB"  and the line  @L *)
Definition sample_lines : list line :=
  [Tokens [txt_tok name [65;36]; mk operation OP_ASSIGN 0 []; txt_tok string [78;66]; nl_tok]; Tokens [txt_tok label [76]; nl_tok]].
Example C32_sample : Forall good_line sample_lines /\ exists code, compile no_errno None false no_test [] sample_lines = Ok code /\
  code = [86;2;65;36; 83;2;78;66; 79;6; 76;1;76;0] /\ bc_scan code 0 BC_LABEL = Some 10 /\ bc_scan code 0 BC_NUMBER = None.
Proof.
  split; [|eexists; repeat split; reflexivity]. repeat constructor; cbn; unfold is_byte; try lia; try (intro W; discriminate W).
Qed.

(** A DIM of a name of 65 characters or more: the length byte is taken for a one-letter name and the
    name's characters are scanned (and run) as instructions. *)
Definition long_name : list Z := repeat 78 70.
Theorem C32_long_name_refuted : exists lines code prog, compile no_errno None false no_test [] lines = Ok code /\
  code = encode prog /\ ~ In BC_NUMBER (map opcode prog) /\ bc_scan code 0 BC_NUMBER <> None.
Proof.
  exists [Tokens [mk command CMD_DIM 0 []; txt_tok name long_name; mk operation OP_OPEN_PAREN 0 []; txt_tok number [53]; mk operation OP_CLOSE_PAREN 0 []; nl_tok]].
  eexists. exists [INum false (5 * 4096); IArgc 1; IDim long_name].
  split; [vm_compute; reflexivity|]. split; [vm_compute; reflexivity|]. split; [|vm_compute; discriminate].
  vm_compute. intros Q. repeat (destruct Q as [Q|Q]; [discriminate Q|]). exact Q.
Qed.
