(** Property theorems on strings: C04 (string half), C16-C21.  [spells s cs]
    (StrSpec.v) says that the stored string [s] holds the text [cs], whatever
    its storage format; numbers are fixed-point contents (4096 = 1.0). *)
From Verif Require Import Base Strs StrFuncs StrSpec StrProofs NumSpec.
From Coq Require Import List ZArith.
Import ListNotations.
Open Scope Z_scope.

(** C04, string half: comparisons depend only on the spelled texts.  The order
    is the dictionary order of the display codes of the characters. *)
Theorem C04_compare_strings : forall a b x y, spells a x -> spells b y ->
  let X := map to_wide x in let Y := map to_wide y in
  (x = y -> op_equal_str a b = Ok 4096) /\ (x <> y -> op_equal_str a b = Ok 0) /\
  (x <> y -> op_inequal_str a b = Ok 4096) /\ (x = y -> op_inequal_str a b = Ok 0) /\
  (lex_lt X Y -> op_less_str a b = Ok 4096) /\ (~ lex_lt X Y -> op_less_str a b = Ok 0) /\
  (lex_lt Y X -> op_greater_str a b = Ok 4096) /\ (~ lex_lt Y X -> op_greater_str a b = Ok 0) /\
  (lex_lt X Y \/ x = y -> op_less_equal_str a b = Ok 4096) /\
  (~ (lex_lt X Y \/ x = y) -> op_less_equal_str a b = Ok 0) /\
  (lex_lt Y X \/ x = y -> op_greater_equal_str a b = Ok 4096) /\
  (~ (lex_lt Y X \/ x = y) -> op_greater_equal_str a b = Ok 0).
Proof. exact compare_strings. Qed.
Print Assumptions C04_compare_strings.
(** the order used is a strict total order *)
Theorem C04_string_order : (forall a, ~ lex_lt a a) /\
  (forall a b c, lex_lt a b -> lex_lt b c -> lex_lt a c) /\
  (forall a b, lex_lt a b \/ a = b \/ lex_lt b a).
Proof. split; [exact lex_lt_irrefl|]. split; [exact lex_trans|exact lex_total]. Qed.
Print Assumptions C04_string_order.
Example C04_strings_ok : let a := SChar [65;66] in let b := SWide [to_wide 65; to_wide 66; to_wide 33] in
  spells a [65;66] /\ spells b [65;66;33] /\ op_less_str a b = Ok 4096 /\ op_equal_str a b = Ok 0 /\
  op_equal_str a (SWide (map to_wide [65;66])) = Ok 4096.
Proof. cbv zeta. repeat split; try reflexivity; try (repeat constructor; lia); simpl; lia. Qed.

(** C16 *)
Theorem C16_concat : forall a b x y, spells a x -> spells b y ->
  ((length (x ++ y) <= 256)%nat -> exists r, op_add_str a b = Ok r /\ spells r (x ++ y)) /\
  ((256 < length (x ++ y))%nat -> op_add_str a b = Err ERR_STRING_TOO_LONG).
Proof. exact add_str_spec. Qed.
Print Assumptions C16_concat.
Example C16_concat_ok : op_add_str (SWide (map to_wide [65;66])) (SBc [67]) = Ok (SChar [65;66;67]) /\
  op_add_str (SChar (repeat 65 200)) (SChar (repeat 66 57)) = Err ERR_STRING_TOO_LONG.
Proof. split; reflexivity. Qed.

(** A$*N for the integer part of N; negative counts give the empty string *)
Theorem C16_repeat : forall x cs num, spells x cs -> fixp num ->
  let n := Z.max 0 (num / 4096) in
  (n * Z.of_nat (length cs) <= 256 ->
     exists r, op_mult_str x num = Ok r /\ spells r (copies (Z.to_nat n) cs)) /\
  (256 < n * Z.of_nat (length cs) -> op_mult_str x num = Err ERR_STRING_TOO_LONG).
Proof. exact mult_str_spec. Qed.
Print Assumptions C16_repeat.
Example C16_repeat_ok : op_mult_str (SBc [65;66]) (3*4096) = Ok (SChar [65;66;65;66;65;66]) /\
  op_mult_str (SBc [65;66]) (129*4096) = Err ERR_STRING_TOO_LONG.
Proof. split; reflexivity. Qed.

(** C17 *)
Theorem C17_len : forall s cs, spells s cs -> func_len s = Z.of_nat (length cs) * 4096.
Proof. exact len_spec. Qed.
Print Assumptions C17_len.
Theorem C17_left : forall s cs v, spells s cs -> let n := v / 4096 in
  (n < 0 -> func_left s v = Err ERR_OUT_OF_RANGE) /\
  (0 <= n -> exists r, func_left s v = Ok r /\ spells r (firstn (Z.to_nat n) cs)).
Proof. exact left_spec. Qed.
Print Assumptions C17_left.
Theorem C17_right : forall s cs v, spells s cs -> let n := v / 4096 in
  (n < 0 -> func_right s v = Err ERR_OUT_OF_RANGE) /\
  (0 <= n -> exists r, func_right s v = Ok r /\ spells r (skipn (length cs - Z.to_nat n) cs)).
Proof. exact right_spec. Qed.
Print Assumptions C17_right.
(** Partial: holds for positions and lengths below 32768; above, the code
    truncates to 16 bits and the claim is false (next theorem). *)
Theorem C17_mid_partial : forall s cs sv lv, spells s cs ->
  let st := sv / 4096 in let n := lv / 4096 in
  (st < 0 \/ n < 0 -> func_mid s sv lv = Err ERR_OUT_OF_RANGE) /\
  (0 <= st < 32768 -> 0 <= n < 32768 ->
   exists r, func_mid s sv lv = Ok r /\ spells r (firstn (Z.to_nat n) (skipn (Z.to_nat st) cs))).
Proof. exact mid_spec. Qed.
Print Assumptions C17_mid_partial.
(** MID$("AB",65536,1) should be "" but is "A"; MID$("AB",0,32768) overruns the
    result buffer. *)
Theorem C17_mid_refuted : exists s cs sv lv, spells s cs /\ fixp sv /\ fixp lv /\
  skipn (Z.to_nat (sv / 4096)) cs = [] /\ func_mid s sv lv = Ok (SChar [65]) /\
  func_mid s 0 (32768 * 4096) = UB.
Proof.
  exists (SChar [65;66]), [65;66], (65536*4096), 4096.
  repeat split; try reflexivity; try (repeat constructor; lia); try (vm_compute; congruence).

Qed.
Print Assumptions C17_mid_refuted.
Example C17_ok : spells (SBc [65;66;67]) [65;66;67] /\
  func_mid (SBc [65;66;67]) 4096 4096 = Ok (SChar [66]) /\
  func_mid (SBc [65;66;67]) (2*4096) (9*4096) = Ok (SChar [67]) /\
  func_left (SWide (map to_wide [65;66;67])) (2*4096) = Ok (SChar [65;66]) /\
  func_right (SBc [65;66;67]) (2*4096) = Ok (SChar [66;67]) /\
  func_left (SBc [65]) (-1) = Err ERR_OUT_OF_RANGE /\ func_len (SBc [65;66]) = 8192.
Proof. repeat split; try reflexivity; try (repeat constructor; lia); simpl; lia. Qed.

(** C18.  [cnt] is the number of characters removed: the requested count, or
    the whole rest when it is negative or longer than the string.  Partial: an
    over-long result is refused only when the prefix plus replacement exceed
    256; otherwise the code overruns the buffer (next theorem). *)
Theorem C18_subst_partial : forall s cs r rs sv cv, spells s cs -> spells r rs ->
  let st := sv / 4096 in
  let cnt := let c := cv / 4096 in
             if (c <? 0) || (Z.of_nat (length cs) <? c) then length cs else Z.to_nat c in
  (st < 0 \/ Z.of_nat (length cs) < st -> func_subst s sv cv r = Err ERR_OUT_OF_RANGE) /\
  (0 <= st <= Z.of_nat (length cs) ->
   let res := firstn (Z.to_nat st) cs ++ rs ++ skipn (Z.to_nat st + cnt) cs in
   ((length res <= 256)%nat -> exists z, func_subst s sv cv r = Ok z /\ spells z res) /\
   (st + Z.of_nat (length rs) > 256 -> func_subst s sv cv r = Err ERR_STRING_TOO_LONG)).
Proof. exact subst_spec. Qed.
Print Assumptions C18_subst_partial.
Theorem C18_subst_refuted : exists s cs r rs, spells s cs /\ spells r rs /\
  func_subst s 0 0 r = UB.
Proof.
  exists (SChar (repeat 65 200)), (repeat 65 200), (SChar (repeat 66 100)), (repeat 66 100).
  repeat split; try reflexivity; try (apply Forall_forall; intros x H; apply repeat_spec in H; lia);
  rewrite repeat_length; lia.
Qed.
Print Assumptions C18_subst_refuted.
Example C18_ok : func_subst (SBc [65;66;67;68]) 4096 8192 (SBc [88]) = Ok (SChar [65;88;68]) /\
  func_subst (SBc [65;66]) 4096 (-4096) (SBc [88]) = Ok (SChar [65;88]) /\
  func_subst (SBc [65;66]) (3*4096) 0 (SBc [88]) = Err ERR_OUT_OF_RANGE.
Proof. repeat split. Qed.

(** C19: [start] is the integer part of the optional argument.  Partial: the
    pattern must be non-empty and start non-negative. *)
Theorem C19_instr_partial : forall s t x y start, spells s x -> spells t y -> y <> [] ->
  0 <= start < 2 ^ 19 ->
  (forall i, start <= Z.of_nat i -> occurs_at y x i ->
     (forall k, start <= Z.of_nat k -> (k < i)%nat -> ~ occurs_at y x k) ->
     func_instr s t start = Ok (Z.of_nat i * 4096)) /\
  ((forall i, start <= Z.of_nat i -> ~ occurs_at y x i) -> func_instr s t start = Ok (- 4096)).
Proof. exact instr_spec. Qed.
Print Assumptions C19_instr_partial.
(** INSTR(-1,"A","A") reads before the string; INSTR(3,"A","") answers 0. *)
Theorem C19_instr_refuted : func_instr (SBc [65]) (SBc [65]) (-1) = UB /\
  func_instr (SBc [65]) (SBc []) 3 = Ok 0.
Proof. split; reflexivity. Qed.
Print Assumptions C19_instr_refuted.
Example C19_ok : func_instr (SBc [65;65;66;65;66]) (SBc [65;66]) 0 = Ok 4096 /\
  func_instr (SBc [65;65;66;65;66]) (SBc [65;66]) 2 = Ok (3*4096) /\
  func_instr (SBc [65;65;66]) (SBc [67]) 0 = Ok (-4096) /\ occurs_at [65;66] [65;65;66;65;66] 1.
Proof. repeat split. exists [65], [65;66]. split; reflexivity. Qed.

(** C20, CHR$/ASC half *)
Theorem C20_chr_asc : forall c, 0 <= c < 256 ->
  exists s, func_chr (c * 4096) = Ok s /\ spells s [c] /\ func_asc s = Ok (c * 4096).
Proof. exact chr_asc. Qed.
Print Assumptions C20_chr_asc.
Theorem C20_chr_range : forall v, v / 4096 < 0 \/ 255 < v / 4096 -> func_chr v = Err ERR_OUT_OF_RANGE.
Proof. exact chr_range. Qed.
Print Assumptions C20_chr_range.
(** ASC of any byte-stored string; for a wide string (MEM$) the code answers
    the display code instead: C20_asc_refuted. *)
Theorem C20_asc_partial : forall s c cs, spells s (c :: cs) -> (forall w, s <> SWide w) ->
  func_asc s = Ok (c * 4096).
Proof. exact asc_spec. Qed.
Print Assumptions C20_asc_partial.
Theorem C20_asc_empty : forall s, spells s [] -> func_asc s = Err ERR_SYNTAX.
Proof. intros s H. unfold func_asc. rewrite (spells_len _ _ H). reflexivity. Qed.
Theorem C20_asc_refuted : exists s, spells s [65] /\ func_asc s <> Ok (65 * 4096).
Proof. exists (SWide [to_wide 65]). split; [|vm_compute; discriminate].
  repeat split; try reflexivity; try (repeat constructor; lia); simpl; lia. Qed.
Print Assumptions C20_asc_refuted.
Example C20_ok : func_chr (65*4096 + 4095) = Ok (SBc [65]) /\ func_asc (SBc [65]) = Ok (65*4096).
Proof. split; reflexivity. Qed.

(** C21 *)
Theorem C21_roundtrip : forall c, 0 <= c < 256 -> to_char (to_wide c) = c /\ 0 <= to_wide c < 65536.
Proof. intros c H. split; [exact (to_char_to_wide c H)|exact (to_wide_range c H)]. Qed.
Print Assumptions C21_roundtrip.
Theorem C21_injective : forall a b, 0 <= a < 256 -> 0 <= b < 256 -> to_wide a = to_wide b -> a = b.
Proof. exact to_wide_inj. Qed.
Print Assumptions C21_injective.
Theorem C21_copies : forall s cs, spells s cs ->
  str_char_copy s = cs /\ str_wide_copy s = map to_wide cs.
Proof. intros s cs H. split; [exact (spells_char_copy s cs H)|exact (spells_wide_copy s cs H)]. Qed.
Print Assumptions C21_copies.
Example C21_ok : to_wide 65 = 65313 /\ to_wide 177 = 12450 /\ to_char 12450 = 177.
Proof. repeat split. Qed.
