(** C30, C31: compressed resources. *)
From Verif Require Import Base Compress CompressSpec CompressProofs.

(** C30: whenever the compressor finishes without leaving its buffer, its result decodes to the source,
    is the smallest over all cache widths and never larger than the source. *)
Theorem C30_lossless_partial : forall src slack r, bytes src -> optimal_compress src 8 slack = Ok r -> lossless src r.
Proof. exact optimal_lossless. Qed.
(** With one byte more than the code allocates it always finishes. *)
Theorem C30_one_spare_byte_suffices : forall src slack, bytes src -> (1 <= slack)%nat ->
  exists r, optimal_compress src 8 slack = Ok r /\ lossless src r.
Proof. exact optimal_lossless_slack. Qed.
(** A single attempt reports -1 exactly when the encoding is not smaller than the source. *)
Theorem C30_attempt_reports_failure : forall src out bits, 0 <= bits <= 7 -> bytes src -> bytes out -> (length src + 1 <= length out)%nat ->
  exists out', compress src out bits 8 =
    Ok (if packed_size bits src <? Z.of_nat (length src) then Some (packed_size bits src) else None, out').
Proof.
  intros src out bits Hb Bs Bo L. destruct (compress_spec src out bits Hb Bs Bo L) as (out' & E & _). exists out'. exact E.
Qed.
(** With the source_size bytes the code allocates, a write lands behind the buffer. *)
Theorem C30_buffer_overrun_refuted : exists src, bytes src /\ optimal_compress src 8 0 = UB.
Proof. exists [200]. split; [repeat constructor; unfold byte; lia|vm_compute; reflexivity]. Qed.

Example C30_example : exists out, optimal_compress [7;7;7;7;9;9;9;7;7;7;200;7] 8 0 = Ok (7, Some 0, out).
Proof. eexists. vm_compute. reflexivity. Qed.

(** C31: the file is placed at the end of the destination; loading is right when, after every i output
    bytes, the bytes still to be read are no more than the bytes still to be written (and, for the
    0-bit cache, the last byte has an unused bit). *)
Theorem C31_inplace_partial : forall src slack n b out dest header,
  bytes src -> bytes dest -> bytes header -> length header = 8%nat -> length dest = length src ->
  optimal_compress src 8 slack = Ok (n, Some b, out) -> n + 8 <= Z.of_nat (length dest) ->
  (b = 0 -> cost b src (length src) < 8 * n) ->
  (forall i, (0 < i < length src)%nat -> n - cost b src i / 8 <= Z.of_nat (length src - i)) ->
  load_compressed dest (header ++ firstn (Z.to_nat n) out) b = Ok src.
Proof. exact optimal_in_place. Qed.

Definition ex_ok : list Z := repeat 7 39.
Example C31_example : exists out, optimal_compress ex_ok 8 1 = Ok (6, Some 0, out) /\ 6 + 8 <= Z.of_nat (length ex_ok) /\
  cost 0 ex_ok 39 < 8 * 6 /\ forall i, (0 < i < length ex_ok)%nat -> 6 - cost 0 ex_ok i / 8 <= Z.of_nat (length ex_ok - i).
Proof.
  eexists. split; [vm_compute; reflexivity|]. split; [vm_compute; intro W; discriminate W|]. split; [vm_compute; reflexivity|].
  intros i H. change (length ex_ok) with 39%nat in *.
  assert (F : forallb (fun i => 6 - cost 0 ex_ok i / 8 <=? Z.of_nat (39 - i)) (seq 0 39) = true) by (vm_compute; reflexivity).
  rewrite forallb_forall in F. specialize (F i). rewrite in_seq in F. specialize (F ltac:(lia)). lia.
Qed.

(** In general the claim is false: a compressible start followed by incompressible bytes is destroyed by
    the decoder overwriting data it has not read yet. *)
Definition ex_bad : list Z := repeat 0 64 ++ map (fun i => 128 + Z.of_nat i) (seq 0 32).
Theorem C31_inplace_refuted : exists src n b out res, bytes src /\
  optimal_compress src 8 1 = Ok (n, Some b, out) /\ n + 8 <= Z.of_nat (length src) /\
  load_compressed (repeat 0 (length src)) ([83;66;67;67;b;96;0;0] ++ firstn (Z.to_nat n) out) b = Ok res /\ res <> src.
Proof.
  exists ex_bad. unfold ex_bad. do 4 eexists. split.
  - apply Forall_app. split; [apply Forall_forall; intros x H; apply repeat_spec in H; subst; unfold byte; lia|].
    apply Forall_forall. intros x H. apply in_map_iff in H. destruct H as (i & <- & H). apply in_seq in H. unfold byte. lia.
  - split; [vm_compute; reflexivity|]. split; [vm_compute; intro W; discriminate W|].
    split; [vm_compute; reflexivity|]. vm_compute. intro W. discriminate W.
Qed.
(** A header that names more than 7 cache bits overruns the decoder's cache array. *)
Theorem C31_cache_width_refuted : forall dest file, (length file <= length dest)%nat -> load_compressed dest file 8 = UB.
Proof. intros dest file H. unfold load_compressed, decompress. destruct (_ <? 0); reflexivity. Qed.

Print Assumptions C30_lossless_partial.
Print Assumptions C30_one_spare_byte_suffices.
Print Assumptions C31_inplace_partial.
