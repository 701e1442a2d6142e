(** C54: SAVE and LOAD of resources.  C55: program files.  C56: CHRINIT and COLINIT. *)
From Coq Require Import String Ascii.
From Verif Require CompressSpec CompressProofs.
From Verif Require Import Base BaseLemmas Strs Memory Compress Resources ResourcesSpec ResourcesProofs ResourcesProps Files FilesSpec FilesProofs.
Ltac Zify.zify_post_hook ::= Z.div_mod_to_equations.
Open Scope Z_scope.

(** ** SAVE writes exactly one file and changes nothing else *)
Theorem C54_save : forall p s res i, well_formed s -> page_ok p -> good_str res -> get_verified_resource p res = Ok i -> i_data i <> Prg ->
  can_write (disk s) (path_of (search_path s) (i_name i)) = true ->
  exists s', cmd_save p s res = (s', Done) /\ result s' = 1 /\
    file (disk s') (path_of (search_path s) (i_name i)) = Some (type_string (i_data i) ++ bufs s (i_data i)) /\
    (forall q, q <> path_of (search_path s) (i_name i) -> file (disk s') q = file (disk s) q) /\
    (forall b, bufs s' b = bufs s b) /\ prg_len s' = prg_len s /\ mem_len s' = mem_len s /\ search_path s' = search_path s /\
    prgname s' = prgname s /\ package s' = package s.
Proof.
  intros p s res i WF Hp G E N CW. destruct (resource_info p res i Hp G E) as (F & K & _ & _).
  unfold cmd_save. rewrite E.
  assert (X : firstn (Z.to_nat (resource_size (i_id i))) (bufs s (i_data i)) = bufs s (i_data i)).
  { apply firstn_all2. rewrite K, (size_str_of _ N), <- (wf_size _ WF (i_data i)). unfold zlen. lia. }
  assert (Y : negb (zlen (bufs s (i_data i)) =? 0) = true).
  { rewrite (wf_size _ WF). destruct (i_data i); reflexivity. }
  assert (Q : forall n f, exists s', (set_result (set_disk s f) n, Done) = (s', Done) /\ result s' = n /\ disk s' = f /\
     (forall b, bufs s' b = bufs s b) /\ prg_len s' = prg_len s /\ mem_len s' = mem_len s /\ search_path s' = search_path s /\ prgname s' = prgname s /\ package s' = package s).
  { intros n f. eexists. split; [reflexivity|]. cbn. repeat split. }
  assert (M : check_save_res (disk s) (bufs s (i_data i)) (search_path s) (i_name i) (i_id i)
     = Ok (zlen (bufs s (i_data i)), write_file (disk s) (path_of (search_path s) (i_name i)) (type_string (i_data i) ++ bufs s (i_data i)))).
  { unfold check_save_res. rewrite (create_ok _ _ (wf_dir _ WF) F), CW. cbn [negb]. cbv zeta. rewrite X, <- type_str_of, <- K.
    destruct (i_data i); rewrite K; cbn [kind_of]; try reflexivity. contradiction. }
  rewrite M, Y. destruct (Q 1 (write_file (disk s) (path_of (search_path s) (i_name i)) (type_string (i_data i) ++ bufs s (i_data i)))) as (s' & E' & R' & D' & rest).
  exists s'. split; [exact E'|]. split; [exact R'|]. rewrite D'. split; [cbn; rewrite path_eqb_refl; reflexivity|].
  split; [|exact rest]. intros q Nq. cbn. rewrite path_eqb_neq by exact Nq. reflexivity.
Qed.
(** a file that cannot be opened: nothing happens, RESULT tells *)
Theorem C54_save_refused : forall p s res i, well_formed s -> page_ok p -> good_str res -> get_verified_resource p res = Ok i ->
  can_write (disk s) (path_of (search_path s) (i_name i)) = false ->
  exists s', cmd_save p s res = (s', Done) /\ result s' = 0 /\ same_files s s' /\ (forall b, bufs s' b = bufs s b) /\ prg_len s' = prg_len s.
Proof.
  intros p s res i WF Hp G E CW. destruct (resource_info p res i Hp G E) as (F & K & _ & _).
  unfold cmd_save. rewrite E. unfold check_save_res. rewrite (create_ok _ _ (wf_dir _ WF) F), CW. cbn [negb].
  eexists. split; [reflexivity|]. split; [reflexivity|]. split; [intro q; reflexivity|]. split; reflexivity.
Qed.

(** ** LOAD *)
Theorem C54_load : forall junk p s res i c data, well_formed s -> page_ok p -> good_str res -> get_verified_resource p res = Ok i -> i_data i <> Prg ->
  file (disk s) (path_of (search_path s) (i_name i)) = Some c -> plain_file data c -> zlen data = size_of (i_data i) ->
  exists s', cmd_load junk p s res = (s', Done) /\ result s' = 1 /\ bufs s' (i_data i) = data /\ other_buffers s s' (i_data i) /\
    same_files s s' /\ prg_len s' = prg_len s /\ prgname s' = prgname s /\ package s' = package s /\ (i_data i <> Mem -> mem_len s' = mem_len s).
Proof.
  intros junk p s res i c data WF Hp G E N Ec P L. destruct (resource_info p res i Hp G E) as (F & K & T & B).
  assert (L' : length data = length (bufs s (i_data i))).
  { assert (Q := wf_size _ WF (i_data i)). unfold zlen in *. lia. }
  rewrite (cmd_load_eq junk p s res i _ _ Hp G E N (load_plain _ _ _ _ _ _ (wf_dir _ WF) F P L' Ec)).
  destruct (load_loaded p i s (zlen data) data (i_data i) Hp T B eq_refl N) as (s' & E' & B1 & B2 & B3 & B4 & B5 & B6 & B7 & B8 & B9 & B10 & _).
  exists s'. split; [exact E'|]. split. { rewrite B9, L. destruct (i_data i); reflexivity. }
  split; [exact B1|]. split; [exact B2|]. split; [exact B3|]. split; [exact B4|]. split; [exact B7|]. split; [exact B8|].
  intro M. rewrite B10. destruct (buf_eq_dec (i_data i) Mem); [contradiction|reflexivity].
Qed.
(** SAVE, any amount of work that leaves the file alone, LOAD into any resource of the kind *)
Theorem C54_roundtrip : forall junk p1 p2 s1 s1' s2 r1 r2 i1 i2, well_formed s1 -> well_formed s2 -> page_ok p1 -> page_ok p2 ->
  good_str r1 -> good_str r2 -> get_verified_resource p1 r1 = Ok i1 -> get_verified_resource p2 r2 = Ok i2 ->
  i_name i1 = i_name i2 -> same_kind (i_data i1) (i_data i2) -> i_data i1 <> Prg -> search_path s2 = search_path s1 ->
  can_write (disk s1) (path_of (search_path s1) (i_name i1)) = true ->
  cmd_save p1 s1 r1 = (s1', Done) ->
  file (disk s2) (path_of (search_path s1) (i_name i1)) = file (disk s1') (path_of (search_path s1) (i_name i1)) ->
  exists s2', cmd_load junk p2 s2 r2 = (s2', Done) /\ result s2' = 1 /\ bufs s2' (i_data i2) = bufs s1 (i_data i1) /\ other_buffers s2 s2' (i_data i2).
Proof.
  intros junk p1 p2 s1 s1' s2 r1 r2 i1 i2 W1 W2 P1 P2 G1 G2 E1 E2 Nm [Ks Kt] N Sp CW Sv Ef.
  destruct (C54_save p1 s1 r1 i1 W1 P1 G1 E1 N CW) as (x & Ex & _ & Fx & _). rewrite Sv in Ex. injection Ex as <-.
  rewrite Fx in Ef.
  assert (N2 : i_data i2 <> Prg). { intro W. rewrite W in Kt. destruct (i_data i1); try discriminate Kt. contradiction. }
  destruct (C54_load junk p2 s2 r2 i2 (type_string (i_data i1) ++ bufs s1 (i_data i1)) (bufs s1 (i_data i1)) W2 P2 G2 E2 N2) as (s' & A & B & C & D & _).
  - rewrite Sp, <- Nm. exact Ef.
  - rewrite <- (app_nil_r (bufs s1 (i_data i1))) at 2. apply internal_format; destruct (i_data i1); reflexivity.
  - rewrite (wf_size _ W1). exact Ks.
  - exists s'. auto.
Qed.
Definition ex_fs : fs := mkFs (fun _ => None) (fun _ => true).
Definition ex_st : st := mkSt ex_fs (text "programs/") (fun b => repeat (match b with Chr 5 => 7 | _ => 0 end) (Z.to_nat (size_of b))) 0 0 0 [] [] (fun _ => false) false.
Lemma ex_wf : well_formed ex_st.
Proof. constructor; cbn; try lia. intro b. unfold zlen. rewrite repeat_length. destruct b; cbn; lia. Qed.
Example C54_roundtrip_ok : exists i1 i2, get_verified_resource (mkPages 0 0 0) (SBc (text "BGD1U:A")) = Ok i1 /\
  get_verified_resource (mkPages 0 0 0) (SBc (text "SPU3:A")) = Ok i2 /\ i_name i1 = i_name i2 /\ same_kind (i_data i1) (i_data i2) /\
  i_data i1 = Chr 5 /\ bufs ex_st (i_data i1) <> bufs ex_st (i_data i2).
Proof.
  eexists. eexists. split; [reflexivity|]. split; [reflexivity|]. split; [reflexivity|]. split; [split; reflexivity|]. split; [reflexivity|].
  cbn [i_data ex_st bufs]. intro W. apply (f_equal (fun l => nth 0 l 0)) in W. vm_compute in W. discriminate W.
Qed.

(** a missing file or one of an unknown format changes no resource, and RESULT tells *)
Theorem C54_missing : forall junk p s res i, well_formed s -> page_ok p -> good_str res -> get_verified_resource p res = Ok i -> i_data i <> Prg ->
  (forall c, file (disk s) (path_of (search_path s) (i_name i)) = Some c -> ~ known_format c) ->
  exists s', cmd_load junk p s res = (s', Done) /\ result s' = 0 /\ (forall b, bufs s' b = bufs s b) /\ same_files s s' /\ prg_len s' = prg_len s.
Proof.
  intros junk p s res i WF Hp G E N U. destruct (resource_info p res i Hp G E) as (F & K & T & B).
  rewrite (cmd_load_eq junk p s res i _ _ Hp G E N (load_none _ _ _ _ (wf_dir _ WF) F U)).
  destruct (load_loaded p i s 0 (bufs s (i_data i)) (i_data i) Hp T B eq_refl N) as (s' & E' & B1 & B2 & B3 & B4 & B5 & B6 & B7 & B8 & B9 & _).
  exists s'. split; [exact E'|]. split; [exact B9|]. split; [|auto]. intro b. destruct (buf_eq_dec b (i_data i)) as [->|Nb]; [exact B1|apply B2; exact Nb].
Qed.
(** what is shown is renewed: palettes always, characters when the name gives the bank *)
Theorem C54_redraw_partial : forall junk p s s' res i, well_formed s -> page_ok p -> good_str res -> get_verified_resource p res = Ok i ->
  cmd_load junk p s res = (s', Done) -> (length (i_type i) >= 4)%nat ->
  (forall k, i_data i = Chr k -> regen_chr s' k = true) /\ (forall k, i_data i = Col k -> regen_col s' = true).
Proof.
  intros junk p s s' res i WF Hp G E R L. destruct (resource_info p res i Hp G E) as (F & K & T & B).
  destruct (buf_eq_dec (i_data i) Prg) as [W|N]. { rewrite W. split; intros k V; discriminate V. }
  destruct (check_load_file (disk s) (bufs s (i_data i)) (search_path s) (i_name i)) as [[n d]|e|] eqn:Ec.
  - rewrite (cmd_load_eq junk p s res i n d Hp G E N Ec) in R.
    destruct (load_loaded p i s n d (i_data i) Hp T B eq_refl N) as (x & E' & B1 & B2 & B3 & B4 & B5 & B6 & B7 & B8 & B9 & B10 & B11 & B12).
    rewrite R in E'. injection E' as <-. split; [|exact B11]. intros k Ek. destruct (B12 k Ek) as (j & Ej & Rj).
    rewrite Ek in B. destruct T as [T|T].
    + rewrite (C41_redraw_partial p (i_type i) k Hp T ltac:(lia) B) in Ej. injection Ej as <-. exact Rj.
    + exfalso. destruct (C41_buffer p (i_type i) Hp (or_intror T)) as (b' & Eb' & K'). rewrite B in Eb'. injection Eb' as <-. cbn [kind_ok] in K'.
      destruct T as [base rest I|bk pg]; [destruct I as [<-|[<-|[]]]; discriminate K'|discriminate K'].
  - unfold cmd_load in R. rewrite E, K, Ec in R. destruct (i_data i); try discriminate R. contradiction.
  - unfold cmd_load in R. rewrite E, K, Ec in R. destruct (i_data i); try discriminate R. contradiction.
Qed.

(** ** MEM$ *)
Lemma flat_len l : length (flat_map (fun c => [c mod 256; c / 256]) l) = (2 * length l)%nat.
Proof. induction l as [|c l IH]; [reflexivity|]. cbn [flat_map app length]. rewrite IH. lia. Qed.
Lemma flat_nth : forall l i x, (i < length l)%nat ->
  nth (2 * i) (flat_map (fun c => [c mod 256; c / 256]) l ++ x) 0 + 256 * nth (2 * i + 1) (flat_map (fun c => [c mod 256; c / 256]) l ++ x) 0 = nth i l 0.
Proof.
  induction l as [|c l IH]; intros i x Hi; [cbn in Hi; lia|]. destruct i as [|i].
  - change (2 * 0)%nat with 0%nat. cbn [flat_map app nth Nat.add]. lia.
  - replace (2 * S i)%nat with (S (S (2 * i))) by lia. replace (S (S (2 * i)) + 1)%nat with (S (S (2 * i + 1))) by lia.
    cbn [flat_map app nth]. apply IH. cbn in Hi. lia.
Qed.
Lemma le4_word n : 0 <= n < 2 ^ 32 -> forall x, u32le (le4 n ++ x) 0 = n.
Proof. intros Hn x. change (2 ^ 32) with 4294967296 in Hn. unfold u32le, le4. cbn [app nth Nat.add]. lia. Qed.
Lemma u32le_skip (a b : list Z) k : length a = k -> u32le (a ++ b) k = u32le b 0.
Proof.
  intros <-. unfold u32le. rewrite !app_nth2 by lia. rewrite !Nat.add_0_l.
  replace (length a - length a)%nat with 0%nat by lia. replace (length a + 1 - length a)%nat with 1%nat by lia.
  replace (length a + 2 - length a)%nat with 2%nat by lia. replace (length a + 3 - length a)%nat with 3%nat by lia. reflexivity.
Qed.
Lemma set_mem_buf s chars : zlen (bufs s Mem) = 516 -> (length chars <= 256)%nat ->
  bufs (set_mem s chars) Mem = (flat_map (fun c => [c mod 256; c / 256]) chars ++ skipn (2 * length chars) (firstn 512 (bufs s Mem))) ++ le4 (zlen chars).
Proof.
  intros L Lc. unfold set_mem. cbv zeta. unfold set_mem_len. cbn [bufs]. rewrite bufs_set_same. unfold le4. f_equal.
  unfold overlay. rewrite flat_len. apply firstn_all2. rewrite app_length, flat_len, skipn_length, firstn_length. unfold zlen in L. lia.
Qed.
Lemma map_nth_seq : forall (l : list Z), map (fun k => nth k l 0) (seq 0 (length l)) = l.
Proof.
  induction l as [|c l IH]; [reflexivity|]. cbn [length seq map nth]. f_equal. rewrite <- seq_shift, map_map. exact IH.
Qed.
Lemma set_mem_text s chars : zlen (bufs s Mem) = 516 -> (length chars <= 256)%nat -> forall s', bufs s' Mem = bufs (set_mem s chars) Mem ->
  mem_len s' = zlen chars -> mem_text s' = Ok chars.
Proof.
  intros L Lc s' Eb El. unfold mem_text. rewrite El. unfold zlen. destruct (Z.gtb_spec (Z.of_nat (length chars)) 256); [lia|]. f_equal.
  rewrite Eb, (set_mem_buf s chars L Lc), Nat2Z.id. rewrite <- !app_assoc.
  transitivity (map (fun k => nth k chars 0) (seq 0 (length chars))); [|apply map_nth_seq].
  apply map_ext_in. intros k Hk. apply in_seq in Hk. apply flat_nth. lia.
Qed.
(** MEM$ keeps the text assigned to it, and SAVE "MEM:..." with LOAD "MEM:..." brings it back *)
Theorem C54_mem : forall junk p1 p2 s s0 s1 s2 s2' r1 r2 i1 i2 chars, well_formed s -> well_formed s2 -> page_ok p1 -> page_ok p2 ->
  good_str r1 -> good_str r2 -> get_verified_resource p1 r1 = Ok i1 -> get_verified_resource p2 r2 = Ok i2 -> i_data i1 = Mem -> i_data i2 = Mem ->
  i_name i1 = i_name i2 -> search_path s2 = search_path s -> can_write (disk s) (path_of (search_path s) (i_name i1)) = true ->
  (length chars <= 256)%nat -> s0 = set_mem s chars -> cmd_save p1 s0 r1 = (s1, Done) ->
  file (disk s2) (path_of (search_path s) (i_name i1)) = file (disk s1) (path_of (search_path s) (i_name i1)) ->
  cmd_load junk p2 s2 r2 = (s2', Done) ->
  mem_text s0 = Ok chars /\ mem_text s1 = Ok chars /\ mem_text s2' = Ok chars.
Proof.
  intros junk p1 p2 s s0 s1 s2 s2' r1 r2 i1 i2 chars WF W2 P1 P2 G1 G2 E1 E2 M1 M2 Nm Sp CW Lc E0 Sv Ef Ld.
  assert (Lb := wf_size _ WF Mem). cbn [size_of] in Lb.
  assert (W0 : well_formed s0).
  { subst s0. constructor.
    - intro b. destruct (buf_eq_dec b Mem) as [->|Nb].
      + rewrite (set_mem_buf s chars Lb Lc). unfold zlen. rewrite !app_length, flat_len, skipn_length, firstn_length. cbn [size_of le4 length]. unfold zlen in Lb. lia.
      + unfold set_mem. cbv zeta. unfold set_mem_len. cbn [bufs]. rewrite bufs_set_other by exact Nb. apply (wf_size _ WF).
    - apply (wf_prg _ WF).
    - cbn. unfold zlen. lia.
    - apply (wf_dir _ WF). }
  assert (S0 : search_path s0 = search_path s) by (subst s0; reflexivity).
  assert (D0 : disk s0 = disk s) by (subst s0; reflexivity).
  assert (N1 : i_data i1 <> Prg) by (rewrite M1; discriminate). assert (N2 : i_data i2 <> Prg) by (rewrite M2; discriminate).
  assert (CW0 : can_write (disk s0) (path_of (search_path s0) (i_name i1)) = true) by (rewrite S0, D0; exact CW).
  destruct (C54_save p1 s0 r1 i1 W0 P1 G1 E1 N1 CW0) as (x & Ex & _ & Fx & _ & Bx & _ & Mx & _). rewrite Sv in Ex. injection Ex as <-.
  assert (ML : mem_len s0 = zlen chars) by (subst s0; reflexivity).
  split; [apply (set_mem_text s chars Lb Lc); [subst s0; reflexivity|exact ML]|].
  split; [apply (set_mem_text s chars Lb Lc); [rewrite Bx; subst s0; reflexivity|rewrite Mx; exact ML]|].
  rewrite S0, M1 in Fx. rewrite Fx in Ef.
  destruct (resource_info p2 r2 i2 P2 G2 E2) as (F2 & K2 & T2 & B2).
  assert (Q : check_load_file (disk s2) (bufs s2 (i_data i2)) (search_path s2) (i_name i2) = Ok (zlen (bufs s0 Mem), bufs s0 Mem)).
  { eapply load_plain; [apply (wf_dir _ W2)|exact F2| | |rewrite Sp, <- Nm; exact Ef].
    - rewrite <- (app_nil_r (bufs s0 Mem)) at 2. apply internal_format; reflexivity.
    - assert (A := wf_size _ W0 Mem). assert (A2 := wf_size _ W2 (i_data i2)). rewrite M2 in *. unfold zlen in *. lia. }
  rewrite (cmd_load_eq junk p2 s2 r2 i2 _ _ P2 G2 E2 N2 Q) in Ld.
  destruct (load_loaded p2 i2 s2 (zlen (bufs s0 Mem)) (bufs s0 Mem) (i_data i2) P2 T2 B2 eq_refl N2) as (y & Ey & Y1 & _ & _ & _ & _ & _ & _ & _ & _ & Y10 & _).
  rewrite Ld in Ey. injection Ey as <-. rewrite M2 in Y1, Y10.
  apply (set_mem_text s chars Lb Lc); [rewrite Y1; subst s0; reflexivity|].
  rewrite Y10. destruct (buf_eq_dec Mem Mem) as [_|W]; [|contradiction].
  rewrite E0, (set_mem_buf s chars Lb Lc), u32le_skip.
  - rewrite <- (app_nil_r (le4 _)). apply le4_word. unfold zlen. change (2 ^ 32) with 4294967296. lia.
  - rewrite app_length, flat_len, skipn_length, firstn_length. unfold zlen in Lb. lia.
Qed.
Example C54_mem_ok : exists i s1, get_verified_resource (mkPages 0 0 0) (SBc (text "MEM:NOTE")) = Ok i /\ i_data i = Mem /\
  cmd_save (mkPages 0 0 0) (set_mem ex_st [72; 12354]) (SBc (text "MEM:NOTE")) = (s1, Done).
Proof. eexists. eexists. split; [reflexivity|]. split; [reflexivity|]. reflexivity. Qed.

(** ** compressed files: right whenever C31 holds *)
Theorem C54_compressed_partial : forall junk p s res i src slack n b out, well_formed s -> page_ok p -> good_str res -> get_verified_resource p res = Ok i -> i_data i <> Prg ->
  CompressSpec.bytes src -> CompressSpec.bytes (bufs s (i_data i)) -> zlen src = size_of (i_data i) ->
  optimal_compress src 8 slack = Ok (n, Some b, out) -> n + 8 <= zlen src ->
  (b = 0 -> CompressSpec.cost b src (length src) < 8 * n) ->
  (forall k, (0 < k < length src)%nat -> n - CompressSpec.cost b src k / 8 <= Z.of_nat (length src - k)) ->
  file (disk s) (path_of (search_path s) (i_name i)) =
    Some (text "SBCC" ++ [b; zlen src mod 256; zlen src / 256 mod 256; zlen src / 65536 mod 256] ++ firstn (Z.to_nat n) out) ->
  exists s', cmd_load junk p s res = (s', Done) /\ result s' = 1 /\ bufs s' (i_data i) = src /\ other_buffers s s' (i_data i).
Proof.
  intros junk p s res i src slack n b out WF Hp G E N Bs Bd L O Ln C0 Sf Ef. destruct (resource_info p res i Hp G E) as (F & K & T & B).
  assert (Ld := wf_size _ WF (i_data i)).
  assert (Sz : 512 <= zlen src <= 524288) by (rewrite L; destruct (i_data i); cbn; lia).
  assert (Hb : 0 <= b <= 7 /\ 0 <= n).
  { assert (Q := O). apply CompressProofs.optimal_lossless in Q; [|exact Bs]. destruct Q as (_ & Hb & Hn & _). lia. }
  set (header := text "SBCC" ++ [b; zlen src mod 256; zlen src / 256 mod 256; zlen src / 65536 mod 256]).
  assert (Lh : length header = 8%nat) by reflexivity.
  assert (Bh : CompressSpec.bytes header).
  { unfold header. cbn. unfold CompressSpec.bytes. repeat constructor; unfold CompressSpec.byte; try lia. }
  assert (Q : load_compressed (bufs s (i_data i)) (header ++ firstn (Z.to_nat n) out) b = Ok src).
  { eapply CompressProofs.optimal_in_place; try eassumption; unfold zlen in *; lia. }
  assert (Q' : check_load_file (disk s) (bufs s (i_data i)) (search_path s) (i_name i) = Ok (zlen (header ++ firstn (Z.to_nat n) out), src)).
  { unfold check_load_file. rewrite (create_ok _ _ (wf_dir _ WF) F), Ef. rewrite app_assoc. fold header. unfold is4. rewrite firstn4 by (rewrite Lh; lia).
    change (firstn 4 header) with (text "SBCC"). change (path_eqb (text "SBCC") (zs "PX01")) with false.
    change (path_eqb (text "SBCC") (zs "PETC")) with false. change (path_eqb (text "SBCC") (zs "SBCC")) with true. cbv iota.
    destruct (Z.ltb_spec (zlen (header ++ firstn (Z.to_nat n) out)) 8) as [V|V]; [unfold zlen in V; rewrite app_length, Lh in V; lia|].
    rewrite !app_nth1 by (rewrite Lh; lia). change (nth 4 header 0) with b. change (nth 5 header 0) with (zlen src mod 256).
    change (nth 6 header 0) with (zlen src / 256 mod 256). change (nth 7 header 0) with (zlen src / 65536 mod 256).
    destruct (Z.eqb_spec (zlen src mod 256 + 256 * (zlen src / 256 mod 256) + 65536 * (zlen src / 65536 mod 256)) (zlen (bufs s (i_data i)))) as [_|V2]; [|rewrite Ld, <- L in V2; lia].
    cbn [negb]. rewrite Q. reflexivity. }
  rewrite (cmd_load_eq junk p s res i _ _ Hp G E N Q').
  destruct (load_loaded p i s (zlen (header ++ firstn (Z.to_nat n) out)) src (i_data i) Hp T B eq_refl N) as (s' & E' & B1 & B2 & _ & _ & _ & _ & _ & _ & B9 & _).
  exists s'. split; [exact E'|]. split; [|auto]. rewrite B9.
  destruct (Z.eqb_spec (zlen (header ++ firstn (Z.to_nat n) out)) 0) as [V|V]; [unfold zlen in V; rewrite app_length, Lh in V; lia|reflexivity].
Qed.

(** ** What goes wrong *)
Definition with_file (path c : list Z) : st := set_disk ex_st (write_file ex_fs path c).
(** a file cut short is loaded in part, and RESULT says success *)
Theorem C54_truncated_refuted : forall data, (1 <= length data < 512)%nat -> exists i s',
  get_verified_resource (mkPages 0 0 0) (SBc (text "COL0U:A")) = Ok i /\
  cmd_load [] (mkPages 0 0 0) (with_file (text "programs/A.PTC") (text "PETC0100RCOL" ++ data)) (SBc (text "COL0U:A")) = (s', Done) /\
  result s' = 1 /\ bufs s' (i_data i) = data ++ repeat 0 (512 - length data).
Proof.
  intros data L. set (s0 := with_file (text "programs/A.PTC") (text "PETC0100RCOL" ++ data)).
  set (i := mkInfo (text "COL0U") (text "A") TYPE_COL (Col 0)). exists i.
  exists (fst (loaded (mkPages 0 0 0) i s0 (zlen data) (data ++ repeat 0 (512 - length data)))). split; [reflexivity|].
  assert (Q : check_load_file (disk (with_file (text "programs/A.PTC") (text "PETC0100RCOL" ++ data))) (bufs (with_file (text "programs/A.PTC") (text "PETC0100RCOL" ++ data)) (Col 0)) (text "programs/") (text "A")
     = Ok (zlen data, data ++ repeat 0 (512 - length data))).
  { change (bufs (with_file (text "programs/A.PTC") (text "PETC0100RCOL" ++ data)) (Col 0)) with (repeat 0 512).
    unfold check_load_file. change (create_path (text "programs/") (text "A") PTC) with (Some (text "programs/A.PTC")). cbn [with_file set_disk disk write_file file].
    rewrite path_eqb_refl. unfold is4. rewrite firstn4 by (cbn; lia).
    change (path_eqb (firstn 4 (text "PETC0100RCOL")) (zs "PX01")) with false. change (path_eqb (firstn 4 (text "PETC0100RCOL")) (zs "PETC")) with true. cbv iota zeta.
    rewrite (skip_app (text "PETC0100RCOL") data 12 eq_refl). rewrite repeat_length.
    rewrite firstn_all2 by lia. unfold overlay. do 3 f_equal.
    replace 512%nat with (length data + (512 - length data))%nat at 1 by lia. rewrite repeat_app. apply skip_app. apply repeat_length. }
  split; [|split].
  - rewrite (cmd_load_eq [] (mkPages 0 0 0) s0 (SBc (text "COL0U:A")) i (zlen data) (data ++ repeat 0 (512 - length data))); try reflexivity.
    + unfold page_ok; cbn; auto.
    + cbn. repeat constructor; lia.
    + discriminate.
    + exact Q.
  - cbn. destruct (Z.eqb_spec (zlen data) 0) as [V|V]; [unfold zlen in V; lia|reflexivity].
  - reflexivity.
Qed.
(** the kind of a file is not looked at: a palette file loads as characters *)
Theorem C54_kind_refuted : exists s' c, file (disk (with_file (text "programs/A.PTC") c)) (text "programs/A.PTC") = Some c /\
  firstn 12 c = type_string (Col 0) /\
  cmd_load [] (mkPages 0 0 0) (with_file (text "programs/A.PTC") c) (SBc (text "SPU0:A")) = (s', Done) /\ result s' = 1 /\ bufs s' (Chr 12) <> bufs ex_st (Chr 12).
Proof.
  exists (fst (cmd_load [] (mkPages 0 0 0) (with_file (text "programs/A.PTC") (text "PETC0100RCOL" ++ [1; 2; 3])) (SBc (text "SPU0:A")))).
  exists (text "PETC0100RCOL" ++ [1; 2; 3]). split; [reflexivity|]. split; [reflexivity|]. split; [vm_compute; reflexivity|]. split; [vm_compute; reflexivity|].
  intro W. apply (f_equal (fun l => nth 0 l 0)) in W. vm_compute in W. discriminate W.
Qed.
(** the length stored in a MEM file is believed: MEM$ then reads beyond its 256 characters *)
Theorem C54_mem_size_refuted : exists s' c, length c = 528%nat /\
  cmd_load [] (mkPages 0 0 0) (with_file (text "programs/A.PTC") c) (SBc (text "MEM:A")) = (s', Done) /\ result s' = 1 /\ mem_text s' = UB.
Proof.
  exists (fst (cmd_load [] (mkPages 0 0 0) (with_file (text "programs/A.PTC") (text "PETC0200RMEM" ++ repeat 0 512 ++ [0; 2; 0; 0])) (SBc (text "MEM:A")))).
  exists (text "PETC0200RMEM" ++ repeat 0 512 ++ [0; 2; 0; 0]). split; [reflexivity|]. split; [vm_compute; reflexivity|]. split; vm_compute; reflexivity.
Qed.
(** a compressed file that is larger than the resource is written in front of it *)
Theorem C54_compressed_refuted : exists c, cmd_load [] (mkPages 0 0 0) (with_file (text "programs/A.PTC") c) (SBc (text "COL0U:A")) = (with_file (text "programs/A.PTC") c, Crash).
Proof. exists (text "SBCC" ++ [0; 0; 2; 0] ++ repeat 0 600). vm_compute. reflexivity. Qed.
(** SAVE of a program takes the first characters of the text for the length and an address *)
Theorem C54_save_program_refuted : forall p s res i, well_formed s -> page_ok p -> good_str res -> get_verified_resource p res = Ok i -> i_data i = Prg ->
  can_write (disk s) (path_of (search_path s) (i_name i)) = true -> Forall (fun c => 0 < c < 256) (program s) -> 4 <= prg_len s ->
  cmd_save p s res = (s, Crash).
Proof.
  intros p s res i WF Hp G E D CW B L. destruct (resource_info p res i Hp G E) as (F & K & _ & _).
  unfold cmd_save. rewrite E. unfold check_save_res. rewrite (create_ok _ _ (wf_dir _ WF) F), CW, K, D. cbn [negb kind_of].
  assert (X : forall k, (k < 4)%nat -> 0 < nth k (bufs s Prg) 0 < 256).
  { intros k Hk. unfold program in B. rewrite Forall_nth in B.
    assert (Q := wf_size _ WF Prg). cbn [size_of] in Q. unfold zlen in Q. assert (R := wf_prg _ WF).
    specialize (B k 0). rewrite firstn_length in B. rewrite <- (firstn_skipn (Z.to_nat (prg_len s)) (bufs s Prg)).
    rewrite app_nth1 by (rewrite firstn_length; lia). apply B. lia. }
  assert (A0 := X 0%nat ltac:(lia)). assert (A1 := X 1%nat ltac:(lia)). assert (A2 := X 2%nat ltac:(lia)). assert (A3 := X 3%nat ltac:(lia)).
  unfold u32le. cbn [Nat.add]. destruct (Z.eqb_spec (nth 0 (bufs s Prg) 0 + 256 * (nth 1 (bufs s Prg) 0 + 256 * (nth 2 (bufs s Prg) 0 + 256 * nth 3 (bufs s Prg) 0))) 0) as [V|V]; [lia|reflexivity].
Qed.
Print Assumptions C54_save.
Print Assumptions C54_roundtrip.
Print Assumptions C54_mem.
Print Assumptions C54_compressed_partial.

(** ** C55: LOAD of a program *)
Lemma skip_skip : forall a b (l : list Z), skipn a (skipn b l) = skipn (b + a) l.
Proof. intros a b. induction b as [|b IH]; intro l; [reflexivity|]. destruct l as [|c l]; [rewrite !skipn_nil; reflexivity|]. apply IH. Qed.
Lemma until_cstr l : until_nul l (cstr l).
Proof. induction l as [|c l IH]; cbn; [constructor|]. destruct (Z.eqb_spec c 0) as [->|N]; constructor; assumption. Qed.
Lemma header_words (H : list Z) high low n rest : length H = 48%nat -> 0 <= high < 2 ^ 32 -> 0 <= low < 2 ^ 32 -> 0 <= n < 2 ^ 32 ->
  firstn 60 (H ++ le4 high ++ le4 low ++ le4 n ++ rest) = H ++ le4 high ++ le4 low ++ le4 n /\
  skipn 60 (H ++ le4 high ++ le4 low ++ le4 n ++ rest) = rest /\
  u32le (H ++ le4 high ++ le4 low ++ le4 n) 48 = high /\ u32le (H ++ le4 high ++ le4 low ++ le4 n) 52 = low /\ u32le (H ++ le4 high ++ le4 low ++ le4 n) 56 = n.
Proof.
  intros L Hh Hl Hn.
  assert (A : H ++ le4 high ++ le4 low ++ le4 n ++ rest = (H ++ le4 high ++ le4 low ++ le4 n) ++ rest) by (rewrite <- !app_assoc; reflexivity).
  assert (L60 : length (H ++ le4 high ++ le4 low ++ le4 n) = 60%nat) by (rewrite !app_length, L; reflexivity).
  split; [rewrite A; apply first_app; exact L60|]. split; [rewrite A; apply skip_app; exact L60|].
  split; [rewrite (u32le_skip H _ 48 L); apply le4_word; exact Hh|].
  split. { rewrite (app_assoc H). rewrite (u32le_skip (H ++ le4 high) _ 52); [apply le4_word; exact Hl|rewrite app_length, L; reflexivity]. }
  rewrite (app_assoc H), (app_assoc (H ++ le4 high)). rewrite (u32le_skip ((H ++ le4 high) ++ le4 low) _ 56); [|rewrite !app_length, L; reflexivity].
  rewrite <- (app_nil_r (le4 n)). apply le4_word. exact Hn.
Qed.
Lemma load_prg_eq junk p s res i : page_ok p -> good_str res -> get_verified_resource p res = Ok i -> i_data i = Prg ->
  cmd_load junk p s res = match load_program junk p s (search_path s) (i_name i) with
    Ok (n, s1) => (set_result s1 (b2z (negb (n =? 0))), Done) | Err e => (s, Raised e) | UB => (s, Crash) end.
Proof.
  intros Hp G E D. destruct (resource_info p res i Hp G E) as (F & K & _). unfold cmd_load. rewrite E, K, D. cbn [kind_of].
  destruct (load_program junk p s (search_path s) (i_name i)) as [[n s1]|e|]; reflexivity.
Qed.
Lemma zlen_le (l : list Z) : zlen l <= 524288 -> 0 <= zlen l < 2 ^ 32.
Proof. unfold zlen. change (2 ^ 32) with 4294967296. lia. Qed.
(** a file in the SD card format *)
Theorem C55_load_sd : forall junk p s res i h1 name md5 ty high low prg contents tail,
  well_formed s -> page_ok p -> good_str res -> get_verified_resource p res = Ok i -> i_data i = Prg ->
  length h1 = 8%nat -> length name = 8%nat -> length md5 = 16%nat -> length ty = 12%nat -> zlen prg <= 524288 -> packed_ok contents -> word_for high low contents ->
  file (disk s) (path_of (search_path s) (i_name i)) = Some (sd_program h1 name md5 ty (program_body high low prg (packs contents ++ tail))) ->
  exists s', cmd_load junk p s res = (s', Done) /\ program_loaded s s' high low prg contents /\ until_nul name (prgname s') /\
    package s' = package_text (high * 2 ^ 32 + low).
Proof.
  intros junk p s res i h1 name md5 ty high low prg contents tail WF Hp G E D L1 L2 L3 L4 Lp Pk Wd Ef.
  destruct (resource_info p res i Hp G E) as (F & K & _). rewrite (load_prg_eq junk p s res i Hp G E D).
  unfold load_program. rewrite (create_ok _ _ (wf_dir _ WF) F), Ef. unfold sd_program, program_body. cbv zeta.
  change (firstn 4 (text "PX01" ++ h1 ++ name ++ md5 ++ ty ++ le4 high ++ le4 low ++ le4 (zlen prg) ++ prg ++ padding (length prg) ++ packs contents ++ tail)) with (text "PX01").
  change (firstn 4 (overlay (text "PX01") junk)) with (text "PX01"). change (path_eqb (text "PX01") (zs "PX01")) with true. cbv iota.
  set (H := text "PX01" ++ h1 ++ name ++ md5 ++ ty).
  assert (LH : length H = 48%nat) by (unfold H; rewrite !app_length, L1, L2, L3, L4; reflexivity).
  assert (A : text "PX01" ++ h1 ++ name ++ md5 ++ ty ++ le4 high ++ le4 low ++ le4 (zlen prg) ++ prg ++ padding (length prg) ++ packs contents ++ tail
     = H ++ le4 high ++ le4 low ++ le4 (zlen prg) ++ (prg ++ padding (length prg) ++ packs contents ++ tail)) by (unfold H; rewrite <- !app_assoc; reflexivity).
  rewrite A. destruct Wd as (Hh & Hl & Wd).
  destruct (header_words H high low (zlen prg) (prg ++ padding (length prg) ++ packs contents ++ tail) LH Hh Hl (zlen_le _ Lp)) as (w1 & w2 & w3 & w4 & w5).
  rewrite w1, w2. destruct (Z.ltb_spec (zlen (H ++ le4 high ++ le4 low ++ le4 (zlen prg) ++ prg ++ padding (length prg) ++ packs contents ++ tail)) 60) as [V|V].
  { unfold zlen in V. rewrite !app_length, LH in V. cbn [le4 length] in V. lia. }
  destruct (load_body_ok p s _ high low prg contents tail Hp WF Pk (conj Hh (conj Hl Wd)) Lp w3 w4 w5) as (s' & Es & b1 & b2 & b3 & b4 & b5 & b6 & b7 & b8 & b9 & b10).
  rewrite Es. eexists. split; [reflexivity|]. split; [|split].
  - constructor; cbn; auto.
    + destruct (Z.eqb_spec (zlen prg) 0); reflexivity.
    + intro q. cbn. rewrite b8. reflexivity.
  - cbn [set_result prgname]. rewrite b3.
    assert (X : firstn 8 (skipn 12 (H ++ le4 high ++ le4 low ++ le4 (zlen prg))) = name).
    { unfold H. rewrite <- !app_assoc. rewrite (app_assoc (text "PX01") h1). rewrite (skip_app (text "PX01" ++ h1) _ 12); [|rewrite app_length, L1; reflexivity].
      apply first_app. exact L2. }
    rewrite X. apply until_cstr.
  - exact b4.
Qed.
Lemma load_internal : forall junk p s res i ty high low prg contents tail,
  well_formed s -> page_ok p -> good_str res -> get_verified_resource p res = Ok i -> i_data i = Prg -> length junk = 60%nat -> length ty = 12%nat -> firstn 4 ty = text "PETC" ->
  zlen prg <= 524288 -> packed_ok contents -> word_for high low contents ->
  file (disk s) (path_of (search_path s) (i_name i)) = Some (ty ++ (program_body high low prg (packs contents ++ tail))) ->
  exists s', cmd_load junk p s res = (s', Done) /\ program_loaded s s' high low prg contents /\
    until_nul (firstn 8 (skipn 12 junk)) (prgname s') /\ package s' = package_text (high * 2 ^ 32 + low).
Proof.
  intros junk p s res i ty high low prg contents tail WF Hp G E D Lj Lt Mt Lp Pk Wd Ef.
  destruct (resource_info p res i Hp G E) as (F & K & _). rewrite (load_prg_eq junk p s res i Hp G E D).
  unfold load_program. rewrite (create_ok _ _ (wf_dir _ WF) F), Ef. unfold program_body. cbv zeta.
  set (body := le4 high ++ le4 low ++ le4 (zlen prg) ++ prg ++ padding (length prg) ++ packs contents ++ tail).
  rewrite (firstn4 ty body) by lia. rewrite Mt.
  change (firstn 4 (overlay (text "PETC") junk)) with (text "PETC"). change (path_eqb (text "PETC") (zs "PX01")) with false.
  change (path_eqb (text "PETC") (zs "PETC")) with true. cbv iota.
  set (J := overlay (text "PETC") (firstn 36 junk)).
  assert (LJ : length J = 36%nat) by (unfold J, overlay; rewrite app_length, skipn_length, firstn_length, Lj; reflexivity).
  destruct Wd as (Hh & Hl & Wd).
  assert (A : ty ++ body = (ty ++ le4 high ++ le4 low ++ le4 (zlen prg)) ++ (prg ++ padding (length prg) ++ packs contents ++ tail)) by (unfold body; rewrite <- !app_assoc; reflexivity).
  assert (L24 : length (ty ++ le4 high ++ le4 low ++ le4 (zlen prg)) = 24%nat) by (rewrite !app_length, Lt; reflexivity).
  rewrite A, (first_app _ (prg ++ padding (length prg) ++ packs contents ++ tail) 24 L24), (skip_app _ (prg ++ padding (length prg) ++ packs contents ++ tail) 24 L24). clear L24.
  assert (LH : length (J ++ ty) = 48%nat) by (rewrite app_length, LJ, Lt; reflexivity).
  destruct (header_words (J ++ ty) high low (zlen prg) [] LH Hh Hl (zlen_le _ Lp)) as (_ & _ & w3 & w4 & w5). rewrite <- app_assoc in w3, w4, w5.
  match goal with |- context [zlen ?x <? 24] => destruct (Z.ltb_spec (zlen x) 24) as [V|V] end.
  { unfold zlen in V. rewrite !app_length in V. rewrite Lt in V. cbn [le4 length] in V. lia. }
  destruct (load_body_ok p s _ high low prg contents tail Hp WF Pk (conj Hh (conj Hl Wd)) Lp w3 w4 w5) as (s' & Es & b1 & b2 & b3 & b4 & b5 & b6 & b7 & b8 & b9 & b10).
  rewrite Es. eexists. split; [reflexivity|]. split; [|split].
  - constructor; cbn; auto.
    + destruct (Z.eqb_spec (zlen prg) 0); reflexivity.
    + intro q. cbn. rewrite b8. reflexivity.
  - cbn [set_result prgname]. rewrite b3.
    assert (X : firstn 8 (skipn 12 (J ++ ty ++ le4 high ++ le4 low ++ le4 (zlen prg))) = firstn 8 (skipn 12 junk)).
    { assert (Q : skipn 12 J = firstn 24 (skipn 12 junk)).
      { unfold J, overlay. change (length (text "PETC")) with 4%nat. rewrite skipn_app. change (skipn 12 (text "PETC")) with (@nil Z).
        change (12 - length (text "PETC"))%nat with 8%nat. cbn [app]. rewrite skip_skip, skipn_firstn_comm. reflexivity. }
      rewrite skipn_app, Q, firstn_app, firstn_firstn. rewrite firstn_length, skipn_length, Lj. change (8 - Nat.min 24 (60 - 12))%nat with 0%nat.
      cbn [firstn]. rewrite app_nil_r. reflexivity. }
    rewrite X. apply until_cstr.
  - exact b4.
Qed.
(** the internal format *)
Theorem C55_load_internal_partial : forall junk p s res i high low prg contents tail,
  well_formed s -> page_ok p -> good_str res -> get_verified_resource p res = Ok i -> i_data i = Prg -> length junk = 60%nat ->
  zlen prg <= 524288 -> packed_ok contents -> word_for high low contents ->
  file (disk s) (path_of (search_path s) (i_name i)) = Some (internal_program (program_body high low prg (packs contents ++ tail))) ->
  exists s', cmd_load junk p s res = (s', Done) /\ program_loaded s s' high low prg contents /\
    until_nul (firstn 8 (skipn 12 junk)) (prgname s') /\ package s' = package_text (high * 2 ^ 32 + low).
Proof.
  intros junk p s res i high low prg contents tail WF Hp G E D Lj Lp Pk Wd Ef.
  eapply load_internal; try eassumption; reflexivity.
Qed.
(** LOAD does not look at the kind of file: the data of any other resource is taken for a program *)
Theorem C55_kind_refuted : forall junk p s res i b prg, well_formed s -> page_ok p -> good_str res -> get_verified_resource p res = Ok i -> i_data i = Prg -> length junk = 60%nat ->
  0 < zlen prg <= 524288 -> file (disk s) (path_of (search_path s) (i_name i)) = Some (type_string b ++ program_body 0 0 prg []) ->
  exists s', cmd_load junk p s res = (s', Done) /\ program s' = prg /\ result s' = 1.
Proof.
  intros junk p s res i b prg WF Hp G E D Lj Lp Ef.
  destruct (load_internal junk p s res i (type_string b) 0 0 prg (fun _ => None) [] WF Hp G E D Lj (type_len b)) as (s' & A & [b1 b2 b3 b4 b5 b6] & _).
  - destruct b; reflexivity.
  - lia.
  - intros k d _ W. discriminate W.
  - split; [change (2 ^ 32) with 4294967296; lia|]. split; [change (2 ^ 32) with 4294967296; lia|]. intros k _. apply Z.bits_0.
  - exact Ef.
  - exists s'. split; [exact A|]. split; [exact b1|]. rewrite b2. destruct (Z.eqb_spec (zlen prg) 0); [lia|reflexivity].
Qed.
Definition ex_prg : list Z := text "PRINT 1".
Definition ex_pack (i : nat) : option (list Z) := if (i =? 13)%nat then Some (repeat 9 512) else None.
Example C55_load_ok : packed_ok ex_pack /\ word_for 0 8192 ex_pack /\ package_buf 13 = Col 0 /\
  exists s', cmd_load [] (mkPages 0 0 0) (with_file (text "programs/GAME.PTC")
    (sd_program (repeat 0 8) (text "GAME" ++ [0; 0; 0; 0]) (repeat 0 16) (text "PETC0300RPRG") (program_body 0 8192 ex_prg (packs ex_pack ++ [])))) (SBc (text "GAME")) = (s', Done) /\
    program s' = ex_prg /\ result s' = 1 /\ bufs s' (Col 0) = repeat 9 512.
Proof.
  assert (P1 : packed_ok ex_pack). {
    intros i d Hi. unfold ex_pack. destruct (Nat.eqb_spec i 13) as [->|]; [intros [= <-]; reflexivity|discriminate]. }
  assert (P2 : word_for 0 8192 ex_pack). {
    split; [change (2 ^ 32) with 4294967296; lia|]. split; [change (2 ^ 32) with 4294967296; lia|]. intros i Hi.
    assert (K : forallb (fun i => Bool.eqb (Z.testbit (0 * 2 ^ 32 + 8192) (Z.of_nat i)) (match ex_pack i with Some _ => true | None => false end)) (seq 0 45) = true) by (vm_compute; reflexivity).
    rewrite forallb_forall in K. apply Bool.eqb_prop. apply (K i). apply in_seq. lia. }
  split; [exact P1|]. split; [exact P2|]. split; [reflexivity|].
  destruct (C55_load_sd [] (mkPages 0 0 0) (with_file (text "programs/GAME.PTC") (sd_program (repeat 0 8) (text "GAME" ++ [0; 0; 0; 0]) (repeat 0 16) (text "PETC0300RPRG") (program_body 0 8192 ex_prg (packs ex_pack ++ []))))
    (SBc (text "GAME")) (mkInfo (text "PRG") (text "GAME") TYPE_PRG Prg) (repeat 0 8) (text "GAME" ++ [0; 0; 0; 0]) (repeat 0 16) (text "PETC0300RPRG") 0 8192 ex_prg ex_pack []) as (s' & A & [b1 b2 b3 b4 b5 b6] & _); try reflexivity; try assumption.
  - destruct ex_wf as [c1 c2 c3 c4]. constructor; assumption.
  - unfold page_ok; cbn; auto.
  - cbn. repeat constructor; lia.
  - discriminate.
  - exists s'. split; [exact A|]. split; [exact b1|]. split; [exact b2|]. apply (b3 13%nat); [lia|reflexivity].
Qed.
(** missing, or neither format: nothing changes but RESULT *)
Theorem C55_missing : forall junk p s res i, well_formed s -> page_ok p -> good_str res -> get_verified_resource p res = Ok i -> i_data i = Prg ->
  (forall c, file (disk s) (path_of (search_path s) (i_name i)) = Some c -> (4 <= length c)%nat /\ ~ In (firstn 4 c) [text "PX01"; text "PETC"]) ->
  cmd_load junk p s res = (set_result s 0, Done).
Proof.
  intros junk p s res i WF Hp G E D U. destruct (resource_info p res i Hp G E) as (F & K & _). rewrite (load_prg_eq junk p s res i Hp G E D).
  unfold load_program. rewrite (create_ok _ _ (wf_dir _ WF) F). destruct (file (disk s) (path_of (search_path s) (i_name i))) as [c|]; [|reflexivity].
  destruct (U c eq_refl) as [L N]. cbv zeta.
  assert (X : firstn 4 (overlay (firstn 4 c) junk) = firstn 4 c).
  { unfold overlay. apply first_app. rewrite firstn_length. lia. }
  rewrite X. cbn [In] in N. rewrite !path_eqb_neq; [reflexivity| |]; intro W; apply N; rewrite W; cbn; auto.
Qed.
(** the internal format holds no name: PRGNAME$ becomes whatever was on the stack *)
Theorem C55_name_refuted : forall p s res i prg name, well_formed s -> page_ok p -> good_str res -> get_verified_resource p res = Ok i -> i_data i = Prg ->
  zlen prg <= 524288 -> length name = 8%nat -> ~ In 0 name ->
  file (disk s) (path_of (search_path s) (i_name i)) = Some (internal_program (program_body 0 0 prg [])) ->
  exists junk s', cmd_load junk p s res = (s', Done) /\ prgname s' = name.
Proof.
  intros p s res i prg name WF Hp G E D Lp Ln Nz Ef. exists (repeat 0 12 ++ name ++ repeat 0 40).
  destruct (C55_load_internal_partial (repeat 0 12 ++ name ++ repeat 0 40) p s res i 0 0 prg (fun _ => None) [] WF Hp G E D) as (s' & A & _ & U & _).
  - rewrite !app_length, Ln. reflexivity.
  - exact Lp.
  - intros k d _ W. discriminate W.
  - split; [change (2 ^ 32) with 4294967296; lia|]. split; [change (2 ^ 32) with 4294967296; lia|]. intros k _. apply Z.bits_0.
  - exact Ef.
  - exists s'. split; [exact A|]. rewrite (skip_app (repeat 0 12) _ 12 eq_refl), (first_app name _ 8 Ln) in U.
    clear - U Nz. remember (prgname s') as r eqn:Er. clear Er. induction U as [|r|c r n N U IH]; [reflexivity| |].
    + exfalso. apply Nz. left. reflexivity.
    + f_equal. apply IH. intro W. apply Nz. right. exact W.
Qed.
(** a file that ends early: RESULT is 0, but the text of the old program is overwritten *)
Lemma short_load : forall p s h d size, well_formed s -> u32le h 56 = size -> zlen d < size -> size <= 524288 ->
  load_body p s h d = Ok (0, set_buf s Prg (overlay d (bufs s Prg))).
Proof.
  intros p s h d size WF Es Ld Ls. unfold load_body. rewrite Es. cbv zeta. rewrite firstn_all2 by (unfold zlen in Ld; lia).
  unfold MAX_SOURCE_SIZE. destruct (Z.gtb_spec (zlen d) 524288); [lia|].
  assert (Ss : s32 size = size). { unfold s32. change (2 ^ 31) with 2147483648. change (2 ^ 32) with 4294967296. unfold zlen in *. lia. }
  rewrite Ss. destruct (Z.ltb_spec (zlen d) size); [reflexivity|lia].
Qed.
Theorem C55_short_refuted : forall junk p s res i d missing, well_formed s -> page_ok p -> good_str res -> get_verified_resource p res = Ok i -> i_data i = Prg ->
  length junk = 60%nat -> zlen d <= prg_len s -> 0 < missing -> zlen d + missing <= 524288 ->
  file (disk s) (path_of (search_path s) (i_name i)) = Some (internal_program (le4 0 ++ le4 0 ++ le4 (zlen d + missing) ++ d)) ->
  exists s', cmd_load junk p s res = (s', Done) /\ result s' = 0 /\ program s' = d ++ skipn (length d) (program s).
Proof.
  intros junk p s res i d missing WF Hp G E D Lj Ld Hm Ls Ef. destruct (resource_info p res i Hp G E) as (F & K & _). rewrite (load_prg_eq junk p s res i Hp G E D).
  unfold load_program. rewrite (create_ok _ _ (wf_dir _ WF) F), Ef. unfold internal_program. cbv zeta.
  set (body := le4 0 ++ le4 0 ++ le4 (zlen d + missing) ++ d).
  change (firstn 4 (text "PETC0300RPRG" ++ body)) with (text "PETC").
  change (firstn 4 (overlay (text "PETC") junk)) with (text "PETC"). change (path_eqb (text "PETC") (zs "PX01")) with false.
  change (path_eqb (text "PETC") (zs "PETC")) with true. cbv iota.
  set (J := overlay (text "PETC") (firstn 36 junk)).
  assert (LJ : length J = 36%nat) by (unfold J, overlay; rewrite app_length, skipn_length, firstn_length, Lj; reflexivity).
  assert (A : text "PETC0300RPRG" ++ body = (text "PETC0300RPRG" ++ le4 0 ++ le4 0 ++ le4 (zlen d + missing)) ++ d) by (unfold body; rewrite <- !app_assoc; reflexivity).
  assert (L24 : length (text "PETC0300RPRG" ++ le4 0 ++ le4 0 ++ le4 (zlen d + missing)) = 24%nat) by reflexivity.
  rewrite A, (first_app _ d 24 L24), (skip_app _ d 24 L24).
  assert (LH : length (J ++ text "PETC0300RPRG") = 48%nat) by (rewrite app_length, LJ; reflexivity).
  assert (R : 0 <= zlen d + missing < 2 ^ 32) by (change (2 ^ 32) with 4294967296; unfold zlen; unfold zlen in Ls; lia).
  destruct (header_words (J ++ text "PETC0300RPRG") 0 0 (zlen d + missing) [] LH ltac:(change (2 ^ 32) with 4294967296; lia) ltac:(change (2 ^ 32) with 4294967296; lia) R) as (_ & _ & _ & _ & w5). rewrite <- app_assoc in w5.
  match goal with |- context [zlen ?x <? 24] => destruct (Z.ltb_spec (zlen x) 24) as [V|V] end.
  { unfold zlen in V. rewrite !app_length in V. change (length (text "PETC0300RPRG")) with 12%nat in V. cbn [le4 length] in V. lia. }
  rewrite (short_load p s _ d (zlen d + missing) WF w5 ltac:(lia) Ls).
  eexists. split; [reflexivity|]. split; [reflexivity|]. unfold program. cbn [prg_len set_result set_buf bufs]. destruct (buf_eq_dec Prg Prg) as [_|W]; [|contradiction].
  unfold overlay. rewrite firstn_app. unfold zlen in Ld. rewrite (firstn_all2 d) by lia. f_equal. symmetry. apply skipn_firstn_comm.
Qed.
(** a program longer than the buffer is written behind it *)
Theorem C55_overflow_refuted : forall junk p s res i prg, well_formed s -> page_ok p -> good_str res -> get_verified_resource p res = Ok i -> i_data i = Prg ->
  524288 < zlen prg < 2 ^ 32 -> length junk = 60%nat ->
  file (disk s) (path_of (search_path s) (i_name i)) = Some (internal_program (program_body 0 0 prg [])) ->
  cmd_load junk p s res = (s, Crash).
Proof.
  intros junk p s res i d WF Hp G E D Ls Lj Ef. destruct (resource_info p res i Hp G E) as (F & K & _). rewrite (load_prg_eq junk p s res i Hp G E D).
  unfold load_program. rewrite (create_ok _ _ (wf_dir _ WF) F), Ef. unfold internal_program, program_body. cbv zeta.
  set (body := le4 0 ++ le4 0 ++ le4 (zlen d) ++ d ++ padding (length d) ++ []).
  change (firstn 4 (text "PETC0300RPRG" ++ body)) with (text "PETC").
  change (firstn 4 (overlay (text "PETC") junk)) with (text "PETC"). change (path_eqb (text "PETC") (zs "PX01")) with false.
  change (path_eqb (text "PETC") (zs "PETC")) with true. cbv iota.
  set (J := overlay (text "PETC") (firstn 36 junk)).
  assert (LJ : length J = 36%nat) by (unfold J, overlay; rewrite app_length, skipn_length, firstn_length, Lj; reflexivity).
  assert (A : text "PETC0300RPRG" ++ body = (text "PETC0300RPRG" ++ le4 0 ++ le4 0 ++ le4 (zlen d)) ++ (d ++ padding (length d) ++ [])) by (unfold body; rewrite <- !app_assoc; reflexivity).
  assert (L24 : length (text "PETC0300RPRG" ++ le4 0 ++ le4 0 ++ le4 (zlen d)) = 24%nat) by reflexivity.
  rewrite A, (first_app _ (d ++ padding (length d) ++ []) 24 L24), (skip_app _ (d ++ padding (length d) ++ []) 24 L24).
  assert (LH : length (J ++ text "PETC0300RPRG") = 48%nat) by (rewrite app_length, LJ; reflexivity).
  destruct (header_words (J ++ text "PETC0300RPRG") 0 0 (zlen d) [] LH ltac:(change (2 ^ 32) with 4294967296; lia) ltac:(change (2 ^ 32) with 4294967296; lia) ltac:(unfold zlen in *; lia)) as (_ & _ & _ & _ & w5). rewrite <- app_assoc in w5.
  match goal with |- context [zlen ?x <? 24] => destruct (Z.ltb_spec (zlen x) 24) as [V|V] end.
  { unfold zlen in V. rewrite !app_length in V. change (length (text "PETC0300RPRG")) with 12%nat in V. cbn [le4 length] in V. lia. }
  unfold load_body. rewrite w5. cbv zeta. rewrite (first_app d _ (Z.to_nat (zlen d))) by (unfold zlen; lia).
  unfold MAX_SOURCE_SIZE. destruct (Z.gtb_spec (zlen d) 524288); [reflexivity|lia].
Qed.
(** an empty program loads, but RESULT says failure *)
Theorem C55_empty_refuted : forall s s' high low contents, program_loaded s s' high low [] contents -> program s' = [] /\ result s' = 0.
Proof. intros s s' high low contents [a b _ _ _ _]. split; [exact a|exact b]. Qed.
(** a packed MEM resource brings its text, but MEM$ keeps the length it had *)
Theorem C55_mem_package_refuted : forall junk p s res i h1 name md5 ty prg mem,
  well_formed s -> page_ok p -> good_str res -> get_verified_resource p res = Ok i -> i_data i = Prg ->
  length h1 = 8%nat -> length name = 8%nat -> length md5 = 16%nat -> length ty = 12%nat -> zlen prg <= 524288 -> zlen mem = 516 ->
  file (disk s) (path_of (search_path s) (i_name i)) = Some (sd_program h1 name md5 ty (program_body 0 (2 ^ 22) prg (type_string Mem ++ mem))) ->
  exists s', cmd_load junk p s res = (s', Done) /\ bufs s' Mem = mem /\ mem_len s' = mem_len s.
Proof.
  intros junk p s res i h1 name md5 ty prg mem WF Hp G E D L1 L2 L3 L4 Lp Lm Ef.
  set (contents := fun k => if (k =? 22)%nat then Some mem else None).
  assert (P0 : packs contents ++ [] = type_string Mem ++ mem).
  { rewrite app_nil_r. unfold packs. change (seq 0 45) with (seq 0 22 ++ [22%nat] ++ seq 23 22). rewrite !flat_map_app.
    assert (Z : forall a n, (forall k, (a <= k < a + n)%nat -> k <> 22%nat) -> flat_map (fun k => match contents k with Some d => type_string (package_buf k) ++ d | None => [] end) (seq a n) = []).
    { intros a n. revert a. induction n as [|n IH]; intros a Hk; [reflexivity|]. cbn [seq flat_map]. rewrite IH by (intros k Hk2; apply Hk; lia).
      unfold contents. destruct (Nat.eqb_spec a 22) as [V|V]; [exfalso; apply (Hk a); [lia|exact V]|reflexivity]. }
    rewrite !Z by (intros; lia). cbn [flat_map]. unfold contents at 1. cbn [Nat.eqb]. change (package_buf 22) with Mem. cbn [app]. rewrite !app_nil_r. reflexivity. }
  rewrite <- P0 in Ef.
  assert (Pk : packed_ok contents). { intros k d Hk. unfold contents. destruct (Nat.eqb_spec k 22) as [->|]; [intros [= <-]; exact Lm|discriminate]. }
  assert (Wd : word_for 0 (2 ^ 22) contents).
  { split; [change (2 ^ 32) with 4294967296; lia|]. split; [change (2 ^ 32) with 4294967296; change (2 ^ 22) with 4194304; lia|]. intros k Hk. rewrite Z.mul_0_l, Z.add_0_l, Z.pow2_bits_eqb by lia.
    unfold contents. destruct (Nat.eqb_spec k 22) as [->|V]; [reflexivity|]. apply Z.eqb_neq. lia. }
  destruct (resource_info p res i Hp G E) as (F & K & _). rewrite (load_prg_eq junk p s res i Hp G E D).
  unfold load_program. rewrite (create_ok _ _ (wf_dir _ WF) F), Ef. unfold sd_program, program_body. cbv zeta.
  set (low := 2 ^ 22) in *.
  change (firstn 4 (text "PX01" ++ h1 ++ name ++ md5 ++ ty ++ le4 0 ++ le4 low ++ le4 (zlen prg) ++ prg ++ padding (length prg) ++ packs contents ++ [])) with (text "PX01").
  change (firstn 4 (overlay (text "PX01") junk)) with (text "PX01"). change (path_eqb (text "PX01") (zs "PX01")) with true. cbv iota.
  set (H := text "PX01" ++ h1 ++ name ++ md5 ++ ty).
  assert (LH : length H = 48%nat) by (unfold H; rewrite !app_length, L1, L2, L3, L4; reflexivity).
  assert (A : text "PX01" ++ h1 ++ name ++ md5 ++ ty ++ le4 0 ++ le4 low ++ le4 (zlen prg) ++ prg ++ padding (length prg) ++ packs contents ++ []
     = H ++ le4 0 ++ le4 low ++ le4 (zlen prg) ++ (prg ++ padding (length prg) ++ packs contents ++ [])) by (unfold H; rewrite <- !app_assoc; reflexivity).
  rewrite A. assert (Wd' := Wd). destruct Wd as (Hh & Hl & Wd).
  destruct (header_words H 0 low (zlen prg) (prg ++ padding (length prg) ++ packs contents ++ []) LH Hh Hl (zlen_le _ Lp)) as (w1 & w2 & w3 & w4 & w5).
  rewrite w1, w2. match goal with |- context [zlen ?x <? 60] => destruct (Z.ltb_spec (zlen x) 60) as [V|V] end.
  { unfold zlen in V. rewrite !app_length, LH in V. cbn [le4 length] in V. lia. }
  destruct (load_body_ok p s _ 0 low prg contents [] Hp WF Pk Wd' Lp w3 w4 w5) as (s' & Es & b1 & b2 & b3 & b4 & b5 & b6 & b7 & b8 & b9 & b10).
  rewrite Es. eexists. split; [reflexivity|]. split; [|exact b10]. change Mem with (package_buf 22). apply (b5 22%nat); [lia|reflexivity].
Qed.

(** ** APPEND and NEW *)
Definition is_program_file (c prg : list Z) : Prop :=
  exists high low tail, c = internal_program (program_body high low prg tail) \/
    exists h1 name md5, length h1 = 8%nat /\ length name = 8%nat /\ length md5 = 16%nat /\ c = sd_program h1 name md5 (text "PETC0300RPRG") (program_body high low prg tail).
Theorem C55_append : forall p s res i c prg, well_formed s -> page_ok p -> good_str res -> get_verified_resource p res = Ok i -> i_data i = Prg ->
  file (disk s) (path_of (search_path s) (i_name i)) = Some c -> is_program_file c prg -> zlen prg < 2 ^ 32 ->
  exists s', cmd_append p s res = (s', Done) /\ result s' = 1 /\
    program s' = firstn (Z.to_nat 524288) (program s ++ prg) /\ other_buffers s s' Prg /\ same_files s s' /\ mem_len s' = mem_len s.
Proof.
  intros p s res i c prg WF Hp G E D Ef IP L32. destruct (resource_info p res i Hp G E) as (F & K & _).
  unfold cmd_append. rewrite E, K, D. cbn [kind_of]. cbn [set_result search_path disk prg_len bufs]. rewrite (create_ok _ _ (wf_dir _ WF) F).
  assert (X : verify_file_type (disk s) (path_of (search_path s) (i_name i)) TYPE_PRG = true /\
     exists tail, let skip := if is4 c (zs "PETC") then 20%nat else 56%nat in skipn skip c = le4 (zlen prg) ++ prg ++ tail).
  { unfold verify_file_type. rewrite Ef. destruct IP as (high & low & tail & [->|(h1 & name & md5 & A1 & A2 & A3 & ->)]); unfold is4.
    - unfold internal_program. set (body := program_body high low prg tail).
      change (firstn 4 (text "PETC0300RPRG" ++ body)) with (text "PETC"). change (path_eqb (text "PETC") (zs "PX01")) with false. change (path_eqb (text "PETC") (zs "PETC")) with true. cbv iota.
      split.
      + destruct (Z.ltb_spec (zlen (text "PETC0300RPRG" ++ body)) 12) as [V|V]; [unfold zlen in V; rewrite app_length in V; change (length (text "PETC0300RPRG")) with 12%nat in V; lia|].
        change (firstn 12 (text "PETC0300RPRG" ++ body)) with (text "PETC0300RPRG"). apply path_eqb_refl.
      + exists (padding (length prg) ++ tail). cbv zeta. unfold body, program_body. reflexivity.
    - set (body := program_body high low prg tail). unfold sd_program.
      change (firstn 4 (text "PX01" ++ h1 ++ name ++ md5 ++ text "PETC0300RPRG" ++ body)) with (text "PX01"). change (path_eqb (text "PX01") (zs "PX01")) with true. change (path_eqb (text "PX01") (zs "PETC")) with false. cbv iota.
      assert (L36 : length (text "PX01" ++ h1 ++ name ++ md5) = 36%nat) by (rewrite !app_length, A1, A2, A3; reflexivity).
      assert (Q : text "PX01" ++ h1 ++ name ++ md5 ++ text "PETC0300RPRG" ++ body = (text "PX01" ++ h1 ++ name ++ md5) ++ text "PETC0300RPRG" ++ body) by (rewrite <- !app_assoc; reflexivity).
      rewrite Q. split.
      + match goal with |- context [zlen ?x <? 60] => destruct (Z.ltb_spec (zlen x) 60) as [V|V] end.
        { unfold zlen in V. rewrite app_length, L36 in V. rewrite app_length in V. change (length (text "PETC0300RPRG")) with 12%nat in V.
          unfold body, program_body in V. rewrite !app_length in V. cbn [le4 length] in V. lia. }
        rewrite (skip_app _ (text "PETC0300RPRG" ++ body) 36 L36). change (firstn 12 (text "PETC0300RPRG" ++ body)) with (text "PETC0300RPRG"). apply path_eqb_refl.
      + exists (padding (length prg) ++ tail). cbv zeta. change 56%nat with (36 + 20)%nat. rewrite <- skip_skip, (skip_app _ (text "PETC0300RPRG" ++ body) 36 L36).
        unfold body, program_body. reflexivity. }
  destruct X as (V & tail & Sk). rewrite V. cbn [negb]. rewrite Ef. cbv zeta in *. rewrite Sk.
  change (firstn 4 (le4 (zlen prg) ++ prg ++ tail)) with (le4 (zlen prg)). change (skipn 4 (le4 (zlen prg) ++ prg ++ tail)) with (prg ++ tail). change (zlen (le4 (zlen prg)) <? 4) with false. cbv iota.
  rewrite le4_word by (unfold zlen in *; lia).
  assert (Hl := wf_prg _ WF). assert (Hb := wf_size _ WF Prg). cbn [size_of] in Hb.
  assert (R : u32 (MAX_SOURCE_SIZE - prg_len s) = 524288 - prg_len s) by (unfold u32, MAX_SOURCE_SIZE; change (2 ^ 32) with 4294967296; lia).
  rewrite R. set (n := if 524288 - prg_len s <? zlen prg then 524288 - prg_len s else zlen prg).
  assert (Hn : 0 <= n <= zlen prg /\ prg_len s + n <= 524288 /\ (prg_len s + n = 524288 \/ n = zlen prg)).
  { unfold n. destruct (Z.ltb_spec (524288 - prg_len s) (zlen prg)); unfold zlen in *; lia. }
  assert (Fd : firstn (Z.to_nat n) (prg ++ tail) = firstn (Z.to_nat n) prg).
  { rewrite firstn_app. replace (Z.to_nat n - length prg)%nat with 0%nat by (unfold zlen in Hn; lia). cbn [firstn]. apply app_nil_r. }
  rewrite Fd. assert (Zd : zlen (firstn (Z.to_nat n) prg) = n) by (unfold zlen in *; rewrite firstn_length; lia).
  rewrite Zd, Z.ltb_irrefl. eexists. split; [reflexivity|]. split; [reflexivity|].
  split; [|split; [intros b Nb; cbn [set_result set_prg_len set_buf bufs]; destruct (buf_eq_dec b Prg); [contradiction|reflexivity]|split; [intro q; reflexivity|reflexivity]]].
  unfold program. cbn [set_result set_prg_len set_buf bufs prg_len]. destruct (buf_eq_dec Prg Prg) as [_|W]; [|contradiction].
  set (a := firstn (Z.to_nat (prg_len s)) (bufs s Prg)). assert (La : length a = Z.to_nat (prg_len s)) by (unfold a; rewrite firstn_length; unfold zlen in Hb; lia).
  unfold overlay. rewrite app_assoc. rewrite (first_app (a ++ firstn (Z.to_nat n) prg)).
  2:{ rewrite app_length, La. unfold zlen in Zd. lia. }
  rewrite firstn_app, La. rewrite (firstn_all2 a) by lia. f_equal.
  destruct Hn as (Hn1 & Hn2 & [Hn3|Hn3]).
  - f_equal. lia.
  - rewrite Hn3. rewrite !firstn_all2; [reflexivity|unfold zlen in *; lia|unfold zlen; lia].
Qed.
Example C55_append_ok : is_program_file (internal_program (program_body 0 0 (text "END") [])) (text "END").
Proof. exists 0, 0, []. left. reflexivity. Qed.
(** whatever is not a program file changes nothing but RESULT *)
Theorem C55_append_refused : forall p s res i, well_formed s -> page_ok p -> good_str res -> get_verified_resource p res = Ok i -> i_data i = Prg ->
  (forall c, file (disk s) (path_of (search_path s) (i_name i)) = Some c -> ~ (firstn 4 c = text "PETC" /\ firstn 12 c = text "PETC0300RPRG") /\
     ~ (firstn 4 c = text "PX01" /\ firstn 12 (skipn 36 c) = text "PETC0300RPRG")) ->
  cmd_append p s res = (set_result s 0, Done).
Proof.
  intros p s res i WF Hp G E D U. destruct (resource_info p res i Hp G E) as (F & K & _).
  unfold cmd_append. rewrite E, K, D. cbn [kind_of]. cbn [set_result search_path disk prg_len bufs]. rewrite (create_ok _ _ (wf_dir _ WF) F).
  assert (V : verify_file_type (disk s) (path_of (search_path s) (i_name i)) TYPE_PRG = false).
  { unfold verify_file_type. destruct (file (disk s) (path_of (search_path s) (i_name i))) as [c|]; [|reflexivity]. destruct (U c eq_refl) as [U1 U2]. unfold is4.
    destruct (path_eqb (firstn 4 c) (zs "PX01")) eqn:A.
    - destruct (zlen c <? 60); [reflexivity|]. apply path_eqb_neq. intro W. apply U2. split; [apply path_eqb_eq in A; exact A|exact W].
    - destruct (path_eqb (firstn 4 c) (zs "PETC")) eqn:B; [|reflexivity]. destruct (zlen c <? 12); [reflexivity|]. apply path_eqb_neq. intro W. apply U1. split; [apply path_eqb_eq in B; exact B|exact W]. }
  rewrite V. reflexivity.
Qed.
(** ... nor does a name that is refused or is not a program's *)
Theorem C55_append_name : forall p s res, page_ok p -> good_str res -> (forall i, get_verified_resource p res = Ok i -> i_data i <> Prg) ->
  exists e, cmd_append p s res = (set_result s 0, Raised e).
Proof.
  intros p s res Hp G N. destruct (C41_load p res Hp G) as [W|(i & Ei & _ & K & _)]; unfold cmd_append.
  - rewrite W. eexists. reflexivity.
  - rewrite Ei, K. specialize (N i Ei). destruct (i_data i); cbn [kind_of]; try (eexists; reflexivity). contradiction.
Qed.
Theorem C55_new : forall s, program (cmd_new s) = [] /\ (forall b, bufs (cmd_new s) b = bufs s b).
Proof. intro s. split; reflexivity. Qed.

(** ** PACKAGE$ *)
Theorem C55_package : forall w, 0 <= w < 2 ^ 48 -> forall k, (k < 12)%nat ->
  nth k (package_text w) 0 = hex_char (w / 16 ^ Z.of_nat (11 - k) mod 16).
Proof.
  intros w Hw k Hk. unfold package_text.
  assert (H0 : forall a, 0 <= a < 16 -> nth (Z.to_nat a) hex_digits 0 = hex_char a).
  { intros a Ha. assert (K : forallb (fun a => nth (Z.to_nat a) hex_digits 0 =? hex_char a) [0;1;2;3;4;5;6;7;8;9;10;11;12;13;14;15] = true) by (vm_compute; reflexivity).
    rewrite forallb_forall in K. apply Z.eqb_eq. apply (K a). cbn. lia. }
  set (f := fun i => nth (Z.to_nat (Z.land (Z.shiftr w (4 * Z.of_nat (11 - i))) 15)) hex_digits 0).
  assert (Q : nth k (map f (seq 0 12)) 0 = f k).
  { rewrite nth_indep with (d' := f 0%nat) by (rewrite map_length, seq_length; exact Hk). rewrite map_nth, seq_nth by exact Hk. reflexivity. }
  rewrite Q. unfold f. change 15 with (Z.ones 4). rewrite Z.land_ones by lia. rewrite Z.shiftr_div_pow2 by lia.
  replace (2 ^ (4 * Z.of_nat (11 - k))) with (16 ^ Z.of_nat (11 - k)) by (rewrite Z.pow_mul_r by lia; reflexivity).
  change (2 ^ 4) with 16. apply H0. apply Z.mod_pos_bound. lia.
Qed.
(** PACKAGE$ is that text without leading zeros, but at least one digit *)
Lemma count_zeros_spec : forall l, firstn (count_zeros l) l = repeat 48 (count_zeros l) /\ (count_zeros l <= length l)%nat /\ at_ l (count_zeros l) <> 48.
Proof.
  induction l as [|c l IH]; cbn [count_zeros]; [cbn; repeat split; lia|].
  destruct (Z.eqb_spec c 48) as [->|N]; [|cbn; repeat split; lia]. destruct IH as (a & b & d). cbn [firstn repeat length]. rewrite a. repeat split; [lia|]. exact d.
Qed.
Theorem C55_package_text : forall before pkg, length pkg = 12%nat -> ~ In 0 pkg ->
  exists zeros, pkg = repeat 48 zeros ++ sys_package before pkg /\ sys_package before pkg <> [] /\ (hd 0 (sys_package before pkg) = 48 -> sys_package before pkg = [48]).
Proof.
  intros before pkg L N0. destruct (count_zeros_spec pkg) as (a & b & c). unfold sys_package.
  assert (At : forall i, (i < 12)%nat -> at_ pkg i <> 0). { intros i Hi W. apply N0. rewrite <- W. unfold at_. apply nth_In. lia. }
  destruct (count_zeros pkg) as [|j] eqn:Ez.
  - destruct (Z.eqb_spec (at_ pkg 0) 0) as [W|_]; [exfalso; apply (At 0%nat); [lia|exact W]|]. rewrite firstn_all2 by lia. exists 0%nat. split; [reflexivity|].
    destruct pkg as [|x r]; [discriminate L|]. split; [discriminate|]. intro W. exfalso. apply c. exact W.
  - destruct (Z.eqb_spec (at_ pkg (S j)) 0) as [W|W].
    + assert (j = 11)%nat. { destruct (Nat.lt_ge_cases (S j) 12) as [V|V]; [exfalso; apply (At (S j) V W)|lia]. } subst j.
      exists 11%nat. change (12 - 11)%nat with 1%nat. rewrite firstn_all2 in a by lia. rewrite a. cbn. repeat split. discriminate.
    + assert (S j < 12)%nat. { destruct (Nat.lt_ge_cases (S j) 12) as [V|V]; [exact V|]. exfalso. apply W. unfold at_. apply nth_overflow. lia. }
      rewrite firstn_all2 by (rewrite skipn_length; lia). exists (S j). split; [rewrite <- a; symmetry; apply firstn_skipn|].
      assert (X : exists x r, skipn (S j) pkg = x :: r /\ x = at_ pkg (S j)).
      { assert (Y := skipn_length (S j) pkg). destruct (skipn (S j) pkg) as [|x r] eqn:Ex; [cbn in Y; lia|]. exists x, r. split; [reflexivity|].
        unfold at_. rewrite <- (firstn_skipn (S j) pkg), app_nth2, Ex by (rewrite firstn_length; lia). rewrite firstn_length, Nat.min_l by lia. rewrite Nat.sub_diag. reflexivity. }
      destruct X as (x & r & -> & ->). split; [discriminate|]. intro V. exfalso. apply c. exact V.
Qed.
(** before the first LOAD, PACKAGE$ has 13 characters, none of them a digit *)
Theorem C55_package_initial_refuted : sys_package 0 (repeat 0 13) = repeat 0 13.
Proof. reflexivity. Qed.
Print Assumptions C55_load_sd.
Print Assumptions C55_load_internal_partial.
Print Assumptions C55_append.
Print Assumptions C55_package_text.
