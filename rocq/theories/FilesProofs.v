From Coq Require Import String Ascii.
From Verif Require Import Base BaseLemmas Strs Memory Compress Resources ResourcesSpec ResourcesProofs ResourcesProps Files FilesSpec.
Ltac Zify.zify_post_hook ::= Z.div_mod_to_equations.
Open Scope Z_scope.

Lemma path_eqb_eq a b : path_eqb a b = true <-> a = b.
Proof. unfold path_eqb. destruct (list_eq_dec Z.eq_dec a b); split; intro E; congruence || discriminate E. Qed.
Lemma path_eqb_refl a : path_eqb a a = true.
Proof. apply path_eqb_eq. reflexivity. Qed.
Lemma path_eqb_neq a b : a <> b -> path_eqb a b = false.
Proof. intro N. destruct (path_eqb a b) eqn:E; [|reflexivity]. apply path_eqb_eq in E. contradiction. Qed.
Lemma bufs_set_same s b v : bufs (set_buf s b v) b = v.
Proof. cbn. destruct (buf_eq_dec b b); [reflexivity|contradiction]. Qed.
Lemma bufs_set_other s b v c : c <> b -> bufs (set_buf s b v) c = bufs s c.
Proof. intro N. cbn. destruct (buf_eq_dec c b); [contradiction|reflexivity]. Qed.
Lemma overlay_full d b : length d = length b -> overlay d b = d.
Proof. intro E. unfold overlay. rewrite E, skipn_all. apply app_nil_r. Qed.
Lemma overlay_nil b : overlay [] b = b.
Proof. reflexivity. Qed.

(** the internal tables agree with the specification *)
Lemma type_str_of b : internal_type_str (kind_of b) = type_string b.
Proof. destruct b; reflexivity. Qed.
Lemma size_str_of b : b <> Prg -> resource_size (kind_of b) = size_of b.
Proof. destruct b; intro N; try reflexivity. contradiction. Qed.
Lemma create_ok dir name : zlen dir <= 200 -> file_name name -> create_path dir name PTC = Some (path_of dir name).
Proof.
  intros D [[_ L] _]. unfold create_path, path_of, PTC. change (zlen (zs ".PTC")) with 4.
  destruct (Z.gtb_spec (zlen dir + zlen name + 4) 255) as [G|G]; [|reflexivity]. unfold zlen in *. lia.
Qed.
Lemma resource_info p res i : page_ok p -> good_str res -> get_verified_resource p res = Ok i ->
  file_name (i_name i) /\ i_id i = kind_of (i_data i) /\ (type_name (i_type i) \/ lax_type_name (i_type i)) /\ get_resource_ptr p (i_type i) = Ok (i_data i).
Proof.
  intros Hp G E. destruct (C41_load p res Hp G) as [W|(j & Ej & A & B & C & D & _)]; rewrite E in *; [discriminate W|].
  injection Ej as <-. auto.
Qed.
Lemma firstn4 (h x : list Z) : (4 <= length h)%nat -> firstn 4 (h ++ x) = firstn 4 h.
Proof. intro L. rewrite firstn_app. replace (4 - length h)%nat with 0%nat by lia. cbn [firstn]. apply app_nil_r. Qed.
Lemma skip_app (h x : list Z) n : length h = n -> skipn n (h ++ x) = x.
Proof. intros <-. rewrite skipn_app, skipn_all, Nat.sub_diag. reflexivity. Qed.
Lemma first_app (h x : list Z) n : length h = n -> firstn n (h ++ x) = h.
Proof. intros <-. rewrite firstn_app, firstn_all, Nat.sub_diag. cbn [firstn]. apply app_nil_r. Qed.

(** reading a plain file *)
Lemma load_plain f dest dir name data c : zlen dir <= 200 -> file_name name -> plain_file data c -> length data = length dest ->
  file f (path_of dir name) = Some c -> check_load_file f dest dir name = Ok (zlen data, data).
Proof.
  intros D N P L E. unfold check_load_file. rewrite (create_ok dir name D N), E.
  destruct P as [h extra Lh M|h extra Lh M]; unfold is4; rewrite firstn4 by lia; rewrite M.
  - change (path_eqb (text "PETC") (zs "PX01")) with false. change (path_eqb (text "PETC") (zs "PETC")) with true. cbv iota zeta.
    rewrite (skip_app h _ 12 Lh), <- L, (first_app data extra _ eq_refl), overlay_full by exact L. reflexivity.
  - change (path_eqb (text "PX01") (zs "PX01")) with true. cbv iota zeta.
    rewrite (skip_app h _ 48 Lh), <- L, (first_app data extra _ eq_refl), overlay_full by exact L. reflexivity.
Qed.
Lemma load_none f dest dir name : zlen dir <= 200 -> file_name name ->
  (forall c, file f (path_of dir name) = Some c -> ~ known_format c) -> check_load_file f dest dir name = Ok (0, dest).
Proof.
  intros D N K. unfold check_load_file. rewrite (create_ok dir name D N).
  destruct (file f (path_of dir name)) as [c|]; [|reflexivity]. specialize (K c eq_refl). unfold is4, known_format in *. cbn [In] in K.
  rewrite !path_eqb_neq; [reflexivity| | |]; intro W; rewrite W in K; apply K; cbn; auto.
Qed.

(** LOAD of a resource that is not the program: everything from the result of the file reader *)
Definition loaded (p : pages) (i : res_info) (s : st) (n : Z) (d : list Z) : st * fin :=
  let s1 := set_result (set_buf s (i_data i) d) (b2z (negb (n =? 0))) in
  match i_data i with
  | Chr _ => match mark_chr p s1 (i_type i) with Ok s2 => (s2, Done) | _ => (s1, Crash) end
  | Col _ => (set_regen_col s1, Done)
  | Mem => (set_mem_len s1 (u32le d 512), Done)
  | _ => (s1, Done)
  end.
Lemma cmd_load_eq junk p s res i n d : page_ok p -> good_str res -> get_verified_resource p res = Ok i -> i_data i <> Prg ->
  check_load_file (disk s) (bufs s (i_data i)) (search_path s) (i_name i) = Ok (n, d) ->
  cmd_load junk p s res = loaded p i s n d.
Proof.
  intros Hp G E N F. destruct (resource_info p res i Hp G E) as (_ & K & _). unfold cmd_load, loaded. rewrite E, K, F.
  destruct (i_data i) eqn:Ed; cbn [kind_of bind]; try reflexivity. contradiction.
Qed.
Lemma load_loaded p i s n d b : page_ok p -> type_name (i_type i) \/ lax_type_name (i_type i) -> get_resource_ptr p (i_type i) = Ok b -> i_data i = b -> b <> Prg ->
  exists s', loaded p i s n d = (s', Done) /\ bufs s' b = d /\ other_buffers s s' b /\ same_files s s' /\
    prg_len s' = prg_len s /\ search_path s' = search_path s /\ disk s' = disk s /\ prgname s' = prgname s /\ package s' = package s /\
    result s' = b2z (negb (n =? 0)) /\ (mem_len s' = if buf_eq_dec b Mem then u32le d 512 else mem_len s) /\
    (forall k, b = Col k -> regen_col s' = true) /\
    (forall k, b = Chr k -> exists j, get_chr_index p (i_type i) = Ok j /\ regen_chr s' j = true).
Proof.
  intros Hp T P Eb N. unfold loaded. rewrite Eb. clear Eb. unfold other_buffers, same_files.
  assert (B : forall c, c <> b -> bufs (set_buf s b d) c = bufs s c) by (intros c Nc; apply bufs_set_other; exact Nc).
  assert (B' : bufs (set_buf s b d) b = d) by apply bufs_set_same.
  destruct b as [k|k|k|k| |].
  - (* characters *)
    assert (X : exists j, get_chr_index p (i_type i) = Ok j /\ 0 <= j < 44).
    { destruct T as [T|T].
      - assert (Q := check (fun p t => match get_resource_ptr p t with
          Ok (Chr i) => match get_chr_index p t with Ok j => (0 <=? j) && (j <? 44) | _ => false end | _ => true end) eq_refl p (i_type i) Hp T).
        cbv beta in Q. rewrite P in Q. destruct (get_chr_index p (i_type i)) as [j| |]; try discriminate Q. exists j. split; [reflexivity|lia].
      - exfalso. destruct (C41_buffer p (i_type i) Hp (or_intror T)) as (b' & E' & K'). rewrite P in E'. injection E' as <-. cbn [kind_ok] in K'.
        destruct T as [base rest I|bk pg]; [destruct I as [<-|[<-|[]]]; discriminate K'|discriminate K']. }
    destruct X as (j & Ej & Rj). unfold mark_chr. rewrite Ej. cbn [bind].
    destruct (Z.leb_spec 0 j); [|lia]. destruct (Z.ltb_spec j 44); [|lia]. cbn [andb].
    eexists. split; [reflexivity|]. cbn [bufs set_regen_chr set_result disk prg_len search_path prgname package result mem_len regen_col regen_chr set_buf] in *.
    destruct (buf_eq_dec (Chr k) Mem) as [W|W]; [discriminate W|].
    repeat split; auto. all: try discriminate. intros k' _. exists j. split; [reflexivity|]. rewrite Z.eqb_refl. reflexivity.
  - eexists. split; [reflexivity|]. cbn in *. repeat split; auto; discriminate.
  - eexists. split; [reflexivity|]. cbn in *. repeat split; auto; discriminate.
  - eexists. split; [reflexivity|]. cbn in *. repeat split; auto; discriminate.
  - contradiction.
  - eexists. split; [reflexivity|]. cbn in *. repeat split; auto; discriminate.
Qed.

(** ** Packages *)
Definition pkg_check (p : pages) (i : nat) : bool :=
  match get_verified_resource_type p (SBc (nth i package_resources [])) with
  | Ok info =>
      (if buf_eq_dec (i_data info) (package_buf i) then true else false) &&
      match i_id info, kind_of (package_buf i) with
      | TYPE_CHR, TYPE_CHR => match get_chr_index p (i_type info), package_buf i with Ok j, Chr k => (j =? k) && (0 <=? j) && (j <? 44) | _, _ => false end
      | TYPE_SCR, TYPE_SCR | TYPE_GRP, TYPE_GRP | TYPE_MEM, TYPE_MEM | TYPE_COL, TYPE_COL => true
      | _, _ => false
      end
  | _ => false
  end.
Lemma pkg_checked p i : page_ok p -> (i < 45)%nat -> pkg_check p i = true.
Proof.
  intros Hp Hi. assert (K : forallb (fun p => forallb (pkg_check p) (seq 0 45)) all_pages = true) by (vm_compute; reflexivity).
  rewrite forallb_forall in K. specialize (K p (in_pages p Hp)). cbv beta in K. rewrite forallb_forall in K. apply K. apply in_seq. lia.
Qed.
Lemma pkg_info p i : page_ok p -> (i < 45)%nat -> exists info, get_verified_resource_type p (SBc (nth i package_resources [])) = Ok info /\
  i_data info = package_buf i /\ i_id info = kind_of (package_buf i) /\ package_buf i <> Prg /\
  (forall k, package_buf i = Chr k -> forall s, mark_chr p s (i_type info) = Ok (set_regen_chr s k)).
Proof.
  intros Hp Hi. assert (K := pkg_checked p i Hp Hi). unfold pkg_check in K.
  destruct (get_verified_resource_type p (SBc (nth i package_resources []))) as [info| |]; try discriminate K. exists info. split; [reflexivity|].
  apply andb_true_iff in K. destruct K as [K1 K2]. destruct (buf_eq_dec (i_data info) (package_buf i)) as [E|]; [|discriminate K1]. split; [exact E|]. clear K1 E.
  destruct (package_buf i) as [k|k|k|k| |] eqn:Eb; cbn [kind_of] in K2; destruct (i_id info) eqn:Ei; try discriminate K2; try (split; [reflexivity|split; [discriminate|discriminate]]).
  split; [reflexivity|]. split; [discriminate|]. intros k' [= <-] s. unfold mark_chr.
  destruct (get_chr_index p (i_type info)) as [j| |]; try discriminate K2. cbn [bind].
  apply andb_true_iff in K2. destruct K2 as [K2 K3]. apply andb_true_iff in K2. destruct K2 as [K4 K5].
  rewrite K5, K3. cbn [andb]. apply Z.eqb_eq in K4. rewrite K4. reflexivity.
Qed.
Lemma pkg_inj i j : (i < 45)%nat -> (j < 45)%nat -> package_buf i = package_buf j -> i = j.
Proof.
  intros Hi Hj E.
  assert (K : forallb (fun i => forallb (fun j => if buf_eq_dec (package_buf i) (package_buf j) then (i =? j)%nat else true) (seq 0 45)) (seq 0 45) = true) by (vm_compute; reflexivity).
  rewrite forallb_forall in K. specialize (K i ltac:(apply in_seq; lia)). cbv beta in K. rewrite forallb_forall in K. specialize (K j ltac:(apply in_seq; lia)). cbv beta in K.
  destruct (buf_eq_dec (package_buf i) (package_buf j)); [|contradiction]. apply Nat.eqb_eq. exact K.
Qed.
Lemma type_len b : length (type_string b) = 12%nat.
Proof. destruct b; reflexivity. Qed.

Definition pack1 (contents : nat -> option (list Z)) (i : nat) : list Z :=
  match contents i with Some d => type_string (package_buf i) ++ d | None => [] end.
(** what loading the packages of the bits [i .. i+n-1] does *)
Record packs_done (s s' : st) (i n : nat) (contents : nat -> option (list Z)) : Prop := {
  pd_in : forall j d, (i <= j < i + n)%nat -> contents j = Some d -> bufs s' (package_buf j) = d;
  pd_out : forall b, (forall j d, (i <= j < i + n)%nat -> contents j = Some d -> b <> package_buf j) -> bufs s' b = bufs s b;
  pd_chr : forall j d k, (i <= j < i + n)%nat -> contents j = Some d -> package_buf j = Chr k -> regen_chr s' k = true;
  pd_col : forall j d k, (i <= j < i + n)%nat -> contents j = Some d -> package_buf j = Col k -> regen_col s' = true;
  pd_mono : (forall k, regen_chr s k = true -> regen_chr s' k = true) /\ (regen_col s = true -> regen_col s' = true);
  pd_rest : disk s' = disk s /\ search_path s' = search_path s /\ prg_len s' = prg_len s /\ mem_len s' = mem_len s /\ result s' = result s /\
            prgname s' = prgname s /\ package s' = package s }.
Lemma load_packages_ok p word contents : page_ok p -> packed_ok contents ->
  (forall i, (i < 45)%nat -> Z.testbit word (Z.of_nat i) = match contents i with Some _ => true | None => false end) ->
  forall n i s tail, (i + n <= 45)%nat -> (forall b, zlen (bufs s b) = size_of b) ->
  exists s', load_packages p word n i (flat_map (pack1 contents) (seq i n) ++ tail) s = Ok (true, s') /\ packs_done s s' i n contents.
Proof.
  intros Hp Pk Wd. induction n as [|n IH]; intros i s tail Hi Sz.
  - exists s. split; [reflexivity|]. constructor; try (intros; lia); auto. repeat split.
  - cbn [load_packages seq flat_map]. rewrite (Wd i) by lia. destruct (contents i) as [d|] eqn:Ec.
    2:{ assert (P1 : pack1 contents i = []) by (unfold pack1; rewrite Ec; reflexivity). rewrite P1. cbn [negb app].
        destruct (IH (S i) s tail ltac:(lia) Sz) as (s' & E & [a1 a2 a3 a4 a5 a6]). exists s'. split; [exact E|].
        assert (X : forall j d, (i <= j < i + S n)%nat -> contents j = Some d -> (S i <= j < S i + n)%nat).
        { intros j d Hj Ej. destruct (Nat.eq_dec j i) as [->|]; [congruence|lia]. }
        constructor; auto.
        - intros j d Hj Ej. apply a1; [eapply X; eassumption|exact Ej].
        - intros b Hb. apply a2. intros j d Hj Ej. apply (Hb j d); [lia|exact Ej].
        - intros j d k Hj Ej Ek. apply (a3 j d); [eapply X; eassumption|exact Ej|exact Ek].
        - intros j d k Hj Ej Ek. apply (a4 j d k); [eapply X; eassumption|exact Ej|exact Ek]. }
    assert (P1 : pack1 contents i = type_string (package_buf i) ++ d) by (unfold pack1; rewrite Ec; reflexivity). rewrite P1. cbn [negb].
    destruct (pkg_info p i Hp ltac:(lia)) as (info & Ei & Ed & Ek & Np & Mk). rewrite Ei. cbn [bind].
    rewrite <- !app_assoc. rewrite (first_app (type_string (package_buf i)) _ 12 (type_len _)), (skip_app (type_string (package_buf i)) _ 12 (type_len _)).
    unfold zlen at 1. rewrite type_len. change (Z.of_nat 12 =? 12) with true. cbn [negb].
    rewrite Ek, type_str_of, path_eqb_refl. cbn [negb]. rewrite (size_str_of _ Np), Ed.
    assert (Ld : length d = Z.to_nat (size_of (package_buf i))). { assert (Q := Pk i d ltac:(lia) Ec). unfold zlen in Q. lia. }
    rewrite (first_app d _ _ Ld), (skip_app d _ _ Ld).
    assert (Zd := Pk i d ltac:(lia) Ec). rewrite Zd, Z.eqb_refl. cbn [negb].
    rewrite overlay_full by (assert (Q := Sz (package_buf i)); unfold zlen in Q; lia).
    set (s1 := set_buf s (package_buf i) d).
    assert (S1 : exists s2, match kind_of (package_buf i) with TYPE_CHR => mark_chr p s1 (i_type info) | TYPE_COL => Ok (set_regen_col s1) | _ => Ok s1 end = Ok s2 /\
      bufs s2 = bufs s1 /\ (forall k, package_buf i = Chr k -> regen_chr s2 k = true) /\ (forall k, package_buf i = Col k -> regen_col s2 = true) /\
      (forall k, regen_chr s k = true -> regen_chr s2 k = true) /\ (regen_col s = true -> regen_col s2 = true) /\
      disk s2 = disk s /\ search_path s2 = search_path s /\ prg_len s2 = prg_len s /\ mem_len s2 = mem_len s /\ result s2 = result s /\ prgname s2 = prgname s /\ package s2 = package s).
    { destruct (package_buf i) as [k|k|k|k| |] eqn:Eb; cbn [kind_of].
      - rewrite (Mk k eq_refl s1). eexists. split; [reflexivity|]. cbn [bufs set_regen_chr s1 set_buf regen_chr regen_col disk search_path prg_len mem_len result prgname package].
        repeat split; auto; try discriminate.
        + intros k' [= <-]. rewrite Z.eqb_refl. reflexivity.
        + intros k' Hk'. destruct (k' =? k); [reflexivity|exact Hk'].
      - eexists. split; [reflexivity|]. repeat split; auto; discriminate.
      - eexists. split; [reflexivity|]. repeat split; auto; discriminate.
      - eexists. split; [reflexivity|]. repeat split; auto; discriminate.
      - contradiction.
      - eexists. split; [reflexivity|]. repeat split; auto; discriminate. }
    destruct S1 as (s2 & E2 & b1 & b2 & b3 & b4 & b5 & b6 & b7 & b8 & b9 & b10 & b11 & b12). rewrite E2. cbn [bind].
    destruct (IH (S i) s2 tail ltac:(lia)) as (s' & E & [a1 a2 a3 a4 [a5 a5'] (a6 & a7 & a8 & a9 & a10 & a11 & a12)]).
    { intro b. rewrite b1. unfold s1. destruct (buf_eq_dec b (package_buf i)) as [->|Nb]; [rewrite bufs_set_same; exact Zd|rewrite bufs_set_other by exact Nb; apply Sz]. }
    exists s'. split; [exact E|].
    assert (Old : bufs s' (package_buf i) = d).
    { rewrite a2; [rewrite b1; unfold s1; apply bufs_set_same|]. intros j d' Hj _ W. apply pkg_inj in W; lia. }
    constructor.
    + intros j d' Hj Ej. destruct (Nat.eq_dec j i) as [->|Nj]; [rewrite Ec in Ej; injection Ej as <-; exact Old|]. apply a1; [lia|exact Ej].
    + intros b Hb. rewrite a2; [|intros j d' Hj Ej; apply (Hb j d'); [lia|exact Ej]]. rewrite b1. unfold s1. apply bufs_set_other. apply (Hb i d); [lia|exact Ec].
    + intros j d' k Hj Ej Ek'. destruct (Nat.eq_dec j i) as [->|Nj]; [apply a5; apply b2; exact Ek'|]. apply (a3 j d'); [lia|exact Ej|exact Ek'].
    + intros j d' k Hj Ej Ek'. destruct (Nat.eq_dec j i) as [->|Nj]; [apply a5'; apply (b3 k); exact Ek'|]. apply (a4 j d' k); [lia|exact Ej|exact Ek'].
    + split; [intros k Hk; apply a5; apply b4; exact Hk|intro Hk; apply a5'; apply b5; exact Hk].
    + repeat split; congruence.
Qed.

Lemma lor_word high low : 0 <= high < 2 ^ 32 -> 0 <= low < 2 ^ 32 -> Z.lor (Z.shiftl high 32) low = high * 2 ^ 32 + low.
Proof.
  intros Hh Hl. assert (L : Z.land (Z.shiftl high 32) low = 0).
  { apply Z.bits_inj'. intros n Hn. rewrite Z.land_spec, Z.bits_0, Z.shiftl_spec by lia. destruct (Z.ltb_spec n 32).
    - rewrite Z.testbit_neg_r by lia. reflexivity.
    - replace low with (low mod 2 ^ 32) by (apply Z.mod_small; lia). rewrite Z.mod_pow2_bits_high by lia. apply andb_false_r. }
  rewrite <- Z.shiftl_mul_pow2 by lia. rewrite <- (Z.add_nocarry_lxor _ _ L) || idtac. symmetry. rewrite Z.add_nocarry_lxor by exact L. apply Z.lxor_lor. exact L.
Qed.
Lemma pad_len n : Z.to_nat (nth (Z.to_nat (Z.land (Z.of_nat n) 3)) [0; 3; 2; 1] 0) = ((4 - n mod 4) mod 4)%nat.
Proof.
  change 3 with (Z.ones 2). rewrite Z.land_ones by lia. change (2 ^ 2) with 4.
  assert (Q : Z.to_nat (Z.of_nat n mod 4) = (n mod 4)%nat) by (change 4 with (Z.of_nat 4); rewrite <- Nat2Z.inj_mod; apply Nat2Z.id). rewrite Q.
  assert (M : (n mod 4 < 4)%nat) by (apply Nat.mod_upper_bound; lia).
  destruct (n mod 4)%nat as [|[|[|[|k]]]]; try reflexivity. lia.
Qed.
Lemma load_body_ok p s h high low prg contents tail : page_ok p -> well_formed s -> packed_ok contents -> word_for high low contents ->
  zlen prg <= 524288 -> u32le h 48 = high -> u32le h 52 = low -> u32le h 56 = zlen prg ->
  exists s', load_body p s h (prg ++ padding (length prg) ++ packs contents ++ tail) = Ok (zlen prg, s') /\
    program s' = prg /\ prg_len s' = zlen prg /\ prgname s' = cstr (firstn 8 (skipn 12 h)) /\ package s' = package_text (high * 2 ^ 32 + low) /\
    (forall i d, (i < 45)%nat -> contents i = Some d -> bufs s' (package_buf i) = d) /\
    (forall b, b <> Prg -> (forall i d, (i < 45)%nat -> contents i = Some d -> b <> package_buf i) -> bufs s' b = bufs s b) /\
    (forall i d k, (i < 45)%nat -> contents i = Some d -> (package_buf i = Chr k -> regen_chr s' k = true) /\ (package_buf i = Col k -> regen_col s' = true)) /\
    disk s' = disk s /\ search_path s' = search_path s /\ mem_len s' = mem_len s.
Proof.
  intros Hp WF Pk (Hh & Hl & Wd) Lp E1 E2 E3. unfold load_body. rewrite E1, E2, E3. cbv zeta.
  assert (Zp : Z.to_nat (zlen prg) = length prg) by (unfold zlen; lia). rewrite Zp.
  rewrite (first_app prg _ _ eq_refl), (skip_app prg _ _ eq_refl). unfold MAX_SOURCE_SIZE. destruct (Z.gtb_spec (zlen prg) 524288); [lia|].
  assert (Ss : s32 (zlen prg) = zlen prg). { unfold s32. change (2 ^ 31) with 2147483648. change (2 ^ 32) with 4294967296. unfold zlen in *. lia. }
  rewrite Ss, Z.ltb_irrefl. change (Z.land (zlen prg) 3) with (Z.land (Z.of_nat (length prg)) 3). rewrite pad_len. rewrite (skip_app (padding (length prg)) _ _ (repeat_length _ _)).
  rewrite (lor_word high low Hh Hl).
  match goal with |- context [load_packages p _ 45 0 _ ?x] => set (s1 := x) end.
  assert (Sz : forall b, zlen (bufs s1 b) = size_of b).
  { intro b. unfold s1, set_names, set_prg_len. cbn [bufs]. destruct (buf_eq_dec b Prg) as [->|Nb].
    - rewrite bufs_set_same. unfold overlay, zlen. rewrite app_length, skipn_length. assert (Q := wf_size _ WF Prg). cbn [size_of] in *. unfold zlen in *. lia.
    - rewrite bufs_set_other by exact Nb. apply (wf_size _ WF). }
  destruct (load_packages_ok p (high * 2 ^ 32 + low) contents Hp Pk Wd 45 0 s1 tail ltac:(lia) Sz) as (s' & E & [a1 a2 a3 a4 a5 (c1 & c2 & c3 & c4 & c5 & c6 & c7)]).
  change (flat_map (pack1 contents) (seq 0 45)) with (packs contents) in E. rewrite E. cbn [bind]. exists s'. split; [reflexivity|].
  assert (Np : forall i, (i < 45)%nat -> package_buf i <> Prg). { intros i Hi. destruct (pkg_info p i Hp Hi) as (_ & _ & _ & _ & N & _). exact N. }
  split. { unfold program. rewrite c3. unfold s1. cbn [set_names set_prg_len prg_len]. rewrite Zp. rewrite a2; [|intros j d Hj _ W; apply (Np j); [lia|symmetry; exact W]].
    unfold s1, set_names, set_prg_len. cbn [bufs]. rewrite bufs_set_same. unfold overlay. apply first_app. reflexivity. }
  split; [rewrite c3; reflexivity|]. split; [rewrite c6; reflexivity|]. split; [rewrite c7; reflexivity|].
  split; [intros i d Hi Ei; apply a1; [lia|exact Ei]|].
  split. { intros b Nb Hb. rewrite a2; [|intros j d Hj Ej; apply (Hb j d); [lia|exact Ej]]. unfold s1, set_names, set_prg_len. cbn [bufs]. apply bufs_set_other. exact Nb. }
  split; [|rewrite c1, c2, c4; repeat split].
  intros i d k Hi Ei. split; intro Ek; [apply (a3 i d); [lia|exact Ei|exact Ek]|apply (a4 i d k); [lia|exact Ei|exact Ek]].
Qed.
