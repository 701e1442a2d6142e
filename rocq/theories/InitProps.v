(** C56: CHRINIT and COLINIT. *)
From Coq Require Import String Ascii.
From Verif Require Import Base BaseLemmas Strs Memory Resources ResourcesSpec ResourcesProofs ResourcesProps Files FilesSpec FilesProofs FilesProps.
Ltac Zify.zify_post_hook ::= Z.div_mod_to_equations.
Open Scope Z_scope.

(** the original characters of bank [b] of [base] *)
Definition original (base : list Z) (b : Z) : list Z := path_of (text "resources/") (base ++ [48 + b]).
Inductive chr_name (base : list Z) : list Z -> Z -> Prop :=
| cn_bank b : chr_name base (base ++ [48 + b]) b
| cn_page b pg : chr_name base (base ++ [48 + b; pg]) b.
Lemma chrinit_eq p s base n pgs t b k : page_ok p -> In (base, n, pgs) kinds -> 0 <= b < n -> type_name t -> chr_name base t b ->
  get_resource_ptr p t = Ok (Chr k) ->
  cmd_chrinit p s (SBc t) = match check_load_file (disk s) (bufs s (Chr k)) (text "resources/") (base ++ [48 + b]) with
    | Ok (m, d) => if m =? 0 then (set_buf s (Chr k) d, Raised ERR_FILE_LOAD_FAILED) else (set_regen_chr (set_buf s (Chr k) d) k, Done)
    | _ => (s, Crash) end /\ file_name (base ++ [48 + b]) /\ 0 <= k < 44.
Proof.
  intros Hp I Hb T CN E. destruct (C41_chr_partial p t Hp T) as (b' & E1 & E2). rewrite E in E2. injection E2 as <-.
  assert (L4 : (4 <= length t)%nat).
  { assert (length base = 3%nat) by (unfold kinds in I; repeat (destruct I as [I|I]; [injection I as <- _ _; reflexivity|]); destruct I).
    destruct CN; rewrite app_length; cbn [length]; lia. }
  assert (Ix := C41_redraw_partial p t k Hp T L4 E).
  assert (Rk : 0 <= k < 44). { destruct (C41_buffer p t Hp (or_introl T)) as (x & Ex & Kx). rewrite E in Ex. injection Ex as <-. cbn [kind_ok] in Kx. lia. }
  assert (Dg : 48 <= 48 + b <= 57 /\ length base = 3%nat /\ Forall name_char base /\ ~ In 0 base).
  { unfold kinds in I; repeat (destruct I as [I|I]; [injection I as <- <- _; split; [lia|split; [reflexivity|split; [cbn; repeat constructor; unfold name_char; lia|cbn; lia]]]|]). destruct I. }
  destruct Dg as (D1 & D2 & D3 & D4).
  assert (Nm : cstr [at_ t 0; at_ t 1; at_ t 2; if at_ t 3 =? 0 then 48 else at_ t 3] = base ++ [48 + b]).
  { destruct base as [|x0 [|x1 [|x2 [|? ?]]]]; try discriminate D2. cbn [In] in D4.
    assert (A : at_ t 0 = x0 /\ at_ t 1 = x1 /\ at_ t 2 = x2 /\ at_ t 3 = 48 + b) by (destruct CN; repeat split; reflexivity). destruct A as (-> & -> & -> & ->).
    destruct (Z.eqb_spec (48 + b) 0); [lia|]. cbn [cstr app].
    destruct (Z.eqb_spec x0 0) as [V|_]; [exfalso; apply D4; left; exact V|]. destruct (Z.eqb_spec x1 0) as [V|_]; [exfalso; apply D4; right; left; exact V|].
    destruct (Z.eqb_spec x2 0) as [V|_]; [exfalso; apply D4; right; right; left; exact V|]. destruct (Z.eqb_spec (48 + b) 0); [lia|]. reflexivity. }
  split; [|split; [|exact Rk]].
  - unfold cmd_chrinit. rewrite E1. cbn [i_id kind_of i_type i_data]. cbv zeta. rewrite Nm. change resource_path with (text "resources/").
    destruct (check_load_file (disk s) (bufs s (Chr k)) (text "resources/") (base ++ [48 + b])) as [[m d]| |]; try reflexivity.
    destruct (m =? 0); [reflexivity|]. unfold mark_chr. rewrite Ix. cbn [bind]. destruct (Z.leb_spec 0 k); [|lia]. destruct (Z.ltb_spec k 44); [|lia]. reflexivity.
  - split; [rewrite app_length, D2; cbn; lia|]. apply Forall_app. split; [exact D3|]. constructor; [unfold name_char; lia|constructor].
Qed.
(** CHRINIT restores exactly the named bank and has it redrawn *)
Theorem C56_chrinit : forall p s base n pgs t b k c data, well_formed s -> page_ok p -> In (base, n, pgs) kinds -> 0 <= b < n -> type_name t -> chr_name base t b ->
  get_resource_ptr p t = Ok (Chr k) -> file (disk s) (original base b) = Some c -> plain_file data c -> zlen data = 8192 ->
  exists s', cmd_chrinit p s (SBc t) = (s', Done) /\ bufs s' (Chr k) = data /\ other_buffers s s' (Chr k) /\ regen_chr s' k = true /\ same_files s s' /\ result s' = result s.
Proof.
  intros p s base n pgs t b k c data WF Hp I Hb T CN E Ef P L. destruct (chrinit_eq p s base n pgs t b k Hp I Hb T CN E) as (Q & F & _).
  rewrite Q. rewrite (load_plain (disk s) _ _ _ data c); [|cbn; lia|exact F|exact P| |exact Ef].
  - rewrite L. change (8192 =? 0) with false. eexists. split; [reflexivity|]. split; [apply bufs_set_same|]. split; [intros x Nx; apply (bufs_set_other s _ _ _ Nx)|].
    split; [cbn; rewrite Z.eqb_refl; reflexivity|]. split; [intro q; reflexivity|reflexivity].
  - assert (W := wf_size _ WF (Chr k)). cbn [size_of] in W. unfold zlen in *. lia.
Qed.
(** without the file: an error, and nothing is changed *)
Theorem C56_chrinit_missing : forall p s base n pgs t b k, page_ok p -> In (base, n, pgs) kinds -> 0 <= b < n -> type_name t -> chr_name base t b ->
  get_resource_ptr p t = Ok (Chr k) -> file (disk s) (original base b) = None ->
  exists s', cmd_chrinit p s (SBc t) = (s', Raised ERR_FILE_LOAD_FAILED) /\ (forall x, bufs s' x = bufs s x) /\ same_files s s'.
Proof.
  intros p s base n pgs t b k Hp I Hb T CN E Ef. destruct (chrinit_eq p s base n pgs t b k Hp I Hb T CN E) as (Q & F & _).
  rewrite Q. rewrite load_none; [|cbn; lia|exact F|intros c W; unfold original in Ef; congruence].
  eexists. split; [reflexivity|]. split; [|intro q; reflexivity].
  intro x. destruct (buf_eq_dec x (Chr k)) as [->|N]; [apply bufs_set_same|apply bufs_set_other; exact N].
Qed.
Example C56_chrinit_ok : In (text "SPS", 2, Some [85; 76]) kinds /\ type_name (text "SPS1L") /\ chr_name (text "SPS") (text "SPS1L") 1 /\
  get_resource_ptr (mkPages 0 0 0) (text "SPS1L") = Ok (Chr 43) /\ original (text "SPS") 1 = text "resources/SPS1.PTC".
Proof.
  split; [cbn; auto 10|]. split. { change (text "SPS1L") with (text "SPS" ++ [48 + 1; 76]). eapply type_page with (n := 2) (pgs := [85; 76]); [cbn; auto 20|lia|cbn; auto]. }
  split; [apply (cn_page (text "SPS") 1 76)|]. split; reflexivity.
Qed.

(** COLINIT without arguments restores all six palettes *)
Definition original_col (k : Z) : list Z := path_of (text "resources/") (text "COL" ++ [48 + k]).
Lemma load_col_ok s k m c data : (forall b, zlen (bufs s b) = size_of b) -> 0 <= m < 3 -> file (disk s) (original_col m) = Some c -> plain_file data c -> zlen data = 512 ->
  load_col s (Col k) (text "COL" ++ [48 + m]) = Ok (set_buf s (Col k) data).
Proof.
  intros Sz Hm Ef P L. unfold load_col. rewrite (load_plain (disk s) _ resource_path _ data c); [reflexivity|cbn; lia| |exact P| |exact Ef].
  - split; [cbn; lia|]. change (text "COL" ++ [48 + m]) with [67; 79; 76; 48 + m]. repeat constructor; unfold name_char; lia.
  - assert (W := Sz (Col k)). cbn [size_of] in W. unfold zlen in *. lia.
Qed.
Theorem C56_colinit_all : forall p s c data, well_formed s -> (forall m, 0 <= m < 3 -> file (disk s) (original_col m) = Some (c m) /\ plain_file (data m) (c m) /\ zlen (data m) = 512) ->
  exists s', cmd_colinit p s None = (s', Done) /\ (forall k, 0 <= k < 6 -> bufs s' (Col k) = data (k mod 3)) /\
    (forall b, (forall k, 0 <= k < 6 -> b <> Col k) -> bufs s' b = bufs s b) /\ regen_col s' = true /\ same_files s s'.
Proof.
  intros p s c data WF Hf.
  assert (Step : forall s k, 0 <= k < 6 -> (forall b, zlen (bufs s b) = size_of b) -> (forall m, 0 <= m < 3 -> file (disk s) (original_col m) = Some (c m)) ->
     load_col s (Col k) (zs "COL" ++ [48 + k mod 3]) = Ok (set_buf s (Col k) (data (k mod 3))) /\ (forall b, zlen (bufs (set_buf s (Col k) (data (k mod 3))) b) = size_of b)).
  { intros s0 k Hk Sz Hd. assert (Hm : 0 <= k mod 3 < 3) by lia. destruct (Hf _ Hm) as (_ & P & L). split.
    - apply (load_col_ok s0 k (k mod 3) (c (k mod 3))); auto.
    - intro b. destruct (buf_eq_dec b (Col k)) as [->|N]; [rewrite bufs_set_same; exact L|rewrite bufs_set_other by exact N; apply Sz]. }
  assert (Hd : forall m, 0 <= m < 3 -> file (disk s) (original_col m) = Some (c m)) by (intros m Hm; apply Hf; exact Hm).
  unfold cmd_colinit, init_col. cbn [fold_left bind].
  destruct (Step s 0 ltac:(lia) (wf_size _ WF) Hd) as (E0 & Z0). rewrite E0. cbn [bind].
  destruct (Step _ 1 ltac:(lia) Z0 Hd) as (E1 & Z1). rewrite E1. cbn [bind].
  destruct (Step _ 2 ltac:(lia) Z1 Hd) as (E2 & Z2). rewrite E2. cbn [bind].
  destruct (Step _ 3 ltac:(lia) Z2 Hd) as (E3 & Z3). rewrite E3. cbn [bind].
  destruct (Step _ 4 ltac:(lia) Z3 Hd) as (E4 & Z4). rewrite E4. cbn [bind].
  destruct (Step _ 5 ltac:(lia) Z4 Hd) as (E5 & Z5). rewrite E5.
  eexists. split; [reflexivity|]. cbn [set_regen_col bufs regen_col].
  split; [|split; [|split; [reflexivity|intro q; reflexivity]]].
  - intros k Hk.
    destruct (Z.eq_dec k 5) as [->|N5]; [apply bufs_set_same|rewrite bufs_set_other by congruence].
    destruct (Z.eq_dec k 4) as [->|N4]; [apply bufs_set_same|rewrite bufs_set_other by congruence].
    destruct (Z.eq_dec k 3) as [->|N3]; [apply bufs_set_same|rewrite bufs_set_other by congruence].
    destruct (Z.eq_dec k 2) as [->|N2]; [apply bufs_set_same|rewrite bufs_set_other by congruence].
    destruct (Z.eq_dec k 1) as [->|N1]; [apply bufs_set_same|rewrite bufs_set_other by congruence].
    assert (k = 0) as -> by lia. apply bufs_set_same.
  - intros b N. rewrite !bufs_set_other; [reflexivity| | | | | |]; apply N; lia.
Qed.
(** COLINIT with a layer restores the palette of the layer's current page *)
Inductive layer_palette (p : pages) : list Z -> Z -> Z -> Prop :=
| lp_bg : layer_palette p (text "BG") (3 * bg_page p + 0) 0
| lp_sp : layer_palette p (text "SP") (3 * sp_page p + 1) 1
| lp_grp : layer_palette p (text "GRP") (3 * grp_screen p + 2) 2.
Theorem C56_colinit_layer : forall p s name k m c data, well_formed s -> page_ok p -> layer_palette p name k m -> file (disk s) (original_col m) = Some c -> plain_file data c -> zlen data = 512 ->
  exists s', cmd_colinit p s (Some (name, None)) = (s', Done) /\ bufs s' (Col k) = data /\ other_buffers s s' (Col k) /\ regen_col s' = true /\ same_files s s'.
Proof.
  intros p s name k m c data WF Hp LP Ef P L.
  assert (X : get_col_resource p name = Ok (Col k) /\ (let c := nth 0 name 0 in if c =? 66 then 48 else if c =? 83 then 49 else if c =? 71 then 50 else c) = 48 + m /\ 0 <= m < 3).
  { apply in_pages in Hp. destruct LP; (repeat (destruct Hp as [<-|Hp]; [split; [reflexivity|split; [reflexivity|lia]]|]); destruct Hp). }
  destruct X as (X1 & X2 & X3). unfold cmd_colinit. cbv zeta in *. rewrite X1, X2. change (zs "COL" ++ [48 + m]) with (text "COL" ++ [48 + m]). rewrite (load_col_ok s k m c data (wf_size _ WF) X3 Ef P L).
  eexists. split; [reflexivity|]. split; [apply bufs_set_same|]. split; [intros b N; apply (bufs_set_other s _ _ _ N)|]. split; [reflexivity|intro q; reflexivity].
Qed.
Theorem C56_colinit_other : forall p s name color, ~ In name [text "BG"; text "SP"; text "GRP"] -> cmd_colinit p s (Some (name, color)) = (s, Raised ERR_INVALID_RESOURCE_TYPE).
Proof.
  intros p s name color N. unfold cmd_colinit, get_col_resource. cbn [In] in N.
  rewrite !path_eqb_neq; [reflexivity| | |]; intro W; apply N; rewrite W; cbn; auto.
Qed.
(** COLINIT with a colour never works: the interpreter stops *)
Theorem C56_colinit_color_refuted : forall p s name color k m, page_ok p -> layer_palette p name k m -> cmd_colinit p s (Some (name, Some color)) = (s, Crash).
Proof.
  intros p s name color k m Hp LP. unfold cmd_colinit.
  assert (X : get_col_resource p name = Ok (Col k)) by (apply in_pages in Hp; destruct LP; (repeat (destruct Hp as [<-|Hp]; [reflexivity|]); destruct Hp)).
  rewrite X. reflexivity.
Qed.
Example C56_colinit_ok : layer_palette (mkPages 1 0 0) (text "BG") 3 0 /\ original_col 0 = text "resources/COL0.PTC".
Proof. split; [apply (lp_bg (mkPages 1 0 0))|reflexivity]. Qed.
Print Assumptions C56_chrinit.
Print Assumptions C56_colinit_all.
Print Assumptions C56_colinit_layer.
