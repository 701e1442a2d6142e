(** C41: resource names. *)
From Coq Require Import String Ascii.
From Verif Require Import Base BaseLemmas Strs StrProofs Resources ResourcesSpec ResourcesProofs.
Ltac Zify.zify_post_hook ::= Z.div_mod_to_equations.
Open Scope Z_scope.

(** exactly what is accepted *)
Theorem C41_accepts : forall s, ~ In 0 s ->
  verify_resource_name s = true <-> resource_name (fun t => type_name t \/ lax_type_name t) s.
Proof. exact accepts_spec. Qed.
(** every documented name is accepted *)
Theorem C41_documented : forall s, ~ In 0 s -> resource_name (fun t => type_name t \/ In t unbanked) s -> verify_resource_name s = true.
Proof.
  intros s Z0 [F|(t & n & E & T & F)]; apply C41_accepts; [exact Z0|left; exact F|exact Z0|].
  right. exists t, n. split; [exact E|]. split; [|exact F]. destruct T as [T|T]; [left; exact T|right].
  rewrite <- (app_nil_r t). apply lax_any; [exact T|cbn; lia|intros []].
Qed.
Example C41_documented_ok : resource_name (fun t => type_name t \/ In t unbanked) (text "SPS1L:HERO_2").
Proof.
  right. exists (text "SPS1L"), (text "HERO_2"). split; [reflexivity|]. split.
  - left. change (text "SPS1L") with (text "SPS" ++ [48 + 1; 76]). eapply type_page with (n := 2) (pgs := [85; 76]); [cbn; auto 20|lia|cbn; auto].
  - split; [cbn; lia|]. cbn. repeat constructor; unfold name_char; lia.
Qed.
(** some others are accepted as well *)
Theorem C41_lax_refuted : exists s, ~ In 0 s /\ verify_resource_name s = true /\ ~ resource_name (fun t => type_name t \/ In t unbanked) s.
Proof.
  exists (text "GRP0X:A"). split; [cbn; lia|]. split; [reflexivity|].
  assert (X : ~ In 58 (text "GRP0X")) by (cbn; lia).
  intros [(_ & F)|(t & n & E & T & F)].
  - rewrite Forall_forall in F. assert (name_char 58) as Y by (apply F; cbn; auto 10). unfold name_char in Y. lia.
  - assert (X' : ~ In 58 t).
    { destruct T as [T|T]; [apply type_name_noSep; left; exact T|]. destruct T as [<-|[<-|[]]]; cbn; lia. }
    change (text "GRP0X:A") with (text "GRP0X" ++ [58] ++ [65]) in E.
    assert (L : length t = 5%nat).
    { assert (strchr (text "GRP0X" ++ [58] ++ [65]) = Some 5%nat) as A by reflexivity.
      rewrite E, (strchr_app t n X') in A. injection A as A. exact A. }
    assert (t = text "GRP0X") as ->.
    { assert (firstn (length t) (t ++ [58] ++ n) = t) as Q by (rewrite firstn_app, firstn_all, Nat.sub_diag; cbn [firstn]; apply app_nil_r).
      rewrite <- E, L in Q. rewrite <- Q. reflexivity. }
    destruct T as [T|[W|[W|[]]]]; [|discriminate W|discriminate W].
    inversion T as [base k pgs I Eb|base k pgs b I B Eb|base k pgs b pg I B P Eb].
    + subst base. unfold kinds in I. repeat (destruct I as [I|I]; [discriminate I|]). destruct I.
    + unfold kinds in I. repeat (destruct I as [I|I]; [injection I as <- _ _; apply (f_equal (@List.length Z)) in Eb; discriminate Eb|]). destruct I.
    + unfold kinds in I. repeat (destruct I as [I|I]; [injection I as <- _ <-; discriminate Eb|]).
      destruct I as [I|[]]. discriminate I.
Qed.

(** ** Buffers *)
Definition all_names : list (list Z) :=
  flat_map (fun '(base, n, pgs) => base :: flat_map (fun b => (base ++ [48 + b]) :: map (fun pg => base ++ [48 + b; pg])
     (match pgs with Some l => l | None => [] end)) (map Z.of_nat (seq 0 (Z.to_nat n)))) kinds.
Lemma in_all t : type_name t -> In t all_names.
Proof.
  assert (B : forall n b, 0 <= b < n -> In b (map Z.of_nat (seq 0 (Z.to_nat n)))).
  { intros n b Hb. apply in_map_iff. exists (Z.to_nat b). split; [lia|]. apply in_seq. lia. }
  intros [base n pgs I|base n pgs b I Hb|base n pgs b pg I Hb P]; unfold all_names; apply in_flat_map; eexists; (split; [exact I|]); cbv beta iota.
  - left. reflexivity.
  - right. apply in_flat_map. exists b. split; [apply B; exact Hb|left; reflexivity].
  - right. apply in_flat_map. exists b. split; [apply B; exact Hb|right]. apply in_map_iff. exists pg. split; [reflexivity|exact P].
Qed.
Definition page_ok (p : pages) : Prop := (bg_page p = 0 \/ bg_page p = 1) /\ (sp_page p = 0 \/ sp_page p = 1) /\ (grp_screen p = 0 \/ grp_screen p = 1).
Definition all_pages : list pages :=
  [mkPages 0 0 0; mkPages 0 0 1; mkPages 0 1 0; mkPages 0 1 1; mkPages 1 0 0; mkPages 1 0 1; mkPages 1 1 0; mkPages 1 1 1].
Lemma in_pages p : page_ok p -> In p all_pages.
Proof. destruct p as [a b c]. intros ([A|A] & [B|B] & [C|C]); cbn in A, B, C; subst; cbn; auto 20. Qed.
Lemma check (f : pages -> list Z -> bool) : forallb (fun p => forallb (f p) all_names) all_pages = true ->
  forall p t, page_ok p -> type_name t -> f p t = true.
Proof.
  intros E p t Hp Ht. rewrite forallb_forall in E. specialize (E p (in_pages p Hp)). cbv beta in E.
  rewrite forallb_forall in E. apply E. apply in_all. exact Ht.
Qed.

(** the kind of buffer a type must designate *)
Definition kind_ok (t : list Z) (b : buf) : bool :=
  match b with
  | Chr i => ((at_ t 0 =? 66) || ((at_ t 0 =? 83) && (at_ t 1 =? 80))) && (0 <=? i) && (i <? 44)
  | Scr i => (at_ t 0 =? 83) && (at_ t 1 =? 67) && (0 <=? i) && (i <? 8)
  | Col i => (at_ t 0 =? 67) && (0 <=? i) && (i <? 6)
  | Grp i => (at_ t 0 =? 71) && (0 <=? i) && (i <? 4)
  | Prg => at_ t 0 =? 80
  | Mem => at_ t 0 =? 77
  end.
(** every accepted type designates an existing buffer of its kind *)
Theorem C41_buffer : forall p t, page_ok p -> type_name t \/ lax_type_name t ->
  exists b, get_resource_ptr p t = Ok b /\ kind_ok t b = true.
Proof.
  intros p t Hp [T|T].
  - assert (K := check (fun p t => match get_resource_ptr p t with Ok b => kind_ok t b | _ => false end) eq_refl p t Hp T).
    cbv beta in K. destruct (get_resource_ptr p t) as [b| |]; [|discriminate K|discriminate K]. exists b. auto.
  - destruct T as [base rest I L X|b pg B P].
    + unfold get_resource_ptr. cbv zeta. match goal with |- context [let '(_, _) := ?e in _] => destruct e as [bk sc] end.
      destruct I as [<-|[<-|[]]]; eexists; (split; [reflexivity|reflexivity]).
    + unfold get_resource_ptr. cbv zeta. match goal with |- context [let '(_, _) := ?e in _] => destruct e as [bk sc] eqn:E end.
      assert (bk = b).
      { change (at_ (text "GRP" ++ [48 + b; pg]) 3) with (48 + b) in E. destruct (Z.eqb_spec (48 + b) 0); [lia|].
        unfold SEP in E. destruct (Z.eqb_spec (48 + b) 58); [lia|]. cbn [orb] in E.
        apply (f_equal fst) in E. cbn [fst] in E. unfold schar, s8 in E. change (2 ^ 7) with 128 in E. change (2 ^ 8) with 256 in E. lia. }
      subst bk. exists (Grp b). split; [|unfold kind_ok; change (at_ (text "GRP" ++ [48 + b; pg]) 0) with 71; change (71 =? 71) with true; lia].
      change (same3 (zs "BGU") (text "GRP" ++ [48 + b; pg])) with false.
      change (same3 (zs "BGF") (text "GRP" ++ [48 + b; pg])) with false.
      change (same3 (zs "BGD") (text "GRP" ++ [48 + b; pg])) with false.
      change (same3 (zs "SPD") (text "GRP" ++ [48 + b; pg])) with false.
      change (same3 (zs "SPK") (text "GRP" ++ [48 + b; pg])) with false.
      change (same3 (zs "SPS") (text "GRP" ++ [48 + b; pg])) with false.
      change (same3 (zs "SPU") (text "GRP" ++ [48 + b; pg])) with false.
      change (same3 (zs "SCU") (text "GRP" ++ [48 + b; pg])) with false.
      change (same3 (zs "COL") (text "GRP" ++ [48 + b; pg])) with false.
      change (same3 (zs "PRG") (text "GRP" ++ [48 + b; pg])) with false.
      change (same3 (zs "MEM") (text "GRP" ++ [48 + b; pg])) with false.
      change (same3 (zs "GRP") (text "GRP" ++ [48 + b; pg])) with true. cbv iota.
      unfold grp_table, table, GRP_BANKS. destruct (Z.leb_spec 0 b); [|lia]. destruct (Z.ltb_spec b 4); [|lia]. reflexivity.
Qed.
Definition buf_eqb (a b : buf) : bool :=
  match a, b with
  | Chr i, Chr j | Scr i, Scr j | Col i, Col j | Grp i, Grp j => i =? j
  | Prg, Prg | Mem, Mem => true
  | _, _ => false
  end.
Fixpoint list_eqb (a b : list Z) : bool :=
  match a, b with [], [] => true | x :: a, y :: b => (x =? y) && list_eqb a b | _, _ => false end.
Lemma list_eqb_eq a : forall b, list_eqb a b = true -> a = b.
Proof.
  induction a as [|x a IH]; intros [|y b] E; cbn in E; try discriminate E; [reflexivity|].
  apply andb_true_iff in E. destruct E as [E1 E2]. apply Z.eqb_eq in E1. rewrite (IH b E2), E1. reflexivity.
Qed.
(** names with bank and page, or a GRP bank, designate different buffers *)
Definition explicit (t : list Z) : bool := (zlen t =? 5) || ((zlen t =? 4) && (at_ t 0 =? 71)).
Theorem C41_distinct : forall p t1 t2 b, page_ok p -> type_name t1 -> type_name t2 -> explicit t1 = true -> explicit t2 = true ->
  get_resource_ptr p t1 = Ok b -> get_resource_ptr p t2 = Ok b -> t1 = t2.
Proof.
  intros p t1 t2 b Hp T1 T2 X1 X2 E1 E2.
  assert (K := check (fun p t1 => forallb (fun t2 => negb (explicit t1) || negb (explicit t2) ||
      match get_resource_ptr p t1, get_resource_ptr p t2 with Ok x, Ok y => negb (buf_eqb x y) || list_eqb t1 t2 | _, _ => false end) all_names)
      ltac:(vm_compute; reflexivity) p t1 Hp T1).
  cbv beta in K. rewrite forallb_forall in K. specialize (K t2 (in_all t2 T2)). cbv beta in K.
  rewrite X1, X2, E1, E2 in K. cbn [negb orb] in K. apply list_eqb_eq.
  destruct (buf_eqb b b) eqn:Q; [exact K|]. destruct b; cbn in Q; try discriminate Q; rewrite Z.eqb_refl in Q; discriminate Q.
Qed.
(** SCUn names the map that BGPUT and the other commands of layer n draw on, GRPn the graphics page n *)
(** background.c:40-42: the map of a layer, as an index of the screen buffers *)
Definition bg_map (page layer : Z) : Z := 4 * page + 2 + layer.
Theorem C41_screens : forall p layer, page_ok p -> 0 <= layer <= 1 ->
  get_resource_ptr p (text "SCU" ++ [48 + layer]) = Ok (Scr (bg_map (bg_page p) layer)) /\
  get_resource_ptr p (text "SCU" ++ [48 + layer; 85]) = Ok (Scr (bg_map 0 layer)) /\
  get_resource_ptr p (text "SCU" ++ [48 + layer; 76]) = Ok (Scr (bg_map 1 layer)).
Proof.
  intros p layer Hp HL. apply in_pages in Hp. assert (layer = 0 \/ layer = 1) as [-> | ->] by lia;
  repeat (destruct Hp as [<-|Hp]; [repeat split; reflexivity|]); destruct Hp.
Qed.
Theorem C41_graphics_pages : forall p n, 0 <= n <= 3 -> get_resource_ptr p (text "GRP" ++ [48 + n]) = Ok (Grp n).
Proof. intros p n H. assert (n = 0 \/ n = 1 \/ n = 2 \/ n = 3) as [-> |[-> |[-> | ->]]] by lia; reflexivity. Qed.
(** without a page letter the current page of the layer is meant *)
Definition current_page (p : pages) (base : list Z) (bank : Z) : Z :=
  if list_eqb base (text "SPU") then 0 else if list_eqb base (text "SPD") then 1
  else if list_eqb base (text "SPS") then sp_page p
  else if list_eqb base (text "COL") then (if bank =? 0 then bg_page p else if bank =? 1 then sp_page p else grp_screen p)
  else bg_page p.
Theorem C41_default_page : forall p base n pgs b, page_ok p -> In (base, n, Some pgs) kinds -> 0 <= b < n ->
  get_resource_ptr p (base ++ [48 + b]) = get_resource_ptr p (base ++ [48 + b; if current_page p base b =? 0 then 85 else 76]).
Proof.
  intros p base n pgs b Hp I Hb.
  assert (K : forallb (fun p => forallb (fun '(base, n, pgs) => match pgs with None => true | Some _ =>
      forallb (fun b => match get_resource_ptr p (base ++ [48 + b]), get_resource_ptr p (base ++ [48 + b; if current_page p base b =? 0 then 85 else 76]) with
        Ok x, Ok y => buf_eqb x y | _, _ => false end) (map Z.of_nat (seq 0 (Z.to_nat n))) end) kinds) all_pages = true) by (vm_compute; reflexivity).
  rewrite forallb_forall in K. specialize (K p (in_pages p Hp)). cbv beta in K.
  rewrite forallb_forall in K. specialize (K _ I). cbv beta iota in K.
  rewrite forallb_forall in K. specialize (K b). cbv beta in K.
  assert (Ib : In b (map Z.of_nat (seq 0 (Z.to_nat n)))).
  { apply in_map_iff. exists (Z.to_nat b). split; [lia|]. apply in_seq. lia. }
  specialize (K Ib). destruct (get_resource_ptr p (base ++ [48 + b])) as [x| |]; try discriminate K.
  destruct (get_resource_ptr p (base ++ [48 + b; _])) as [y| |]; try discriminate K. f_equal.
  destruct x, y; cbn in K; try discriminate K; try reflexivity; apply Z.eqb_eq in K; subst; reflexivity.
Qed.
Example C41_default_page_ok : page_ok (mkPages 1 0 0) /\ get_resource_ptr (mkPages 1 0 0) (text "BGU2") = Ok (Chr 32).
Proof. split; [unfold page_ok; cbn; auto|reflexivity]. Qed.
(** without a bank, however, the upper screen is meant whatever the current page: TYPE is not TYPE0 *)
Theorem C41_default_bank_refuted : forall p, bg_page p = 1 ->
  get_resource_ptr p (text "BGU") = Ok (Chr 8) /\ get_resource_ptr p (text "BGU0") = Ok (Chr 30) /\ get_chr_index p (text "BGU") = Ok 30.
Proof. intros [a b c] E. cbn in E. subst a. repeat split; reflexivity. Qed.
(** the characters redrawn after LOAD or CHRSET are those of the changed buffer, if the bank was given *)
Theorem C41_redraw_partial : forall p t i, page_ok p -> type_name t -> (4 <= length t)%nat ->
  get_resource_ptr p t = Ok (Chr i) -> get_chr_index p t = Ok i.
Proof.
  intros p t i Hp T L E.
  assert (K := check (fun p t => if zlen t <? 4 then true else match get_resource_ptr p t with
      Ok (Chr i) => match get_chr_index p t with Ok j => i =? j | _ => false end | _ => true end) eq_refl p t Hp T).
  cbv beta in K. unfold zlen in K. destruct (Z.ltb_spec (Z.of_nat (length t)) 4); [lia|]. rewrite E in K.
  destruct (get_chr_index p t) as [j| |]; [|discriminate K|discriminate K]. f_equal. lia.
Qed.

(** ** LOAD and SAVE: every string is either refused or designates a buffer of the right kind *)
Definition good_str (s : str) : Prop :=
  match s with SChar b | SBc b => Forall (fun c => 0 <= c < 256) b | SWide w => Forall (fun c => 0 <= c < 65536) w end.
Definition kind_of (b : buf) : rtype :=
  match b with Chr _ => TYPE_CHR | Scr _ => TYPE_SCR | Col _ => TYPE_COL | Grp _ => TYPE_GRP | Prg => TYPE_PRG | Mem => TYPE_MEM end.
Lemma to_char_u8 w c : 0 <= w < 65536 -> 32 <= c < 128 -> u8 (to_char w) = c -> u16 (to_char w) = c.
Proof.
  intros Hw Hc. unfold u8, u16. change (2 ^ 8) with 256. change (2 ^ 16) with 65536.
  assert (R : to_char w = -1 \/ 0 <= to_char w < 288).
  { unfold to_char. cbv zeta.
    destruct (w / 256 =? 0); [right; lia|]. destruct (w / 256 =? 32); [destruct (w mod 256 =? 29); [right; lia|]; destruct (w mod 256 =? 25); [right; lia|left; reflexivity]|].
    destruct (w / 256 =? 255); [destruct (w mod 256 =? 112); [right; lia|]; destruct (w mod 256 =? 229); right; lia|].
    destruct (w / 256 =? 48); [right|left; reflexivity].
    assert (F : Forall (fun x => 0 <= x < 64) katakana_char) by (unfold katakana_char; repeat constructor; lia).
    assert (0 <= nth (Z.to_nat (w mod 256)) katakana_char 0 < 64); [|lia].
    rewrite Forall_nth in F. destruct (Nat.lt_ge_cases (Z.to_nat (w mod 256)) (length katakana_char)) as [L|L]; [apply F; exact L|].
    rewrite nth_overflow by exact L. lia. }
  intro E. destruct R as [R|R]; [rewrite R in E; change (-1 mod 256) with 255 in E; lia|].
  destruct (Z.ltb_spec (to_char w) 256).
  - rewrite Z.mod_small in E by lia. rewrite Z.mod_small by lia. exact E.
  - assert (to_char w mod 256 = to_char w - 256) by lia. lia.
Qed.
Lemma cstr_at : forall l i, at_ (cstr l) i <> 0 -> at_ (cstr l) i = at_ l i.
Proof.
  induction l as [|c l IH]; intros i N; cbn [cstr] in *; [reflexivity|].
  destruct (Z.eqb_spec c 0) as [->|C].
  - exfalso. apply N. destruct i; reflexivity.
  - destruct i as [|i]; [reflexivity|]. exact (IH i N).
Qed.
Lemma cstr_no0 : forall l, ~ In 0 (cstr l).
Proof.
  induction l as [|c l IH]; cbn [cstr]; [intros []|]. destruct (Z.eqb_spec c 0); [intros []|]. intros [E|I]; [contradiction|auto].
Qed.
Lemma wide_char s i c : good_str s -> 0 <= i < str_len s -> i < 65536 -> 32 <= c < 128 -> at_ (str_char_copy s) (Z.to_nat i) = c ->
  exists w, str_at_wide s i = Ok w /\ u16 (to_char w) = c.
Proof.
  intros G Hi Hs Hc E. unfold str_at_wide. unfold u16 at 1 2 3. change (2 ^ 16) with 65536. rewrite Z.mod_small by lia.
  assert (L : forall l : list Z, zlen l = str_len s -> exists x, nth_error l (Z.to_nat i) = Some x).
  { intros l Hl. destruct (nth_error l (Z.to_nat i)) as [x|] eqn:N; [eauto|]. apply nth_error_None in N. unfold zlen in Hl. lia. }
  destruct s as [b|w|b]; cbn [good_str str_char_copy str_len] in *.
  - destruct (L b eq_refl) as (x & N). rewrite N. eexists. split; [reflexivity|].
    unfold at_ in E. rewrite (nth_error_nth _ _ _ N) in E. subst x.
    rewrite to_char_to_wide by lia. unfold u16. change (2 ^ 16) with 65536. apply Z.mod_small. lia.
  - destruct (L w eq_refl) as (x & N). rewrite N. eexists. split; [reflexivity|].
    assert (N' : nth_error (map (fun x => u8 (to_char x)) w) (Z.to_nat i) = Some (u8 (to_char x))) by (rewrite nth_error_map, N; reflexivity).
    unfold at_ in E. rewrite (nth_error_nth _ _ _ N') in E. apply to_char_u8; [|lia|exact E].
    rewrite Forall_forall in G. apply G. eapply nth_error_In. exact N.
  - destruct (L b eq_refl) as (x & N). rewrite N. eexists. split; [reflexivity|].
    unfold at_ in E. rewrite (nth_error_nth _ _ _ N) in E. subst x.
    rewrite to_char_to_wide by lia. unfold u16. change (2 ^ 16) with 65536. apply Z.mod_small. lia.
Qed.

Lemma lead_chars t : type_name t \/ lax_type_name t -> exists c0 c1 c2 r, t = c0 :: c1 :: c2 :: r /\ 65 <= c0 <= 90 /\ 65 <= c1 <= 90.
Proof.
  intro T. assert (X := type_name_noSep t T). assert (L := type_name_len t T).
  apply accepts_types in T; [|exact X|exact L]. destruct T as (v & I & b0 & b1 & b2 & r & -> & E0 & E1 & E2 & _).
  exists b0, b1, b2, r. split; [reflexivity|]. unfold valid_resource_types in I. cbn [map] in I.
  repeat (destruct I as [<-|I]; [rewrite E0, E1; cbn; lia|]). destruct I.
Qed.

Lemma copy_len res : zlen (str_char_copy res) = str_len res.
Proof. destruct res; cbn [str_char_copy str_len]; unfold zlen; rewrite ?map_length; reflexivity. Qed.
Lemma cstr_len : forall l, (length (cstr l) <= length l)%nat.
Proof. induction l as [|c l IH]; cbn [cstr]; [auto|]. destruct (c =? 0); cbn [length]; lia. Qed.

Theorem C41_load : forall p res, page_ok p -> good_str res ->
  get_verified_resource p res = Err ERR_ILLEGAL_FUNCTION_CALL \/
  exists i, get_verified_resource p res = Ok i /\ file_name (i_name i) /\ i_id i = kind_of (i_data i) /\
    (type_name (i_type i) \/ lax_type_name (i_type i)) /\ get_resource_ptr p (i_type i) = Ok (i_data i) /\
    (cstr (str_char_copy res) = i_name i /\ i_type i = text "PRG" \/ cstr (str_char_copy res) = i_type i ++ [58] ++ i_name i).
Proof.
  intros p res Hp G. unfold get_verified_resource.
  destruct (Z.gtb_spec (str_len res) 14); [left; reflexivity|].
  set (s := cstr (str_char_copy res)). assert (Z0 : ~ In 0 s) by apply cstr_no0.
  destruct (verify_resource_name s) eqn:V; [|left; reflexivity]. right. cbn [negb].
  assert (V' := V). apply C41_accepts in V; [|exact Z0].
  destruct (strchr s) as [k|] eqn:Ek.
  - destruct (strchr_some s k Ek) as (t & n & Es & Lk & Xt).
    assert (TN : (type_name t \/ lax_type_name t) /\ file_name n).
    { destruct V as [(_ & F)|(t' & n' & E' & T' & F')].
      - rewrite Forall_forall in F. assert (name_char 58) as Y by (apply F; rewrite Es; apply in_or_app; right; left; reflexivity). unfold name_char in Y. lia.
      - assert (X' := type_name_noSep t' T').
        assert (strchr s = Some (length t')) as A by (rewrite E'; apply strchr_app; exact X'). rewrite Ek in A. injection A as A.
        assert (firstn k s = t) as F1 by (rewrite Es, <- Lk, firstn_app, firstn_all, Nat.sub_diag; cbn [firstn]; apply app_nil_r).
        assert (firstn k s = t') as F2 by (rewrite E', A, firstn_app, firstn_all, Nat.sub_diag; cbn [firstn]; apply app_nil_r).
        rewrite F1 in F2. subst t'. rewrite Es in E'. apply app_inv_head in E'. cbn in E'. injection E' as ->. auto. }
    destruct TN as (T & F).
    assert (F1 : firstn k s = t) by (rewrite Es, <- Lk, firstn_app, firstn_all, Nat.sub_diag; cbn [firstn]; apply app_nil_r).
    assert (F2 : skipn (S k) s = n).
    { rewrite Es, <- Lk. replace (S (length t)) with (length (t ++ [58])) by (rewrite app_length; cbn; lia).
      rewrite app_assoc, skipn_app, skipn_all, Nat.sub_diag. reflexivity. }
    rewrite F1, F2. destruct (C41_buffer p t Hp T) as (b & Eb & Kb).
    destruct (lead_chars t T) as (c0 & c1 & c2 & r & Et & R0 & R1).
    assert (Sl : 3 <= str_len res).
    { rewrite <- copy_len. unfold zlen. assert (A := cstr_len (str_char_copy res)). fold s in A. rewrite Es, Et, !app_length in A. cbn [length] in A. lia. }
    assert (A0 : at_ (str_char_copy res) 0 = c0).
    { assert (at_ s 0 = c0) as Q by (rewrite Es, Et; reflexivity). rewrite <- Q. symmetry. apply cstr_at. fold s. lia. }
    assert (A1 : at_ (str_char_copy res) 1 = c1).
    { assert (at_ s 1 = c1) as Q by (rewrite Es, Et; reflexivity). rewrite <- Q. symmetry. apply cstr_at. fold s. lia. }
    destruct (wide_char res 0 c0 G ltac:(lia) ltac:(lia) ltac:(lia) A0) as (w0 & W0 & U0).
    destruct (wide_char res 1 c1 G ltac:(lia) ltac:(lia) ltac:(lia) A1) as (w1 & W1 & U1).
    unfold get_resource_type. destruct (Z.ltb_spec (str_len res) 3); [lia|]. rewrite W0, W1. cbn [bind]. rewrite U0, U1, Eb. cbn [bind].
    eexists. split; [reflexivity|]. cbn [i_name i_id i_data i_type]. split; [exact F|]. split; [|auto].
    unfold kind_ok in Kb. rewrite Et in Kb. change (at_ (c0 :: c1 :: c2 :: r) 0) with c0 in Kb. change (at_ (c0 :: c1 :: c2 :: r) 1) with c1 in Kb.
    clear - Kb. cbv beta iota.
    destruct b as [i|i|i|i| |]; cbn [kind_of].
    + assert (C : c0 = 66 \/ (c0 = 83 /\ c1 = 80)) by lia. destruct C as [C|(C & C')]; rewrite ?C, ?C'; reflexivity.
    + assert (C : c0 = 83 /\ c1 = 67) by lia. destruct C as (C & C'). rewrite C, C'. reflexivity.
    + destruct (Z.eqb_spec c0 67) as [->|N']; [reflexivity|discriminate Kb].
    + destruct (Z.eqb_spec c0 71) as [->|N']; [reflexivity|discriminate Kb].
    + apply Z.eqb_eq in Kb. subst c0. reflexivity.
    + apply Z.eqb_eq in Kb. subst c0. reflexivity.
  - assert (FN : file_name s).
    { destruct V as [F|(t' & n' & E' & _)]; [exact F|]. apply strchr_none in Ek. exfalso. apply Ek. rewrite E'. apply in_or_app. right. left. reflexivity. }
    assert (P : get_resource_ptr p (zs "PRG") = Ok Prg) by reflexivity. rewrite P. cbn [bind].
    eexists. split; [reflexivity|]. cbn [i_name i_id i_data i_type]. split; [exact FN|]. split; [reflexivity|].
    split; [|split; [reflexivity|left; auto]]. right. change (zs "PRG") with (text "PRG" ++ []). apply lax_any; [cbn; auto|cbn; lia|intros []].
Qed.
Example C41_load_ok : good_str (SBc (text "SPU7:TILES")) /\
  get_verified_resource (mkPages 0 1 0) (SBc (text "SPU7:TILES")) = Ok (mkInfo (text "SPU7") (text "TILES") TYPE_CHR (Chr 19)).
Proof. split; [cbn; repeat constructor; lia|reflexivity]. Qed.

(** ** CHRINIT, CHRREAD, CHRSET validate less: the bank is not checked *)
Theorem C41_chr_bank_refuted : forall p, bg_page p = 0 ->
  get_verified_resource_type p (SBc (text "BGU9")) = Ok (mkInfo (text "BGU9") [] TYPE_CHR (Chr 17)) /\
  get_resource_ptr p (text "SPU5U") = Ok (Chr 17).
Proof. intros [a b c] E. cbn in E. subst a. split; reflexivity. Qed.
(** beyond the table, or with an unknown type, the program crashes *)
Theorem C41_chr_crash_refuted : forall p, page_ok p ->
  get_verified_resource_type p (SBc (text "BGUZ")) = UB /\ get_verified_resource_type p (SBc (text "BAD")) = UB.
Proof. intros p Hp. apply in_pages in Hp. repeat (destruct Hp as [<-|Hp]; [split; reflexivity|]). destruct Hp. Qed.
(** documented types are handled correctly *)
Theorem C41_chr_partial : forall p t, page_ok p -> type_name t -> exists b,
  get_verified_resource_type p (SBc t) = Ok (mkInfo t [] (kind_of b) b) /\ get_resource_ptr p t = Ok b.
Proof.
  intros p t Hp T.
  assert (K := check (fun p t => match get_verified_resource_type p (SBc t), get_resource_ptr p t with
      Ok (mkInfo t' [] k b), Ok b' => list_eqb t' t && buf_eqb b b' && match k, kind_of b with TYPE_CHR, TYPE_CHR | TYPE_SCR, TYPE_SCR | TYPE_COL, TYPE_COL
        | TYPE_GRP, TYPE_GRP | TYPE_PRG, TYPE_PRG | TYPE_MEM, TYPE_MEM => true | _, _ => false end | _, _ => false end)
      ltac:(vm_compute; reflexivity) p t Hp T). cbv beta in K.
  destruct (get_verified_resource_type p (SBc t)) as [[t' [|? ?] k b]| |]; try discriminate K.
  destruct (get_resource_ptr p t) as [b'| |]; [|discriminate K|discriminate K].
  apply andb_true_iff in K. destruct K as (K & K2). apply andb_true_iff in K. destruct K as (K0 & K1).
  apply list_eqb_eq in K0. subst t'.
  assert (b = b') by (destruct b, b'; cbn in K1; try discriminate K1; try reflexivity; apply Z.eqb_eq in K1; subst; reflexivity). subst b'.
  exists b. split; [|reflexivity]. f_equal. f_equal. destruct k, (kind_of b); try discriminate K2; reflexivity.
Qed.
Print Assumptions C41_accepts.
Print Assumptions C41_distinct.
Print Assumptions C41_load.
