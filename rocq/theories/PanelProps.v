(** C72: the touch keyboard.  C73: icons and icon pages.  C74: panel text, function keys, panel types. *)
From Verif Require Import Base BaseLemmas Strs StrSpec StrProofs Console Input InputSpec InputProofs Panel PanelSpec PanelProofs.
Ltac Zify.zify_post_hook ::= Z.div_mod_to_equations.

(** For every history of touches, reads of INKEY$, KEYBOARD and FUNCNO, PNLTYPE and KEY commands, from the start: the characters that arrive, the
    numbers KEYBOARD and FUNCNO answer, and the program being stopped by the escape key, are those of the reference keyboard (layout, legends,
    SHIFT for one character, CAPS, repeat after 31 frames every 5, at most 256 characters waiting).
    Partial: the finger must not slip from a held key to a place without a key (C72_slip_refuted), less than 2^31 frames; ICONPUSE stays off
    (C73_pages covers it); the pictures and the text cursor of the keyboard are not modelled. *)
Theorem C72_touch_keyboard_partial l : Forall sensible l -> all_tails (fun h => ~ slips h) (fingers l) -> Z.of_nat (length (fingers l)) < 2 ^ 31 ->
  exists p, init_panel = Ok p /\ panel_run p init_inkey l = Ok (expected [] fresh [] l).
Proof.
  intros F A L. destruct init_seated as (p & E & (U & _) & T & S). exists p. split; [exact E|]. apply session_ok; auto using qrep_init; rewrite app_nil_r; assumption.
Qed.
(** When a key fires, in words: it was the first key touched since the finger was put down, it has been held since, this is frame 1, 31, 36, 41... *)
Theorem C72_fires h k : fired_now h = Some k <-> fires_key h k.
Proof. exact (fired_fires h k). Qed.
(** The key that a touch presses is the one whose picture is touched (the lowest pixel of the function keys, and the strip under the page button, are blank) *)
Theorem C72_layout x y k : 0 <= x < 256 -> 0 <= y < 192 -> key_under x y = Some k ->
  exists X Y w h, In (X, Y, w, h, k) keyboard_pos /\ X <= x < X + w /\ Y <= y /\ (y < Y + h \/ 101 <= k <= 105 /\ y = 15 \/ k = 80 /\ 184 <= y).
Proof. exact (picture x y k). Qed.

(** ** every character but three can be typed with one finger *)
Definition slips_b (h : list touch) : bool := match h with t :: r => match t, key_of t, finger_of r with Some _, None, On _ _ => true | _, _, _ => false end | [] => false end.
Fixpoint no_slips_b (h : list touch) : bool := negb (slips_b h) && match h with [] => true | _ :: r => no_slips_b r end.
Lemma no_slips_ok h : no_slips_b h = true -> all_tails (fun h => ~ slips h) h.
Proof.
  assert (One : forall h, slips_b h = false -> ~ slips h).
  { intros h0 E (t & r & k & n & -> & N & K & H). apply held_finger in H. destruct t as [t|]; [|contradiction]. cbn [slips_b] in E. rewrite K, H in E. discriminate. }
  induction h as [|t h IH]; intros E; cbn [no_slips_b] in E; apply andb_prop in E as [E1 E2]; (split; [apply One; destruct (slips_b _); [discriminate|reflexivity]|]); [exact I|apply IH, E2].
Qed.
Definition spot (k : Z) : Z * Z :=
  match find (fun j => match key_under (8 * (Z.of_nat j mod 32)) (8 * (Z.of_nat j / 32)) with Some k' => k' =? k | None => false end) (seq 0 768) with
  | Some j => (8 * (Z.of_nat j mod 32), 8 * (Z.of_nat j / 32)) | None => (0, 0) end.
Definition spots : list (Z * (Z * Z)) := Eval vm_compute in map (fun k => (Z.of_nat k, spot (Z.of_nat k))) (seq 0 69).
Definition where_is (k : Z) : Z * Z := match find (fun q => fst q =? k) spots with Some q => snd q | None => (0, 0) end.
Definition keys_of (c : Z) : option (Z * Z) :=
  match find (fun q => match legend (fst q) (snd q) with [d] => d =? c | _ => false end) (flat_map (fun m => map (fun k => (Z.of_nat m, Z.of_nat k)) (seq 2 64)) (seq 0 6)) with Some q => Some q | None => None end.
Definition typeable : list Z := Eval vm_compute in filter (fun c => negb (c =? 176) && negb (c =? 222) && negb (c =? 223)) (map Z.of_nat (seq 1 255)).
Definition recipes : list (Z * (Z * Z)) := Eval vm_compute in map (fun c => (c, match keys_of c with Some q => q | None => (0, 0) end)) typeable.
Definition tap (k : Z) : list event := [Finger (Some (where_is k)); Finger None].
Definition recipe (c : Z) : list event :=
  match find (fun q => fst q =? c) recipes with
  | Some (_, (m, k)) => tap (62 + m / 2) ++ (if m mod 2 =? 1 then tap 47 else []) ++ tap k ++ [Inkey; Inkey]
  | None => []
  end.
Definition on_screen_b (t : touch) : bool := match t with Some (x, y) => (0 <=? x) && (x <? 256) && (0 <=? y) && (y <? 192) | None => true end.
Definition recipe_ok (c : Z) : bool :=
  let l := recipe c in
  forallb (fun e => match e with Finger t => on_screen_b t | Inkey => true | _ => false end) l && no_slips_b (fingers l) && (length l <=? 100)%nat &&
  match expected [] fresh [] l with [Got a; Got b] => (a =? to_wide c) && (b =? 0) | _ => false end.
Lemma recipes_ok : forallb recipe_ok typeable = true.
Proof. vm_compute. reflexivity. Qed.
(** For every character code 1..255 except 176, 222 and 223 there is a way to touch the panel, from the start, after which INKEY$ answers that character and nothing else is waiting *)
Theorem C72_every_character c : 1 <= c <= 255 -> c <> 176 -> c <> 222 -> c <> 223 ->
  exists l p, Forall (fun t => on_screen t) l /\ init_panel = Ok p /\ panel_run p init_inkey (map Finger l ++ [Inkey; Inkey]) = Ok [Got (to_wide c); Got 0].
Proof.
  intros C N1 N2 N3. assert (I : In c typeable).
  { change typeable with (filter (fun c => negb (c =? 176) && negb (c =? 222) && negb (c =? 223)) (map Z.of_nat (seq 1 255))). apply filter_In. split; [|lia]. apply in_map_iff. exists (Z.to_nat c). split; [lia|]. apply in_seq. lia. }
  pose proof (proj1 (forallb_forall _ _) recipes_ok c I) as R. unfold recipe_ok in R. cbv zeta in R. apply andb_prop in R as [R R4]. apply andb_prop in R as [R R3]. apply andb_prop in R as [R1 R2].
  assert (Sh : exists l, recipe c = map Finger l ++ [Inkey; Inkey]).
  { unfold recipe in *. destruct (find _ recipes) as [[? [m k]]|]; [|discriminate]. unfold tap.
    exists ([Some (where_is (62 + m / 2)); None] ++ (if m mod 2 =? 1 then [Some (where_is 47); None] else []) ++ [Some (where_is k); None]). destruct (m mod 2 =? 1); reflexivity. }
  destruct Sh as (l & Sh). rewrite Sh in *. exists l. assert (F : Forall sensible (map Finger l ++ [Inkey; Inkey])).
  { apply Forall_forall. intros e He. rewrite forallb_forall in R1. specialize (R1 e He). destruct e as [[[x y]|]| | | | |]; try exact Logic.I; try discriminate. cbn [sensible on_screen]. cbn [on_screen_b] in R1. lia. }
  destruct (C72_touch_keyboard_partial _ F (no_slips_ok _ R2)) as (p & E & P).
  { unfold fingers. rewrite rev_length. assert (Len : forall l : list event, (length (flat_map (fun e => match e with Finger t => [t] | _ => [] end) l) <= length l)%nat).
    { clear. induction l as [|e l IH]; [apply Nat.le_refl|]. cbn [flat_map length]. rewrite app_length. destruct e; cbn [length]; lia. }
    specialize (Len (map Finger l ++ [Inkey; Inkey])). change (2 ^ 31) with 2147483648. lia. }
  exists p. split.
  - apply Forall_forall. intros t Ht. rewrite Forall_forall in F. exact (F (Finger t) ltac:(apply in_or_app; left; apply in_map; exact Ht)).
  - split; [exact E|]. rewrite P. f_equal. clear - R4. revert R4. generalize (expected [] fresh [] (map Finger l ++ [Inkey; Inkey])). intros e. generalize (to_wide c). intros w.
    destruct e as [|[a|] [|[b|] [|? ?]]]; intros R4; try (exfalso; clear - R4; discriminate R4). assert (a = w) by lia. assert (b = 0) by lia. subst. reflexivity.
Qed.
(** Refuted: every character of the character set can be typed.  No touches at all make INKEY$ answer the kana long mark 176 (KEY can) *)
Theorem C72_long_mark_refuted l : Forall sensible l -> all_tails (fun h => ~ slips h) (fingers l) -> Z.of_nat (length (fingers l)) < 2 ^ 31 -> (forall n b, ~ In (Keytext n b) l) ->
  exists p a, init_panel = Ok p /\ panel_run p init_inkey l = Ok a /\ ~ In (Got (to_wide 176)) a.
Proof.
  intros F A L N. destruct (C72_touch_keyboard_partial l F A L) as (p & E & P). exists p, (expected [] fresh [] l). split; [exact E|]. split; [exact P|]. apply no_176_session; [|constructor|exact N].
  intros j. unfold fresh. cbn [keys]. destruct (Z.to_nat j) as [|[|[|[|[|[|n]]]]]]; cbn [nth map]; try (destruct n; constructor); repeat constructor; vm_compute; discriminate.
Qed.
(** Refuted: touching the panel is always safe.  Sliding from a held key (here 1) to the blank strip above it reads outside the table of keys *)
Theorem C72_slip_refuted : exists p, init_panel = Ok p /\ panel_run p init_inkey [Finger (Some (30, 60)); Finger (Some (30, 40))] = UB.
Proof. destruct init_panel as [p| |] eqn:E; [|vm_compute in E; discriminate|vm_compute in E; discriminate]. exists p. split; [reflexivity|]. assert (P : p = match init_panel with Ok p => p | _ => start_panel end) by (rewrite E; reflexivity). rewrite P. vm_compute. reflexivity. Qed.
(** a session: shift, A, held so long that it repeats, key F5, escape *)
Example C72_example : let l := [Finger (Some (4, 130)); Finger None] ++ repeat (Finger (Some (50, 100))) 36 ++ [Finger None; Inkey; Inkey; Inkey; Inkey; Finger (Some (200, 4)); Funcno; Inkey; Inkey; Inkey; Finger None; Finger (Some (3, 50)); Keyboard] in
  Forall sensible l /\ no_slips_b (fingers l) = true /\
  expected [] fresh [] l = [Got 65345; Got 65313; Got 65313; Got 0; Got 20480; Got 65330; Got 65333; Got 65326; Break; Got 4096].
Proof. split; [|vm_compute; split; reflexivity]. apply Forall_forall. intros e He. assert (C : forallb (fun e => match e with Finger t => on_screen_b t | Inkey | Keyboard | Funcno => true | _ => false end) ([Finger (Some (4, 130)); Finger None] ++ repeat (Finger (Some (50, 100))) 36 ++ [Finger None; Inkey; Inkey; Inkey; Inkey; Finger (Some (200, 4)); Funcno; Inkey; Inkey; Inkey; Finger None; Finger (Some (3, 50)); Keyboard]) = true) by (vm_compute; reflexivity).
  rewrite forallb_forall in C. specialize (C e He). destruct e as [[[x y]|]| | | | |]; try exact Logic.I; try discriminate. cbn [on_screen_b] in C. cbn [sensible on_screen]. lia. Qed.

(** * C73: icons *)
(** ICONCHK() answers the number of the icon whose place fires, if the icon is shown, and -1 otherwise, for every history of touches, ICONSET and ICONCLR.
    Partial: as C72_touch_keyboard_partial (no slips, less than 2^31 frames, ICONPUSE off). *)
Theorem C73_icons_partial l : Forall icon_sensible l -> all_tails (fun h => ~ slips h) (icon_touches l) -> Z.of_nat (length (icon_touches l)) < 2 ^ 31 ->
  exists p, init_panel = Ok p /\ icon_run p init_inkey l = Ok (icon_answers [] (fun _ => false) l).
Proof.
  intros F A L. destruct init_icons as (p & E & (U & _) & T & S & Ti & Sh & _). exists p. split; [exact E|]. apply (icon_session l [] p init_inkey fresh [] _); auto using qrep_init; rewrite app_nil_r; assumption.
Qed.
Example C73_icons_example : let l := [Iconset 1 5; ITouch (Some (190, 180)); Iconchk; ITouch None; Iconchk; ITouch (Some (170, 180)); Iconchk; ITouch None; Iconclr (Some 1); ITouch (Some (190, 180)); Iconchk] in
  Forall icon_sensible l /\ no_slips_b (icon_touches l) = true /\ icon_answers [] (fun _ => false) l = [4096; -4096; -4096; -4096].
Proof. split; [|split; vm_compute; reflexivity]. repeat constructor; cbn [icon_sensible on_screen]; lia. Qed.
(** ICONSET and ICONCLR reject other numbers *)
Theorem C73_icon_range p i v : (i < 0 \/ 3 < i \/ v < 0 \/ 64 < v -> cmd_iconset p i v = Err ERR_OUT_OF_RANGE) /\ (i < 0 \/ 3 < i -> cmd_iconclr p (Some i) = Err ERR_OUT_OF_RANGE).
Proof.
  split; intros H; unfold cmd_iconset, cmd_iconclr; [|replace ((i <? 0) || (3 <? i)) with true by lia; reflexivity]. destruct ((i <? 0) || (3 <? i)) eqn:E; [reflexivity|]. replace ((v <? 0) || (64 <? v)) with true by lia. reflexivity.
Qed.
(** Pages, for every history of touches anywhere on the screen and assignments to ICONPUSE, ICONPMAX, ICONPAGE: the three variables are those of the
    reference; where the reference has no answer (the finger slips from a held key to a blank place) the code's behaviour is undefined, and nowhere else *)
Theorem C73_pages l : Forall page_sensible l -> Z.of_nat (length l) < 2 ^ 31 ->
  exists p, init_panel = Ok p /\ match pages_ref no_pages l with
    | Some g => exists p' i', page_run p init_inkey l = Ok (p', i') /\ iconpuse p' = puse g /\ iconpmax p' = pmax g /\ iconpage p' = page g
    | None => page_run p init_inkey l = UB
    end.
Proof.
  intros F L. destruct init_icons as (p & E & (U & M & P) & T & S & _). exists p. split; [exact E|]. apply (page_run_ok l p init_inkey no_pages fresh [] 0); auto using qrep_init; try lia.
  unfold paged. cbn [no_pages fing puse pmax page on_finger]. change (2 ^ 31) with 2147483648. split; [exact T|]. repeat split; auto; lia.
Qed.
(** the page and the highest page are whole numbers, not below 0, after any history *)
Theorem C73_pages_range l p p' i' : Forall page_sensible l -> Z.of_nat (length l) < 2 ^ 31 -> init_panel = Ok p -> page_run p init_inkey l = Ok (p', i') ->
  0 <= iconpmax p' /\ iconpmax p' mod 4096 = 0 /\ 0 <= iconpage p' /\ iconpage p' mod 4096 = 0.
Proof.
  intros F L E R. destruct (C73_pages l F L) as (p0 & E0 & G). assert (p0 = p) by congruence. subst p0. destruct (pages_ref no_pages l) as [g|] eqn:Eg; [|congruence]. destruct G as (p1 & i1 & R1 & _ & M & P). assert (p1 = p') by congruence. subst p1. rewrite M, P.
  apply (pages_inv l no_pages); [|exact Eg]. cbn [no_pages pmax page]. lia.
Qed.
(** ICONPAGE is in range after a line that mentions it; the buttons keep it there *)
Theorem C73_page_in_range g e g' : 0 <= pmax g -> pmax g mod 4096 = 0 -> page g mod 4096 = 0 -> page_ref g e = Some g' ->
  match e with SetPage _ => 0 <= page g' <= pmax g' | SetMax _ => True | _ => 0 <= page g <= pmax g -> 0 <= page g' <= pmax g' end.
Proof.
  intros M0 M P E. assert (Inj : forall a b : pages, Some a = Some b -> a = b) by congruence. destruct e as [t|v|v|v]; cbn [page_ref] in E; [|apply Inj in E; subst g'; cbn [page pmax]; lia|exact I|apply Inj in E; subst g'; cbn [page pmax]; lia].
  intros R. destruct (next_finger _ _ _) as [f|]; [|discriminate]. apply Inj in E. subst g'. cbn [page pmax]. destruct (fires_f f) as [k|]; [|exact R]. destruct (Z.leb_spec k 0).
  - destruct k as [|k|k]; try exact R; lia.
  - rewrite z_case by lia. destruct (k =? 80); [destruct (Z.ltb_spec 0 (page g)); lia|]. destruct (k =? 81); [destruct (Z.ltb_spec (page g) (pmax g)); lia|lia].
Qed.
(** Refuted: ICONPAGE never exceeds ICONPMAX.  Lowering ICONPMAX leaves ICONPAGE where it was *)
Theorem C73_pmax_refuted : exists p p' i', init_panel = Ok p /\ page_run p init_inkey [SetMax (4096 * 9); SetPage (4096 * 7); SetMax (4096 * 2)] = Ok (p', i') /\ iconpmax p' = 4096 * 2 /\ iconpage p' = 4096 * 7.
Proof.
  destruct (C73_pages [SetMax (4096 * 9); SetPage (4096 * 7); SetMax (4096 * 2)]) as (p & E & G); [repeat constructor; cbn [page_sensible]; lia|reflexivity|]. cbn in G. destruct G as (p' & i' & R & _ & M & P). exists p, p', i'. repeat split; auto.
Qed.
(** Refuted: the page buttons repeat while they are held.  The upper one does; the lower one turns one page however long it is held *)
Theorem C73_page_down_refuted n : (0 < n)%nat -> Z.of_nat n < 1000000 -> exists p p' i', init_panel = Ok p /\
  page_run p init_inkey ([SetUse 4096; SetMax (4096 * 9)] ++ repeat (PTouch (Some (150, 185))) n) = Ok (p', i') /\ iconpage p' = 4096.
Proof.
  intros N L. destruct (C73_pages ([SetUse 4096; SetMax (4096 * 9)] ++ repeat (PTouch (Some (150, 185))) n)) as (p & E & G).
  - apply Forall_app. split; [repeat constructor; cbn [page_sensible]; lia|]. apply Forall_forall. intros e He. apply repeat_spec in He. subst e. cbn [page_sensible on_screen]. lia.
  - rewrite app_length, repeat_length. change (2 ^ 31) with 2147483648. cbn [length]. lia.
  - assert (R : exists f, pages_ref no_pages ([SetUse 4096; SetMax (4096 * 9)] ++ repeat (PTouch (Some (150, 185))) n) = Some {| fing := f; puse := 4096; pmax := 36864; page := 4096 |}).
    { destruct n as [|n]; [lia|]. cbn [repeat app]. change (pages_ref no_pages (SetUse 4096 :: SetMax (4096 * 9) :: PTouch (Some (150, 185)) :: repeat (PTouch (Some (150, 185))) n)) with
        (pages_ref {| fing := On 81 1; puse := 4096; pmax := 36864; page := 4096 |} (repeat (PTouch (Some (150, 185))) n)).
      destruct n as [|n]; [eexists; reflexivity|]. cbn [repeat]. change (pages_ref {| fing := On 81 1; puse := 4096; pmax := 36864; page := 4096 |} (PTouch (Some (150, 185)) :: repeat (PTouch (Some (150, 185))) n)) with
        (pages_ref {| fing := Off; puse := 4096; pmax := 36864; page := 4096 |} (repeat (PTouch (Some (150, 185))) n)). clear. exists Off.
      induction n as [|n IH]; [reflexivity|]. cbn [repeat]. change (pages_ref {| fing := Off; puse := 4096; pmax := 36864; page := 4096 |} (PTouch (Some (150, 185)) :: repeat (PTouch (Some (150, 185))) n)) with
        (pages_ref {| fing := Off; puse := 4096; pmax := 36864; page := 4096 |} (repeat (PTouch (Some (150, 185))) n)). exact IH. }
    destruct R as (f & R). rewrite R in G. destruct G as (p' & i' & Rn & _ & _ & P). exists p, p', i'. split; [exact E|]. split; [exact Rn|exact P].
Qed.
(** Refuted: the page buttons work only with ICONPUSE on.  With ICONPUSE off the place of the hidden button turns the page back *)
Theorem C73_hidden_button_refuted : exists p p' i', init_panel = Ok p /\ page_run p init_inkey [SetMax (4096 * 9); SetPage (4096 * 7); PTouch (Some (150, 170))] = Ok (p', i') /\ iconpuse p' = 0 /\ iconpage p' = 4096 * 6.
Proof.
  destruct (C73_pages [SetMax (4096 * 9); SetPage (4096 * 7); PTouch (Some (150, 170))]) as (p & E & G); [repeat constructor; cbn [page_sensible on_screen]; lia|reflexivity|]. cbn in G. destruct G as (p' & i' & R & U & M & P). exists p, p', i'. repeat split; auto.
Qed.

(** * C74: text on the panel *)
(** PNLSTR x, y, s$ [, c] writes, in row [y] from column [x], the characters of the string that fit in the row, in colour [c] (0 without), and changes nothing else.
    A position off the screen writes nothing; a colour off 0..15 is an error *)
Theorem C74_pnlstr p x y s cs c : spells s cs -> length (text (ptext p)) = 768%nat -> length (color (ptext p)) = 768%nat ->
  (0 <= x <= 31 -> 0 <= y <= 23 -> (forall k, c = Some k -> 0 <= k <= 15) ->
    exists t, cmd_pnlstr p x y s c = Ok (set_ptext p t) /\ length (text t) = 768%nat /\ length (color t) = 768%nat /\
    forall X Y, 0 <= X < 32 -> 0 <= Y < 24 ->
      let n := Z.to_nat (32 * Y + X) in
      let inside := (Y =? y) && (x <=? X) && (X <? x + Z.of_nat (length cs)) in
      nth_error (text t) n = (if inside then nth_error (map to_wide cs) (Z.to_nat (X - x)) else nth_error (text (ptext p)) n) /\
      nth_error (color t) n = (if inside then Some (match c with Some k => k | None => 0 end) else nth_error (color (ptext p)) n)) /\
  (x < 0 \/ 31 < x \/ y < 0 \/ 23 < y -> cmd_pnlstr p x y s c = Ok p) /\
  (forall k, 0 <= x <= 31 -> 0 <= y <= 23 -> c = Some k -> k < 0 \/ 15 < k -> cmd_pnlstr p x y s c = Err ERR_OUT_OF_RANGE).
Proof.
  intros S L1 L2. rewrite <- (map_length to_wide cs). pose proof (spells_wide_copy s cs S) as W. repeat split.
  - intros X Y C. unfold cmd_pnlstr. rewrite W. replace ((x <? 0) || (31 <? x)) with false by lia. replace ((y <? 0) || (23 <? y)) with false by lia.
    set (k := match c with Some k => k | None => 0 end).
    destruct (put_row_ok (map to_wide cs) (set_look (ptext p) x y k) x y eq_refl eq_refl ltac:(lia) ltac:(lia) L1 L2) as (t & E & T1 & T2 & _ & T3 & T4). exists t. split.
    { destruct c as [k'|]; [specialize (C k' eq_refl); replace ((k' <? 0) || (15 <? k')) with false by lia|]; subst k; rewrite E; reflexivity. }
    split; [exact T1|]. split; [exact T2|]. intros X' Y' HX HY. cbv zeta. rewrite T3, T4 by lia. unfold zlen.
    replace ((Y' =? y) && (x <=? X') && (X' <? x + Z.of_nat (length (map to_wide cs)))) with ((32 * y + x <=? 32 * Y' + X') && (32 * Y' + X' <? Z.min (32 * y + x + Z.of_nat (length (map to_wide cs))) (32 * y + 32))) by lia.
    destruct (_ && _) eqn:In; [|split; reflexivity]. assert (Y' = y) by lia. subst Y'. replace (32 * y + X' - (32 * y + x)) with (X' - x) by lia. split; reflexivity.
  - intros H. unfold cmd_pnlstr. destruct ((x <? 0) || (31 <? x)) eqn:E; [reflexivity|]. replace ((y <? 0) || (23 <? y)) with true by lia. reflexivity.
  - intros k X Y -> K. unfold cmd_pnlstr. replace ((x <? 0) || (31 <? x)) with false by lia. replace ((y <? 0) || (23 <? y)) with false by lia. replace ((k <? 0) || (15 <? k)) with true by lia. reflexivity.
Qed.
(** KEY n, s$ : the text is what the function key types (C72), its label is the first four characters, then a full stop if there are more, blanks otherwise; the other labels stay *)
Definition label (cs : list Z) : list Z := if (4 <? length cs)%nat then firstn 4 cs ++ [46] else cs ++ repeat 32 (5 - length cs).
Theorem C74_key p n s cs : spells s cs -> length (fkeys p) = 5%nat -> cy (ktext p) = 0 -> length (text (ktext p)) = 768%nat -> length (color (ktext p)) = 768%nat ->
  (1 <= n <= 5 -> exists f c, cmd_key p n s = Ok (set_keys p f c) /\ length f = 5%nat /\ cy c = 0 /\ length (text c) = 768%nat /\ length (color c) = 768%nat /\
    (forall m, 1 <= m <= 5 -> nth_error f (Z.to_nat (m - 1)) = if m =? n then Some (map to_wide cs) else nth_error (fkeys p) (Z.to_nat (m - 1))) /\
    (forall j, 0 <= j < 768 -> nth_error (text c) (Z.to_nat j) =
       if (6 * n - 5 <=? j) && (j <? 6 * n) then nth_error (map to_wide (label cs)) (Z.to_nat (j - (6 * n - 5))) else nth_error (text (ktext p)) (Z.to_nat j))) /\
  (n < 1 \/ 5 < n -> cmd_key p n s = Err ERR_OUT_OF_RANGE).
Proof.
  intros S Lf Cy L1 L2. split; [|intros N; unfold cmd_key; replace ((n <? 1) || (5 <? n)) with true by lia; reflexivity]. intros N. unfold cmd_key, set_function_key. replace ((n <? 1) || (5 <? n)) with false by lia. replace ((1 <=? n) && (n <=? 5)) with true by lia. cbv zeta. rewrite (spells_wide_copy s cs S).
  set (ws := map to_wide cs). assert (C0 : exists c0, set_cursor (ktext p) (1 + (n - 1) * 6) (cy (ktext p)) = c0 /\ cx c0 = 1 + (n - 1) * 6 /\ cy c0 = 0 /\ text c0 = text (ktext p) /\ length (color c0) = 768%nat) by (eexists; split; [reflexivity|]; auto).
  destruct C0 as (c0 & -> & X0 & Y0 & T0 & L0). rewrite <- T0 in L1. destruct (put_label_row ws 5 c0 0 ltac:(lia) ltac:(lia) ltac:(lia)) as (P & c' & E & Y). rewrite E in P. symmetry in P.
  destruct (put_row_ok (map (fun i => label_char ws (0 + Z.of_nat i)) (seq 0 5)) c0 (1 + (n - 1) * 6) 0 X0 Y0 ltac:(lia) ltac:(lia) L1 L0) as (t & E' & T1 & T2 & T3 & T4 & _). rewrite Y0 in P. assert (t = c') by congruence. subst t.
  rewrite E. cbn [bind]. eexists _, c'. split; [reflexivity|]. rewrite upd_length. split; [exact Lf|]. split; [lia|]. split; [exact T1|]. split; [exact T2|]. split.
  - intros m M. destruct (Z.eqb_spec m n) as [->|D]; [apply nth_error_upd_same; lia|apply nth_error_upd_other; lia].
  - intros j J. rewrite T4 by lia. change (zlen (map (fun i => label_char ws (0 + Z.of_nat i)) (seq 0 5))) with 5. rewrite T0.
    replace ((32 * 0 + (1 + (n - 1) * 6) <=? j) && (j <? Z.min (32 * 0 + (1 + (n - 1) * 6) + 5) (32 * 0 + 32))) with ((6 * n - 5 <=? j) && (j <? 6 * n)) by lia. destruct (_ && _); [|reflexivity]. replace (j - (32 * 0 + (1 + (n - 1) * 6))) with (j - (6 * n - 5)) by lia. f_equal.
    unfold label, label_char, ws, zlen. rewrite map_length. clear. destruct cs as [|a [|b [|c [|d [|e cs]]]]]; try reflexivity. cbn [length seq map Nat.ltb Nat.leb firstn app].
    generalize (Nat.le_0_l (length cs)). generalize (length cs). intros m _. assert (Z5 : exists z, Z.of_nat (S (S (S (S (S m))))) = z /\ 5 <= z) by (eexists; split; [reflexivity|lia]). destruct Z5 as (z & -> & Hz).
    replace (z >? 4) with true by lia. rewrite !Bool.andb_true_r. cbn [Z.add Z.of_nat Pos.of_succ_nat Pos.succ Z.eqb Pos.eqb andb]. replace (0 <? z) with true by lia. replace (1 <? z) with true by lia. replace (2 <? z) with true by lia. replace (3 <? z) with true by lia. reflexivity.
Qed.
(** PNLTYPE accepts the five names and nothing else *)
Theorem C74_pnltype p s cs : spells s cs -> cmd_pnltype p s =
  if list_eq_dec Z.eq_dec cs [79;70;70] then Ok (set_type p 0) else if list_eq_dec Z.eq_dec cs [80;78;76] then Ok (set_type p 1) else if list_eq_dec Z.eq_dec cs [75;89;65] then Ok (set_type p 2)
  else if list_eq_dec Z.eq_dec cs [75;89;77] then Ok (set_type p 3) else if list_eq_dec Z.eq_dec cs [75;89;75] then Ok (set_type p 4) else Err ERR_INVALID_ARGUMENT_VALUE.
Proof.
  intros S. unfold cmd_pnltype. rewrite (which_type_ok s cs _ S).
  - cbn [find fst snd]. repeat (destruct (list_eq_dec Z.eq_dec cs _); [reflexivity|]). reflexivity.
  - repeat constructor; cbn [fst length]; try lia; repeat constructor; lia.
Qed.
(** the hypotheses of the last theorems hold at the start *)
Theorem C74_start : exists p, init_panel = Ok p /\ length (fkeys p) = 5%nat /\ cy (ktext p) = 0 /\ (length (text (ptext p)) = 768 /\ length (color (ptext p)) = 768 /\ length (text (ktext p)) = 768 /\ length (color (ktext p)) = 768)%nat.
Proof. destruct init_icons as (p & E & _ & _ & S & _ & _ & L). exists p. split; [exact E|]. destruct S as (_ & _ & _ & S1 & _ & S2). auto. Qed.
(** PNLSTR 30, 2, HELLO, 7 and KEY 2, ABCDEF *)
Example C74_example : exists p p1 p2, init_panel = Ok p /\ cmd_pnlstr p 30 2 (SChar [72;69;76;76;79]) (Some 7) = Ok p1 /\ firstn 4 (skipn 93 (text (ptext p1))) = [0; 65320; 65317; 0] /\ firstn 4 (skipn 93 (color (ptext p1))) = [0; 7; 7; 0] /\
  cmd_key p 2 (SChar [65;66;67;68;69;70]) = Ok p2 /\ firstn 7 (skipn 6 (text (ktext p2))) = [0; 65313; 65314; 65315; 65316; 65294; 0] /\ spells (SChar [65;66;67;68;69;70]) [65;66;67;68;69;70].
Proof.
  destruct init_panel as [p| |] eqn:E; [|vm_compute in E; discriminate|vm_compute in E; discriminate]. assert (P : p = match init_panel with Ok p => p | _ => start_panel end) by (rewrite E; reflexivity). clear E. exists p. rewrite P.
  eexists _, _. split; [reflexivity|]. split; [vm_compute; reflexivity|]. split; [reflexivity|]. split; [reflexivity|]. split; [vm_compute; reflexivity|]. split; [reflexivity|]. split; [|reflexivity]. repeat constructor; lia.
Qed.

Print Assumptions C72_touch_keyboard_partial.
Print Assumptions C72_fires.
Print Assumptions C72_layout.
Print Assumptions C72_every_character.
Print Assumptions C72_long_mark_refuted.
Print Assumptions C72_slip_refuted.
Print Assumptions C73_icons_partial.
Print Assumptions C73_icon_range.
Print Assumptions C73_pages.
Print Assumptions C73_pages_range.
Print Assumptions C73_page_in_range.
Print Assumptions C73_pmax_refuted.
Print Assumptions C73_page_down_refuted.
Print Assumptions C73_hidden_button_refuted.
Print Assumptions C74_pnlstr.
Print Assumptions C74_key.
Print Assumptions C74_pnltype.
Print Assumptions C74_start.
