(** Background layers: the model's tiles against the ideal ones. *)
From Verif Require Import Base BaseLemmas Strs NumText NumTextSpec NumTextProofs StrProofs Tokens Runner RunnerSpec Vars Codes.
From Verif Require Import Machine Ideal IdealVal HostSim MachineSim MachineHost HostData MachineData IdealData DataHost LineInput Ask IdealAsk AskProofs AskHost.
From Verif Require Import Background BackgroundProofs BackgroundProps Draw IdealDraw DrawProofs Tiles IdealTiles.
Ltac Zify.zify_post_hook ::= Z.div_mod_to_equations.
Open Scope Z_scope.

Lemma tiles_same c : tiles c = tiling c.
Proof. unfold tiles, tiling, within. cbn [existsb]. unfold Tiles.CMD_BGCLR, Tiles.CMD_BGCOPY, Tiles.CMD_BGFILL, Tiles.CMD_BGPAGE, Tiles.CMD_BGPUT, Tiles.CMD_BGREAD. lia. Qed.
Lemma in_layer l : within 0 l 1 = true <-> layer_ok l. Proof. unfold within, layer_ok. lia. Qed.
Lemma bad_within l : bad_layer l = negb (within 0 l 1). Proof. unfold bad_layer, within. lia. Qed.
Lemma turned_self s : turned s (Background.page s) = s. Proof. destruct s. reflexivity. Qed.
Lemma bank_other s l b p m : wf s -> layer_ok l -> 0 <= p <= 1 -> layer_ok m -> p <> Background.page s -> bank (turned (set_bank s l b) p) m = bank (turned s p) m.
Proof.
  intros (P & _) L Hp M N. unfold bank, turned, set_bank. cbn [scr Background.page]. unfold bg_page. cbn [Background.page]. apply nth_upd_other. unfold SCR_BANKS, layer_ok in *. lia.
Qed.
(** a command that changes one layer of the page chosen *)
Lemma pinned_layer w s l b f k : pinned w s -> layer_ok l -> wf (set_bank s l b) -> words (set_bank s l b) ->
  (forall m x y, layer_ok m -> 0 <= x < 64 -> 0 <= y < 64 ->
     bgread_word (set_bank s l b) m x y = if (m =? l) && f x y then Ok (k x y) else bgread_word s m x y) ->
  pinned (stick w l f k) (set_bank s l b).
Proof.
  intros (Ws & Wd & Pg & T) L W1 W2 Rd. split; [exact W1|]. split; [exact W2|]. split; [exact Pg|]. intros p m x y Hp Hm Hx Hy. cbn [stick w_tile].
  assert (M : layer_ok m) by (unfold layer_ok; lia). destruct (Z.eq_dec p (Background.page s)) as [->|N].
  - rewrite <- Pg, Z.eqb_refl. rewrite Pg. cbn [andb]. specialize (T (Background.page s) m x y Hp Hm Hx Hy). rewrite turned_self in T. change (Background.page s) with (Background.page (set_bank s l b)) at 1. rewrite turned_self, Rd by assumption.
    destruct ((m =? l) && f x y); [reflexivity|exact T].
  - rewrite Pg. replace (p =? Background.page s) with false by lia. cbn [andb]. rewrite <- (T p m x y Hp Hm Hx Hy). unfold bgread_word. rewrite bank_other by assumption. reflexivity.
Qed.
Lemma put_shape s l x y t s' : cmd_bgput s l x y t = Ok s' -> exists b, s' = set_bank s l b.
Proof.
  unfold cmd_bgput. destruct (bad_layer l); [discriminate|]. destruct (tiledata t); cbn [bind]; try discriminate. destruct (poke _ _ _); cbn [bind]; try discriminate. intros [= <-]. eauto.
Qed.
Lemma fill_shape s l x1 y1 x2 y2 t s' : cmd_bgfill s l x1 y1 x2 y2 t = Ok s' -> exists b, s' = set_bank s l b.
Proof.
  unfold cmd_bgfill. destruct (bad_layer l); [discriminate|]. destruct (tiledata t); cbn [bind]; try discriminate. destruct (if clamp63 x1 >? _ then _ else _), (if clamp63 y1 >? _ then _ else _).
  destruct (fill_loop _ _ _); cbn [bind]; try discriminate. intros [= <-]. eauto.
Qed.
Lemma copy_shape s l x1 y1 x2 y2 x3 y3 s' : cmd_bgcopy s l x1 y1 x2 y2 x3 y3 = Ok s' -> exists b, s' = set_bank s l b.
Proof.
  unfold cmd_bgcopy. destruct (bad_layer l); [discriminate|]. destruct (if clamp63 x1 >? _ then _ else _), (if clamp63 y1 >? _ then _ else _).
  destruct (copy_loop _ _ _ _); cbn [bind]; try discriminate. intros [= <-]. eauto.
Qed.
Lemma put_pinned w s l x y t k : pinned w s -> tiledata t = Ok k ->
  okr pinned (layer_in l (fun l => Ok (stick w l (place_at x y) (fun _ _ => k)))) (cmd_bgput s l x y t).
Proof.
  intros Pn T. pose proof Pn as (Ws & Wd & _). unfold layer_in. destruct (within 0 l 1) eqn:L.
  - apply in_layer in L. destruct (C26_put_read s l x y t k Ws L T) as (s' & E & W' & _ & Rd). exists s'. split; [exact E|]. destruct (put_shape _ _ _ _ _ _ E) as (b & ->).
    apply pinned_layer; [exact Pn|exact L|exact W'|exact (proj2 (bg_do_wf s (BgPut l x y t) _ (conj Ws Wd) E))|]. intros m u v M Hu Hv. rewrite Rd by exact M. unfold place_at.
    rewrite (Z.mod_small u), (Z.mod_small v) by lia. rewrite andb_assoc. reflexivity.
  - unfold cmd_bgput. rewrite bad_within, L. reflexivity.
Qed.
Lemma fill_pinned w s l x1 y1 x2 y2 t k : pinned w s -> tiledata t = Ok k ->
  okr pinned (layer_in l (fun l => Ok (stick w l (patch (near x1) (near y1) (near x2) (near y2)) (fun _ _ => k)))) (cmd_bgfill s l x1 y1 x2 y2 t).
Proof.
  intros Pn T. pose proof Pn as (Ws & Wd & _). unfold layer_in. destruct (within 0 l 1) eqn:L.
  - apply in_layer in L. destruct (C27_fill s l x1 y1 x2 y2 t k Ws L T) as (s' & E & W' & _ & Rd). exists s'. split; [exact E|]. destruct (fill_shape _ _ _ _ _ _ _ _ E) as (b & ->).
    apply pinned_layer; [exact Pn|exact L|exact W'|exact (proj2 (bg_do_wf s (BgFill l x1 y1 x2 y2 t) _ (conj Ws Wd) E))|]. intros m u v M Hu Hv. rewrite Rd by assumption. unfold patch, within, near.
    rewrite <- !andb_assoc. reflexivity.
  - unfold cmd_bgfill. rewrite bad_within, L. reflexivity.
Qed.
Lemma near_range v : 0 <= near v <= 63. Proof. unfold near. lia. Qed.
Lemma copy_pinned w s l x1 y1 x2 y2 x3 y3 : pinned w s ->
  okr pinned (layer_in l (fun l =>
          let x0 := Z.min (near x1) (near x2) in let y0 := Z.min (near y1) (near y2) in let u := near x3 + Z.abs (near x2 - near x1) in let v := near y3 + Z.abs (near y2 - near y1) in
          if (u <=? 63) && (v <=? 63) then Ok (stick w l (patch (near x3) (near y3) u v) (fun c d => w_tile w (w_page w) l (c - near x3 + x0) (d - near y3 + y0))) else UB))
    (cmd_bgcopy s l x1 y1 x2 y2 x3 y3).
Proof.
  intros Pn. pose proof Pn as (Ws & Wd & Pg & T). unfold layer_in. destruct (within 0 l 1) eqn:L.
  - apply in_layer in L. cbv zeta. destruct (_ && _) eqn:F; [|exact I]. pose proof (C27_copy_partial s l x1 y1 x2 y2 x3 y3 Ws L) as C. cbv zeta in C.
    change (fun v : Z => Z.max 0 (Z.min v 63)) with near in C.
    pose proof (near_range x1). pose proof (near_range x2). pose proof (near_range x3). pose proof (near_range y1). pose proof (near_range y2). pose proof (near_range y3).
    destruct C as (s' & E & W' & _ & Rd); [lia|lia|]. exists s'. split; [exact E|]. destruct (copy_shape _ _ _ _ _ _ _ _ _ E) as (b & ->).
    apply pinned_layer; [exact Pn|exact L|exact W'|exact (proj2 (bg_do_wf s (BgCopy l x1 y1 x2 y2 x3 y3) _ (conj Ws Wd) E))|]. intros m u v M Hu Hv. rewrite Rd by assumption.
    set (k := w_tile _ _ _ _ _). match goal with |- (if ?c then _ else _) = (if ?d then _ else _) => replace d with c by (unfold patch, within; lia); destruct c eqn:G end; [|reflexivity].
    assert (m = l) as -> by lia. unfold k. rewrite Pg, <- T; [rewrite turned_self; reflexivity|unfold wf in Ws|unfold layer_ok in L|..]; lia.
  - unfold cmd_bgcopy. rewrite bad_within, L. reflexivity.
Qed.
Lemma clear_reads s l m x y : wf s -> layer_ok l -> layer_ok m -> 0 <= x < 64 -> 0 <= y < 64 ->
  bgread_word (set_bank s l (repeat 0 (Z.to_nat 4096))) m x y = if (m =? l) && true then Ok 0 else bgread_word s m x y.
Proof.
  intros Ws L M Hx Hy. rewrite !read_cell by exact M. unfold cell. rewrite bank_set by assumption. rewrite andb_true_r, (Z.eqb_sym m l). destruct (l =? m); [|reflexivity]. rewrite nth_repeat. reflexivity.
Qed.
Lemma zero_okb : okb (repeat 0 (Z.to_nat 4096)).
Proof. split; [apply repeat_length|]. apply Forall_forall. intros w J. apply repeat_spec in J. lia. Qed.
Lemma clear_pinned w s l : pinned w s -> layer_ok l -> pinned (stick w l (fun _ _ => true) (fun _ _ => 0)) (set_bank s l (repeat 0 (Z.to_nat 4096))).
Proof.
  intros Pn L. pose proof Pn as (Ws & Wd & _). destruct (set_okb s l _ Ws Wd zero_okb) as [W1 W2]. apply pinned_layer; [exact Pn|exact L|exact W1|exact W2|].
  intros m x y M Hx Hy. apply clear_reads; assumption.
Qed.
Lemma page_pinned w s p : pinned w s -> okr pinned (if within 0 p 1 then Ok (mkW p (w_tile w)) else Err ERR_OUT_OF_RANGE) (cmd_bgpage s p).
Proof.
  intros (Ws & Wd & Pg & T). unfold cmd_bgpage. destruct (within 0 p 1) eqn:L.
  - replace ((p <? 0) || (1 <? p)) with false by (unfold within in L; lia). apply okr_ok. split; [unfold wf in *; cbn [Background.page scr ofs]; split; [unfold within in L; lia|tauto]|].
    split; [exact Wd|]. split; [reflexivity|]. exact T.
  - replace ((p <? 0) || (1 <? p)) with true by (unfold within in L; lia). reflexivity.
Qed.
Lemma tile_range w s l x y : pinned w s -> 0 <= l <= 1 -> exists k, 0 <= k < 65536 /\ w_tile w (w_page w) l (x mod 64) (y mod 64) = k /\ bgread_word s l x y = Ok k.
Proof.
  intros (Ws & Wd & Pg & T) L. assert (O : layer_ok l) by (unfold layer_ok; lia). exists (cell s l (x mod 64) (y mod 64)).
  assert (C : bgread_word s l x y = Ok (cell s l (x mod 64) (y mod 64))) by (apply read_cell, O). split; [|split; [|exact C]].
  - unfold bgread_word in C. rewrite bad_layer_ok in C by exact O. eapply peek_ok; [|exact C]. apply bank_okb; assumption.
  - rewrite Pg. assert (Hp : 0 <= Background.page s <= 1) by (unfold wf in Ws; lia). pose proof (T (Background.page s) l (x mod 64) (y mod 64) Hp L ltac:(lia) ltac:(lia)) as E. rewrite turned_self in E.
    unfold bgread_word in *. rewrite !Z.mod_mod in E by lia. congruence.
Qed.

(** *** the tile given *)
Lemma hexit_digit c d : hexit c = Some d -> 0 <= d < 16 /\ digit_char d = c.
Proof.
  unfold hexit, digit_char. destruct (within 48 c 57) eqn:A.
  - intros Q. injection Q as <-. unfold within in A. split; [lia|]. replace (c - 48 <? 10) with true by lia. lia.
  - destruct (within 65 c 70) eqn:B; intros Q; [|discriminate Q]. injection Q as <-. unfold within in B. split; [lia|]. replace (c - 55 <? 10) with false by lia. lia.
Qed.
Lemma hexits_digits : forall t ds, hexits t = Some ds -> digits 16 ds /\ map digit_char ds = t /\ length ds = length t.
Proof.
  unfold digits. induction t as [|c t IH]; intros ds; cbn [hexits]; [intros [= <-]; repeat split; constructor|]. destruct (hexit c) as [d|] eqn:D; [|discriminate]. destruct (hexits t) as [es|]; [|discriminate]. intros [= <-].
  destruct (hexit_digit _ _ D) as [R E]. destruct (IH es eq_refl) as (A & B & C). cbn [map length]. split; [constructor; [lia|exact A]|]. split; [congruence|congruence].
Qed.
Lemma numeral4 ds : digits 16 ds -> (length ds <= 4)%nat -> 0 <= numeral 16 ds < 65536.
Proof.
  unfold digits, numeral. intros D L. destruct ds as [|a [|b [|c [|d [|? ?]]]]]; cbn [length] in L; try lia; repeat match goal with F : Forall _ (_ :: _) |- _ => inversion F; subst; clear F end; cbn [num_of]; lia.
Qed.
Lemma hex_ok t k : hex_tile t = Ok k -> tiledata (TStr (map to_wide t)) = Ok k.
Proof.
  unfold hex_tile. destruct (hexits t) as [ds|] eqn:H; [|discriminate]. destruct (_ <=? 4)%nat eqn:L; [|discriminate]. intros [= <-]. destruct (hexits_digits _ _ H) as (D & E & N).
  pose proof (numeral4 ds D ltac:(apply Nat.leb_le in L; lia)) as R. pose proof (read_based 16 ds [] ltac:(lia) D ltac:(lia) I) as G. rewrite app_nil_r, E in G. unfold u8_to_number in G.
  unfold tiledata. rewrite G. cbn [bind]. unfold FP_TO_INT. f_equal. lia.
Qed.
Lemma digit_hex d : 0 <= d < 16 -> hex_digit d = digit_char d. Proof. intros H. unfold hex_digit, digit_char. destruct (d <? 10); lia. Qed.

Lemma txt_never i e x : txt i e = Err x -> False.
Proof. unfold txt, chkt. destruct e as [z|[] z|[] z|z]; try discriminate; try destruct (get i z); try destruct (textb _); discriminate. Qed.
Lemma int_never i e x : int i e = Err x -> False.
Proof. unfold int, num, chkn. destruct e as [z|c z|[] z|z]; cbn [bind]; try discriminate; try destruct (get i z); cbn [bind]; try discriminate; destruct (fits _); cbn [bind]; discriminate. Qed.
Lemma word_err i es e : tile_word i es = Err e -> e = ERR_OUT_OF_RANGE.
Proof.
  destruct es as [|a [|b [|c [|d [|? ?]]]]]; cbn [tile_word]; try discriminate.
  - assert (N : (let* v := int i a in Ok (v mod 65536)) = Err e -> e = ERR_OUT_OF_RANGE) by (destruct (int i a) eqn:I1; cbn [bind]; try discriminate; destruct (int_never _ _ _ I1)).
    assert (T : (let* t := txt i a in hex_tile t) = Err e -> e = ERR_OUT_OF_RANGE).
    { destruct (txt i a) eqn:I1; cbn [bind]; try discriminate; [|destruct (txt_never _ _ _ I1)]. unfold hex_tile. destruct (hexits _); [destruct (_ <=? _)%nat|]; discriminate. }
    destruct a as [z|z1 z|[] z|z]; assumption.
  - destruct (int i a) eqn:I1; cbn [bind]; try discriminate; [|destruct (int_never _ _ _ I1)]. destruct (int i b) eqn:I2; cbn [bind]; try discriminate; [|destruct (int_never _ _ _ I2)].
    destruct (int i c) eqn:I3; cbn [bind]; try discriminate; [|destruct (int_never _ _ _ I3)]. destruct (int i d) eqn:I4; cbn [bind]; try discriminate; [|destruct (int_never _ _ _ I4)].
    destruct (_ && _); [discriminate|]. intros Q. injection Q as <-. reflexivity.
Qed.

Section Both.
Variables n cells : Z.
Hypothesis Hn : 0 <= n <= 18.
Notation h1 := (ideal (2 ^ n) cells).
Notation h2 := machine.
Notation SR := (MachineSim.SR n cells).
Notation LR := (MachineSim.LR n).
Notation er := (HostSim.er h1 h2 LR).
Notation on := (HostSim.on h1 h2 SR LR).
Lemma int_ok i m v w : SR i m -> er i m v w -> okr eq (int i v) (mint m w).
Proof. intros S E. unfold int, mint. eapply okr_bind; [apply (num_ok n cells _ _ _ _ S E)|]. intros a ? [<- _]. apply okr_ok. reflexivity. Qed.
Lemma kind_same i m (v : ient) (w : ment) : er i m v w -> Machine.is_str w = Machine.is_str v.
Proof. destruct v as [|c ?|b ?|], w as [|d ?|c' ?|]; cbn [HostSim.er]; try contradiction; try reflexivity. intros [<- _]. reflexivity. Qed.
Lemma word_ok i m es ws : SR i m -> Forall2 (er i m) es ws -> match tile_word i es with
  | Ok k => exists t, tile_args m ws = Ok t /\ tiledata t = Ok k
  | Err e => exists t, tile_args m ws = Ok t /\ tiledata t = Err e
  | UB => True end.
Proof.
  intros S F. destruct F as [|e w es ws E F]; [exact I|]. destruct F as [|e2 w2 es ws E2 F].
  - cbn [tile_word tile_args]. rewrite (kind_same i m e w E : @Machine.is_str mloc w = _).
    assert (Nm : match (let* v := int i e in Ok (v mod 65536)) with Ok k => exists t, (let* v := mint m w in Ok (TNum v)) = Ok t /\ tiledata t = Ok k | Err e => exists t, (let* v := mint m w in Ok (TNum v)) = Ok t /\ tiledata t = Err e | UB => True end).
    { pose proof (int_ok _ _ _ _ S E) as Q. destruct (int i e) as [v|x|] eqn:Ei; cbn [bind]; [|destruct (int_never _ _ _ Ei)|exact I].
      destruct Q as (v' & -> & <-). cbn [bind]. eexists. split; reflexivity. }
    assert (Tx : match (let* t := txt i e in hex_tile t) with Ok k => exists t, (let* s := mstr m w in Ok (TStr (str_wide_copy s))) = Ok t /\ tiledata t = Ok k | Err e => exists t, (let* s := mstr m w in Ok (TStr (str_wide_copy s))) = Ok t /\ tiledata t = Err e | UB => True end).
    { pose proof (txt_ok n cells i m e w S E) as Q. destruct (txt i e) as [t|x|] eqn:Ei; cbn [bind]; [|destruct (txt_never _ _ _ Ei)|exact I].
      destruct Q as (v' & -> & -> & _). cbn [bind str_wide_copy]. destruct (hex_tile t) as [k|x|] eqn:H; [|unfold hex_tile in H; destruct (hexits t); try destruct (_ <=? _)%nat; discriminate|exact I].
      eexists. split; [reflexivity|]. apply hex_ok, H. }
    destruct e as [z|c z|[] z|z]; cbn [Machine.is_str]; assumption.
  - destruct F as [|e3 w3 es ws E3 F]; [exact I|]. destruct F as [|e4 w4 es ws E4 F]; [exact I|]. destruct F as [|e5 w5 es ws E5 F]; [|exact I]. cbn [tile_word tile_args].
    pose proof (int_ok _ _ _ _ S E) as Q1. destruct (int i e) as [c|x|] eqn:I1; cbn [bind]; [|destruct (int_never _ _ _ I1)|exact I]. destruct Q1 as (? & -> & <-). cbn [bind].
    pose proof (int_ok _ _ _ _ S E2) as Q2. destruct (int i e2) as [p|x|] eqn:I2; cbn [bind]; [|destruct (int_never _ _ _ I2)|exact I]. destruct Q2 as (? & -> & <-). cbn [bind].
    pose proof (int_ok _ _ _ _ S E3) as Q3. destruct (int i e3) as [h|x|] eqn:I3; cbn [bind]; [|destruct (int_never _ _ _ I3)|exact I]. destruct Q3 as (? & -> & <-). cbn [bind].
    pose proof (int_ok _ _ _ _ S E4) as Q4. destruct (int i e4) as [v|x|] eqn:I4; cbn [bind]; [|destruct (int_never _ _ _ I4)|exact I]. destruct Q4 as (? & -> & <-). cbn [bind].
    destruct (_ && _) eqn:R; (eexists; split; [reflexivity|]); unfold tiledata, to_tiledata; unfold within in R.
    + replace (_ || _) with false by lia. f_equal. ring.
    + replace (_ || _) with true by lia. reflexivity.
Qed.
End Both.
