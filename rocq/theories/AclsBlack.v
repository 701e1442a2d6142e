(** C78: what is seen after ACLS. *)
From Verif Require Import Base BaseLemmas Strs Background Console Graphics Sprites ChrCol Display DisplaySpec DisplayProofs DisplayProps.
From Verif Require Acls AclsRun AclsProps.
Import Acls AclsRun AclsProps.
Open Scope Z_scope.

(** What is then seen: nothing.  The upper screen is black, if the first character of the fonts and of the backgrounds is blank (ACLS does not change the characters)
    and the text cursor is not shown. *)
Definition shows_world (w : world) (s : scene) : Prop :=
  sc_con s = con w /\ sc_bg s = bg w /\ sc_grp s = gfx w /\ sc_spr s = spr w /\ sc_visible s = vis w /\ sc_cursor s = false.
Lemma index_range X Y : on_screen X Y -> 0 <= grp_index X Y < GRP_SIZE.
Proof. unfold on_screen, grp_index, u8, GRP_SIZE. cbv zeta. intros [A B]. rewrite !Z.mod_small with (b := 256) by lia. lia. Qed.
Theorem C78_black : forall data w w' s X Y, cleared data w w' -> shows_world w' s ->
  (forall b i, In b [0; 4; 8] -> (i < 32)%nat -> nth i (chr (sc_res s) b) 0 = 0) -> on_screen X Y ->
  draw_upper s X Y = Some black.
Proof.
  intros data w w' s X Y (CV & CT & CG & CB & _ & _ & CS & _) (S1 & S2 & S3 & S4 & S5 & S6) B P.
  destruct CT as (T1 & T2 & T3 & T4 & T5). destruct CG as (_ & _ & _ & G & _). destruct (G 0 ltac:(auto)) as (_ & G2 & _ & G4).
  destruct CB as (_ & BL & BO & BS & _ & BF). destruct CS as (_ & CS).
  assert (OF : forall l, 0 <= l <= 1 -> ox (bg_ofs (sc_bg s) 0 l) = 0 /\ oy (bg_ofs (sc_bg s) 0 l) = 0).
  { intros l L. rewrite Forall_forall in BF. rewrite S2. unfold bg_ofs. match goal with |- ox ?o = _ /\ _ => destruct (BF o) as (A & C & _) end; [apply nth_In; rewrite BO; lia|]. split; [exact A|exact C]. }
  assert (NS : forall q, In q (sprite_list (sc_spr s) 0) -> active q = false).
  { rewrite S4. unfold sprite_list. intros q Q. apply in_map_iff in Q. destruct Q as (i & <- & I). apply in_seq in I. apply CS; [auto|lia]. }
  assert (BL0 : forall b n i j, In b [0; 4; 8] -> 0 <= i <= 7 -> 0 <= j <= 7 -> n = 0 -> chr_pixel (sc_res s) b n i j = 0).
  { intros b n i j Ib I J ->. unfold chr_pixel. change (32 * (0 mod 256)) with 0. change (0 / 256) with 0. replace (b + 0) with b by lia.
    rewrite B by (exact Ib || lia). destruct (Z.even i); reflexivity. }
  assert (PC : forall b bank pal h v X Y, In b [0; 4; 8] -> chr_colour (sc_res s) b bank 0 pal h v (X mod 8) (Y mod 8) = None).
  { intros b bank pal h v X' Y' Ib. unfold chr_colour. rewrite BL0; [reflexivity|exact Ib| | |reflexivity]; [destruct h|destruct v]; lia. }
  assert (TX : forall x y, con_text (sc_con s) x y = 0). { intros x y. rewrite S1. unfold con_text. rewrite T1. apply nth_repeat. }
  assert (TC : forall x y, con_color (sc_con s) x y = 0). { intros x y. rewrite S1. unfold con_color. rewrite T2. apply nth_repeat. }
  rewrite C76_upper_screen_partial; [|clear B PC BL0|exact P].
  - f_equal. unfold upper_pixel, upper_layers.
    assert (H1 : forall p, sprites_picture s 0 p X Y = None).
    { intros p. unfold sprites_picture. assert (H : forall l, (forall q, In q l -> active q = false) -> first_shown (map (fun q => if active q && (s_prio q =? p)
         then sprite_picture (sc_res s) (if 0 =? 1 then 42 else 12) (if 0 =? 1 then 4 else 1) q X Y else None) l) = None).
      { induction l as [|q l IH]; intros Q; cbn [map first_shown]; [reflexivity|]. rewrite (Q q) by (left; reflexivity). cbn [andb]. apply IH. intros r R. apply Q. right. exact R. }
      apply H. intros q Q. apply NS, in_rev, Q. }
    assert (H2 : grp_picture s 0 X Y = None).
    { unfold grp_picture. rewrite S3, G2, G4; [reflexivity|]. apply index_range. exact P. }
    assert (H3 : text_picture s X Y = None). { unfold text_picture. cbv zeta. rewrite TX. change (to_char 0) with 0. apply PC. cbn; auto. }
    assert (H4 : text_back_picture s X Y = None). { unfold text_back_picture. cbv zeta. rewrite TC. change (0 / 16 mod 16) with 0. change (0 =? 0) with true. cbv iota. apply PC. cbn; auto. }
    assert (H5 : forall l, 0 <= l <= 1 -> bg_picture s 0 l X Y = None).
    { intros l L. unfold bg_picture. cbv zeta. unfold bg_word. rewrite S2. rewrite BS by (assert (l = 0 \/ l = 1) as [->| ->] by lia; cbn; auto). rewrite nth_repeat.
      change (0 mod 1024) with 0. apply (PC 8). cbn; auto. }
    unfold at_prio. rewrite !H1, H2, H3, H4, !H5 by lia. rewrite S6. cbn [when]. repeat match goal with |- context [when ?b None] => replace (when b None) with (@None rgb) by (destruct b; reflexivity) end. reflexivity.
  - unfold scene_ok. split; [intros i I; rewrite S1, T1, nth_repeat; cbn; lia|]. rewrite S1, T3, T4. split; [lia|]. split; [lia|]. split.
    + intros l L. destruct (OF l L) as [-> ->]. split; left; cbn; lia.
    + intros q Q A. rewrite (NS q Q) in A. discriminate.
Qed.

(** The hypotheses are met: the world of C78_used after ACLS, shown with characters that are all blank (or, outside the first one of a bank, anything). *)
Definition demo_banks : banks := mkBanks (fun b => repeat 0 32 ++ repeat 77 (Z.to_nat 8160)) (fun _ => repeat 31 256).
Definition demo_scene (w : world) : scene :=
  mkScene (con w) false (bg w) (gfx w) (spr w) demo_banks (vis w) 0 (fun _ _ => mkC 0 false false 0).
Example C78_black_used : exists w', cmd_acls 100 start_vars [] demo_world = Back start_vars [] w' /\
  draw_upper (demo_scene w') 100 50 = Some black.
Proof.
  destruct C78_used as [S _]. destruct (C78_acls_partial demo_data demo_world start_vars [] S ltac:(cbn; lia)) as (w' & A & B).
  exists w'. split; [apply A; lia|]. apply (C78_black demo_data demo_world w'); [exact B| | |unfold on_screen; lia].
  - unfold shows_world, demo_scene. cbn. repeat split.
  - intros b i _ I. cbn [demo_scene sc_res demo_banks chr]. rewrite app_nth1 by (rewrite repeat_length; exact I). apply nth_repeat.
Qed.
Print Assumptions C78_black.
Print Assumptions C78_black_used.
