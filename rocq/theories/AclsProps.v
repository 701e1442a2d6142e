(** C78: ACLS clears both screens and leaves the program alone. *)
From Coq Require Import String Ascii.
From Verif Require Import Base BaseLemmas Tokens Strs Memory Resources ResourcesProps Labels Bytecode BytecodeSpec Runner Lexer Link Vars Num Machine Acls AclsRun.
From Verif Require Console Background Graphics Sprites Panel Display.
From Verif Require Import Files FilesSpec FilesProofs InitProps.
Open Scope Z_scope.

(** ** What a cleared screen is *)
(** the text: blank in colour 0, the cursor at the top left, the current colour 0 *)
Definition blank_text (c : Console.console) : Prop :=
  Console.text c = repeat 0 768 /\ Console.color c = repeat 0 768 /\ Console.cx c = 0 /\ Console.cy c = 0 /\ Console.col c = 0.
(** graphics: screen [s] draws on and shows page [s], in front of priority 3, page [s] is empty; pages 2 and 3 as before; GPAGE 0, GCOLOR 0, GDRAWMD 0 *)
Definition blank_graphics (g g' : Graphics.gfx) : Prop :=
  Graphics.screen g' = 0 /\ Graphics.color g' = 0 /\ Graphics.drawmode g' = false /\
  (forall s, s = 0 \/ s = 1 -> Graphics.drawpage g' s = s /\ Graphics.displaypage g' s = s /\ Graphics.prio g' s = 3 /\
     forall i, 0 <= i < Graphics.GRP_SIZE -> Graphics.pages g' s i = 0) /\
  (forall n, n <> 0 -> n <> 1 -> Graphics.pages g' n = Graphics.pages g n).
(** backgrounds: both layers of both screens (banks 2, 3 and 6, 7) empty and at offset (0,0), not moving; BGPAGE 0; the other banks as before *)
Definition blank_background (b b' : Background.bg) : Prop :=
  Background.page b' = 0 /\ length (Background.scr b') = 8%nat /\ length (Background.ofs b') = 4%nat /\
  (forall n, In n [2; 3; 6; 7]%nat -> nth n (Background.scr b') [] = repeat 0 (Z.to_nat 4096)) /\
  (forall n, ~ In n [2; 3; 6; 7]%nat -> nth n (Background.scr b') [] = nth n (Background.scr b) []) /\
  Forall (fun o => Background.ox o = 0 /\ Background.oy o = 0 /\ Background.time o = 0) (Background.ofs b').
(** sprites: none on either screen; SPPAGE 0 *)
Definition no_sprites (s : Sprites.sprites) : Prop :=
  Sprites.page_ s = 0 /\ forall p i, p = 0 \/ p = 1 -> 0 <= i < 100 -> Sprites.active (Sprites.info s p i) = false.
(** palettes: those of the files [data 0], [data 1], [data 2], on both screens; other resources and the disk as before *)
Definition first_colours (data : Z -> list Z) (f f' : st) : Prop :=
  (forall k, 0 <= k < 6 -> bufs f' (Col k) = data (k mod 3)) /\ (forall b, (forall k, 0 <= k < 6 -> b <> Col k) -> bufs f' b = bufs f b) /\ same_files f f'.
Definition full_clip (c : clip) : Prop := x1 c = 0 /\ y1 c = 0 /\ x2 c = 255 /\ y2 c = 191.
(** the panel: its text blank, the four icons gone; the rest as before *)
Definition blank_panel (p p' : Panel.panel) : Prop :=
  Console.text (Panel.ptext p') = repeat 0 768 /\ Console.color (Panel.ptext p') = repeat 0 768 /\
  (forall i, (2 <= i < 6)%nat -> exists c, nth_error (Panel.icons p') i = Some (false, c)) /\
  Panel.ptype p' = Panel.ptype p /\ Panel.fkeys p' = Panel.fkeys p /\ Panel.ktext p' = Panel.ktext p /\ Panel.iconpage p' = Panel.iconpage p.
Definition cleared (data : Z -> list Z) (w w' : world) : Prop :=
  vis w' = 63 /\ blank_text (con w') /\ blank_graphics (gfx w) (gfx w') /\ blank_background (bg w) (bg w') /\
  full_clip (clips w' 0) /\ full_clip (clips w' 1) /\ no_sprites (spr w') /\ first_colours data (files w) (files w') /\ blank_panel (pnl w) (pnl w').
(** what is true of every state of the program: the sizes of the tables and buffers, and the palette files that belong to it *)
Definition sound (data : Z -> list Z) (w : world) : Prop :=
  length (Background.scr (bg w)) = 8%nat /\ length (Background.ofs (bg w)) = 4%nat /\ length (Panel.icons (pnl w)) = 6%nat /\ well_formed (files w) /\
  forall m, 0 <= m < 3 -> zlen (data m) = 512 /\ exists c, file (disk (files w)) (original_col m) = Some c /\ plain_file (data m) c.

(** ** the commands, one after the other *)
Definition after_head (w : world) : world :=
  mkW 63 (Console.cmd_cls (Console.cmd_color (con w) 0 (Some 0))) (Graphics.set_drawmode (gfx w) false) (bg w) (clips w) (spr w) (files w)
    (cls_panel (Panel.set_icons (pnl w) (Panel.icon_off (Panel.icon_off (Panel.icon_off (Panel.icon_off (Panel.icons (pnl w)) 2) 3) 4) 5))).
Lemma head_ok w : run_script command script_head w = Ok (after_head w).
Proof. reflexivity. Qed.
Definition page_gfx (g : Graphics.gfx) (p : Z) : Graphics.gfx :=
  let g := Graphics.set_color (Graphics.set_displaypage (Graphics.set_drawpage (Graphics.set_screen g p) p) p) 0 in
  Graphics.set_prio (Graphics.set_canvas g (fun i => if (0 <=? i) && (i <? Graphics.GRP_SIZE) then 0 else Graphics.canvas g i)) 3.
Definition page_bg (b : Background.bg) (p : Z) : Background.bg :=
  let b := {| Background.page := p; Background.scr := Background.scr b; Background.ofs := Background.ofs b |} in
  let still b l := let o := Background.get_ofs b l in
    Background.set_ofs b l {| Background.ox := 0; Background.oy := 0; Background.step_x := Background.step_x o; Background.step_y := Background.step_y o; Background.time := 0 |} in
  let b := still (still b 0) 1 in let z := repeat 0 (Z.to_nat 4096) in
  Background.set_bank (Background.set_bank b 0 z) 1 z.
Definition page_spr (s : Sprites.sprites) (p : Z) : Sprites.sprites :=
  let s := Sprites.mkS p (Sprites.info s) (Sprites.sphitno s) (Sprites.sphitx s) (Sprites.sphity s) (Sprites.sphitt s) in fst (Sprites.cmd_spclr s None).
Definition after_page (w : world) (p : Z) (f : st) : world :=
  mkW (vis w) (con w) (page_gfx (gfx w) p) (page_bg (bg w) p) (Graphics.upd2 (clips w) p (mkClip 0 0 255 191)) (page_spr (spr w) p) f (pnl w).
(** the three COLINIT *)
Definition colours (p : Z) (f : st) : outcome st :=
  let pages := mkPages p p p in
  let* f := ends (cmd_colinit pages f (Some ([66; 71], None))) in
  let* f := ends (cmd_colinit pages f (Some ([83; 80], None))) in ends (cmd_colinit pages f (Some ([71; 82; 80], None))).
Section Page.
Context (p : Z) (P : p = 1 \/ p = 0).
Ltac both := destruct P as [-> | ->]; reflexivity.
Lemma c_gpage w : command CMD_GPAGE [whole p; whole p; whole p] w = Ok (w_gfx w (Graphics.set_displaypage (Graphics.set_drawpage (Graphics.set_screen (gfx w) p) p) p)).
Proof. both. Qed.
Lemma c_gcolor w : command CMD_GCOLOR [whole 0] w = Ok (w_gfx w (Graphics.set_color (gfx w) 0)).
Proof. reflexivity. Qed.
Lemma c_gcls w : command CMD_GCLS [] w = Ok (w_gfx w (Graphics.set_canvas (gfx w) (fun i => if (0 <=? i) && (i <? Graphics.GRP_SIZE) then Graphics.color (gfx w) else Graphics.canvas (gfx w) i))).
Proof. reflexivity. Qed.
Lemma c_gprio w : command CMD_GPRIO [whole 3] w = Ok (w_gfx w (Graphics.set_prio (gfx w) 3)).
Proof. reflexivity. Qed.
Lemma c_bgpage w : command CMD_BGPAGE [whole p] w = Ok (w_bg w {| Background.page := p; Background.scr := Background.scr (bg w); Background.ofs := Background.ofs (bg w) |}).
Proof. both. Qed.
Definition still (b : Background.bg) (l : Z) := let o := Background.get_ofs b l in
    Background.set_ofs b l {| Background.ox := 0; Background.oy := 0; Background.step_x := Background.step_x o; Background.step_y := Background.step_y o; Background.time := 0 |}.
Lemma c_bgofs w l : l = 0 \/ l = 1 -> command CMD_BGOFS [whole l; whole 0; whole 0] w = Ok (w_bg w (still (bg w) l)).
Proof. intros [-> | ->]; reflexivity. Qed.
Lemma c_bgclr w : command CMD_BGCLR [] w = Ok (w_bg w (Background.set_bank (Background.set_bank (bg w) 0 (repeat 0 (Z.to_nat 4096))) 1 (repeat 0 (Z.to_nat 4096)))).
Proof. unfold command. change (CMD_BGCLR =? CMD_BGCLR) with true. change (CMD_BGCLR =? CMD_VISIBLE) with false.
  repeat match goal with |- context [if CMD_BGCLR =? ?x then _ else _] => change (CMD_BGCLR =? x) with false; cbv iota end. reflexivity. Qed.
Lemma c_bgclip w : command CMD_BGCLIP [whole 0; whole 0; whole 31; whole 23] w = Ok (w_clips w (Graphics.upd2 (clips w) (Background.page (bg w)) (mkClip 0 0 255 191))).
Proof. reflexivity. Qed.
Lemma c_sppage w : command CMD_SPPAGE [whole p] w = Ok (w_spr w (Sprites.mkS p (Sprites.info (spr w)) (Sprites.sphitno (spr w)) (Sprites.sphitx (spr w)) (Sprites.sphity (spr w)) (Sprites.sphitt (spr w)))).
Proof. both. Qed.
Lemma c_spclr w : Sprites.page_ (spr w) = p -> command CMD_SPCLR [] w = Ok (w_spr w (fst (Sprites.cmd_spclr (spr w) None))).
Proof.
  intros E. change (command CMD_SPCLR [] w) with (let* s := ends (Sprites.cmd_spclr (spr w) None) in Ok (w_spr w s)).
  unfold Sprites.cmd_spclr. rewrite E. destruct P as [-> | ->]; reflexivity.
Qed.
Lemma c_colinit w s : command CMD_COLINIT [GStr s] w =
  let* f := ends (cmd_colinit (mkPages (Background.page (bg w)) (Sprites.page_ (spr w)) (Graphics.screen (gfx w))) (files w) (Some (s, None))) in Ok (w_files w f).
Proof. reflexivity. Qed.
Lemma spr_page s : Sprites.page_ (fst (Sprites.cmd_spclr s None)) = Sprites.page_ s.
Proof. unfold Sprites.cmd_spclr. destruct (_ && _); reflexivity. Qed.
Lemma gfx_part w r : run_script command ((CMD_GPAGE, [whole p; whole p; whole p]) :: (CMD_GCOLOR, [whole 0]) :: (CMD_GCLS, []) :: (CMD_GPRIO, [whole 3]) :: r) w =
  run_script command r (w_gfx w (page_gfx (gfx w) p)).
Proof. cbn [run_script]. rewrite c_gpage. cbn [bind]. rewrite c_gcolor. cbn [bind]. rewrite c_gcls. cbn [bind]. rewrite c_gprio. cbn [bind]. reflexivity. Qed.
Lemma bg_part w r : run_script command ((CMD_BGPAGE, [whole p]) :: (CMD_BGOFS, [whole 0; whole 0; whole 0]) :: (CMD_BGOFS, [whole 1; whole 0; whole 0]) :: (CMD_BGCLR, []) ::
    (CMD_BGCLIP, [whole 0; whole 0; whole 31; whole 23]) :: r) w =
  run_script command r (w_clips (w_bg w (page_bg (bg w) p)) (Graphics.upd2 (clips w) p (mkClip 0 0 255 191))).
Proof.
  cbn [run_script]. rewrite c_bgpage. cbn [bind]. rewrite c_bgofs by auto. cbn [bind]. rewrite c_bgofs by auto. cbn [bind]. rewrite c_bgclr. cbn [bind]. rewrite c_bgclip. cbn [bind].
  cbn [w_bg w_clips bg clips]. reflexivity.
Qed.
Lemma spr_part w r : run_script command ((CMD_SPPAGE, [whole p]) :: (CMD_SPCLR, []) :: r) w = run_script command r (w_spr w (page_spr (spr w) p)).
Proof. cbn [run_script]. rewrite c_sppage. cbn [bind]. rewrite c_spclr by reflexivity. cbn [bind]. reflexivity. Qed.
Lemma col_part w r : Background.page (bg w) = p -> Sprites.page_ (spr w) = p -> Graphics.screen (gfx w) = p ->
  run_script command ((CMD_COLINIT, [GStr [66; 71]]) :: (CMD_COLINIT, [GStr [83; 80]]) :: (CMD_COLINIT, [GStr [71; 82; 80]]) :: r) w =
  let* f := colours p (files w) in run_script command r (w_files w f).
Proof.
  intros E1 E2 E3. unfold colours. cbv zeta. cbn [run_script]. rewrite c_colinit, E1, E2, E3.
  destruct (ends (cmd_colinit (mkPages p p p) (files w) _)) as [f1| |]; cbn [bind]; [|reflexivity|reflexivity].
  rewrite c_colinit. cbn [w_files bg spr gfx files]. rewrite E1, E2, E3. destruct (ends (cmd_colinit (mkPages p p p) f1 _)) as [f2| |]; cbn [bind]; [|reflexivity|reflexivity].
  rewrite c_colinit. cbn [w_files bg spr gfx files]. rewrite E1, E2, E3. destruct (ends (cmd_colinit (mkPages p p p) f2 _)) as [f3| |]; cbn [bind]; reflexivity.
Qed.
Lemma page_ok w : run_script command (script_page p) w = let* f := colours p (files w) in Ok (after_page w p f).
Proof.
  unfold script_page. rewrite gfx_part, bg_part, spr_part, col_part; [|reflexivity| |reflexivity].
  - cbn [w_spr w_clips w_bg w_gfx w_files files gfx bg clips spr]. destruct (colours p (files w)); reflexivity.
  - cbn [w_spr spr]. unfold page_spr. apply spr_page.
Qed.
End Page.

(** ** the palettes *)
Definition sized (f : st) : Prop := forall b, zlen (bufs f b) = size_of b.
Definition put_col (f : st) (k : Z) (d : list Z) : st := set_regen_col (set_buf f (Col k) d).
Lemma put_bufs f k d b : bufs (put_col f k d) b = if buf_eq_dec b (Col k) then d else bufs f b. Proof. reflexivity. Qed.
Lemma colinit_ok p f name m c data : p = 1 \/ p = 0 -> sized f -> In (name, m) [([66; 71], 0); ([83; 80], 1); ([71; 82; 80], 2)] ->
  file (disk f) (original_col m) = Some c -> plain_file data c -> zlen data = 512 ->
  ends (cmd_colinit (mkPages p p p) f (Some (name, None))) = Ok (put_col f (3 * p + m) data).
Proof.
  intros P S I F C L. unfold cmd_colinit. cbn [In] in I.
  destruct I as [I|[I|[I|[]]]]; inversion I; subst; cbv zeta;
  [change (zs "COL"%string ++ _) with (text "COL"%string ++ [48 + 0])|change (zs "COL"%string ++ _) with (text "COL"%string ++ [48 + 1])|change (zs "COL"%string ++ _) with (text "COL"%string ++ [48 + 2])].
  1: replace (get_col_resource _ _) with (Ok (Col (3 * p + 0))) by (destruct P as [-> | ->]; reflexivity).
  2: replace (get_col_resource _ _) with (Ok (Col (3 * p + 1))) by (destruct P as [-> | ->]; reflexivity).
  3: replace (get_col_resource _ _) with (Ok (Col (3 * p + 2))) by (destruct P as [-> | ->]; reflexivity).
  - rewrite (load_col_ok f _ 0 c data S ltac:(lia) F C L). reflexivity.
  - rewrite (load_col_ok f _ 1 c data S ltac:(lia) F C L). reflexivity.
  - rewrite (load_col_ok f _ 2 c data S ltac:(lia) F C L). reflexivity.
Qed.
Definition page_files (f : st) (p : Z) (data : Z -> list Z) : st := put_col (put_col (put_col f (3 * p + 0) (data 0)) (3 * p + 1) (data 1)) (3 * p + 2) (data 2).
Lemma sized_put f k d : sized f -> zlen d = 512 -> sized (put_col f k d).
Proof. intros S L b. rewrite put_bufs. destruct (buf_eq_dec b (Col k)) as [->|_]; [exact L|apply S]. Qed.
Lemma colours_ok p f data : p = 1 \/ p = 0 -> sized f ->
  (forall m, 0 <= m < 3 -> zlen (data m) = 512 /\ exists c, file (disk f) (original_col m) = Some c /\ plain_file (data m) c) ->
  colours p f = Ok (page_files f p data).
Proof.
  intros P S D. unfold colours, page_files. cbv zeta.
  destruct (D 0 ltac:(lia)) as (L0 & c0 & F0 & C0). destruct (D 1 ltac:(lia)) as (L1 & c1 & F1 & C1). destruct (D 2 ltac:(lia)) as (L2 & c2 & F2 & C2).
  rewrite (colinit_ok p f [66; 71] 0 c0 (data 0)) by (cbn [In]; auto). cbn [bind].
  rewrite (colinit_ok p _ [83; 80] 1 c1 (data 1)); [|exact P|apply sized_put; assumption|cbn [In]; auto|exact F1|exact C1|exact L1]. cbn [bind].
  rewrite (colinit_ok p _ [71; 82; 80] 2 c2 (data 2)); [reflexivity|exact P|repeat apply sized_put; assumption|cbn [In]; auto|exact F2|exact C2|exact L2].
Qed.

Definition final (data : Z -> list Z) (w : world) : world :=
  let w := after_head w in let w := after_page w 1 (page_files (files w) 1 data) in after_page w 0 (page_files (files w) 0 data).
Lemma script_ok data w : sound data w -> run_script command script w = Ok (final data w).
Proof.
  intros (_ & _ & _ & WF & D). assert (S : sized (files w)) by exact (wf_size _ WF). unfold script. rewrite !run_script_app, head_ok. cbn [bind]. rewrite run_script_app, page_ok by auto.
  change (files (after_head w)) with (files w). rewrite (colours_ok 1 (files w) data) by auto. cbn [bind]. rewrite page_ok by auto.
  change (files (after_page (after_head w) 1 (page_files (files w) 1 data))) with (page_files (files w) 1 data).
  rewrite (colours_ok 0 _ data); [reflexivity|auto| |exact D]. unfold page_files. repeat apply sized_put; try apply D; try lia. exact S.
Qed.
(** ** the result *)
Lemma upd_nth {A} (l : list A) i x d n : (i < length l)%nat -> nth n (upd l i x) d = if (n =? i)%nat then x else nth n l d.
Proof.
  intros L. destruct (n =? i)%nat eqn:E.
  - apply Nat.eqb_eq in E. subst. apply nth_upd_same. exact L.
  - apply Nat.eqb_neq in E. apply nth_upd_other. congruence.
Qed.

Lemma scr_upd b l z : Background.scr (Background.set_bank b l z) = upd (Background.scr b) (Background.bg_page b l) z. Proof. reflexivity. Qed.
Lemma page_scr b p : Background.scr (page_bg b p) =
  upd (upd (Background.scr b) (Z.to_nat (4 * p + 2 + 0)) (repeat 0 (Z.to_nat 4096))) (Z.to_nat (4 * p + 2 + 1)) (repeat 0 (Z.to_nat 4096)).
Proof. reflexivity. Qed.
Lemma page_ofs b p : Background.ofs (page_bg b p) =
  let o1 := Background.get_ofs {| Background.page := p; Background.scr := Background.scr b; Background.ofs := Background.ofs b |} 0 in
  let l := upd (Background.ofs b) (Z.to_nat (2 * p + 0)) {| Background.ox := 0; Background.oy := 0; Background.step_x := Background.step_x o1; Background.step_y := Background.step_y o1; Background.time := 0 |} in
  let o2 := Background.get_ofs {| Background.page := p; Background.scr := Background.scr b; Background.ofs := l |} 1 in
  upd l (Z.to_nat (2 * p + 1)) {| Background.ox := 0; Background.oy := 0; Background.step_x := Background.step_x o2; Background.step_y := Background.step_y o2; Background.time := 0 |}.
Proof. reflexivity. Qed.

Lemma scr_ok b : length (Background.scr b) = 8%nat -> let l := Background.scr (page_bg (page_bg b 1) 0) in
  length l = 8%nat /\ (forall n, In n [2; 3; 6; 7]%nat -> nth n l [] = repeat 0 (Z.to_nat 4096)) /\ (forall n, ~ In n [2; 3; 6; 7]%nat -> nth n l [] = nth n (Background.scr b) []).
Proof.
  intros L l. subst l. rewrite !page_scr. change (Z.to_nat (4 * 1 + 2 + 0)) with 6%nat. change (Z.to_nat (4 * 1 + 2 + 1)) with 7%nat. change (Z.to_nat (4 * 0 + 2 + 0)) with 2%nat. change (Z.to_nat (4 * 0 + 2 + 1)) with 3%nat.
  generalize (repeat 0 (Z.to_nat 4096)). intros z. destruct (Background.scr b) as [|s0 [|s1 [|s2 [|s3 [|s4 [|s5 [|s6 [|s7 [|]]]]]]]]]; try discriminate. cbn [upd length]. split; [reflexivity|]. split.
  - intros n [<-|[<-|[<-|[<-|[]]]]]; reflexivity.
  - intros n N. cbn [In] in N. do 8 (destruct n as [|n]; [cbn [nth]; try reflexivity; exfalso; apply N; auto|]). destruct n; reflexivity.
Qed.
Lemma ofs_ok b : length (Background.ofs b) = 4%nat -> let l := Background.ofs (page_bg (page_bg b 1) 0) in
  length l = 4%nat /\ Forall (fun o => Background.ox o = 0 /\ Background.oy o = 0 /\ Background.time o = 0) l.
Proof.
  intros L l. subst l. rewrite !page_ofs. cbv zeta. change (Z.to_nat (2 * 1 + 0)) with 2%nat. change (Z.to_nat (2 * 1 + 1)) with 3%nat. change (Z.to_nat (2 * 0 + 0)) with 0%nat. change (Z.to_nat (2 * 0 + 1)) with 1%nat.
  destruct (Background.ofs b) as [|s0 [|s1 [|s2 [|s3 [|]]]]]; try discriminate. cbn [upd length]. split; [reflexivity|]. repeat constructor.
Qed.
Lemma gfx_ok g : blank_graphics g (page_gfx (page_gfx (Graphics.set_drawmode g false) 1) 0).
Proof.
  unfold blank_graphics. do 3 (split; [reflexivity|]). split.
  - intros s [-> | ->]; (split; [reflexivity|]; split; [reflexivity|]; split; [reflexivity|]); intros i I.
    + change (Graphics.pages _ 0 i) with (if (0 <=? i) && (i <? Graphics.GRP_SIZE) then 0 else Graphics.pages g 0 i). replace ((0 <=? i) && (i <? Graphics.GRP_SIZE)) with true by lia. reflexivity.
    + change (Graphics.pages _ 1 i) with (if (0 <=? i) && (i <? Graphics.GRP_SIZE) then 0 else Graphics.pages g 1 i). replace ((0 <=? i) && (i <? Graphics.GRP_SIZE)) with true by lia. reflexivity.
  - intros n N0 N1. unfold page_gfx. cbn [Graphics.set_prio Graphics.set_canvas Graphics.pages Graphics.set_color Graphics.set_displaypage Graphics.set_drawpage Graphics.set_screen Graphics.set_drawmode
      Graphics.draw_no Graphics.drawpage Graphics.screen]. unfold Graphics.upd2 at 1. replace (n =? _) with false by (symmetry; apply Z.eqb_neq; exact N0).
    unfold Graphics.upd2 at 1. replace (n =? _) with false by (symmetry; apply Z.eqb_neq; exact N1). reflexivity.
Qed.
Lemma spr_ok s : no_sprites (page_spr (page_spr s 1) 0).
Proof.
  unfold no_sprites. split; [reflexivity|]. intros p i [-> | ->] I.
  - change (Sprites.info _ 0 i) with (if (0 <=? i) && (i <? Sprites.MAX_SPRITES) then Sprites.set_active false (Sprites.info s 0 i) else Sprites.info s 0 i).
    change Sprites.MAX_SPRITES with 100. replace ((0 <=? i) && (i <? 100)) with true by lia. reflexivity.
  - change (Sprites.info _ 1 i) with (if (0 <=? i) && (i <? Sprites.MAX_SPRITES) then Sprites.set_active false (Sprites.info s 1 i) else Sprites.info s 1 i).
    change Sprites.MAX_SPRITES with 100. replace ((0 <=? i) && (i <? 100)) with true by lia. reflexivity.
Qed.
Lemma files_ok f data : first_colours data f (page_files (page_files f 1 data) 0 data).
Proof.
  unfold first_colours. unfold page_files. split; [|split; [|intro q; reflexivity]].
  - intros k K. rewrite !put_bufs. assert (K' : k = 0 \/ k = 1 \/ k = 2 \/ k = 3 \/ k = 4 \/ k = 5) by lia.
    destruct K' as [->|[->|[->|[->|[->| ->]]]]]; reflexivity.
  - intros b N. rewrite !put_bufs. do 6 (destruct (buf_eq_dec _ _) as [E|_]; [exfalso; revert E; apply N; lia|]). reflexivity.
Qed.
Lemma icons_ok (l : list (bool * Z)) i : length l = 6%nat -> (2 <= i < 6)%nat ->
  exists c, nth_error (Panel.icon_off (Panel.icon_off (Panel.icon_off (Panel.icon_off l 2) 3) 4) 5) i = Some (false, c).
Proof.
  intros L I. destruct l as [|[b0 c0] [|[b1 c1] [|[b2 c2] [|[b3 c3] [|[b4 c4] [|[b5 c5] [|]]]]]]]; try discriminate.
  assert (I' : (i = 2 \/ i = 3 \/ i = 4 \/ i = 5)%nat) by lia. destruct I' as [->|[->|[->| ->]]]; eexists; reflexivity.
Qed.
Lemma final_ok data w : sound data w -> cleared data w (final data w).
Proof.
  intros (LS & LO & LI & WF & D). unfold cleared.
  split; [reflexivity|]. split; [repeat split; reflexivity|]. split; [exact (gfx_ok (gfx w))|]. split.
  { destruct (scr_ok (bg w) LS) as (A1 & A2 & A3). destruct (ofs_ok (bg w) LO) as (B1 & B2). change (bg (final data w)) with (page_bg (page_bg (bg w) 1) 0).
    unfold blank_background. repeat (split; [assumption || reflexivity|]). exact B2. }
  split; [repeat split|]. split; [repeat split|]. split; [exact (spr_ok (spr w))|]. split; [exact (files_ok (files w) data)|].
  unfold blank_panel. split; [reflexivity|]. split; [reflexivity|]. split; [|repeat split; reflexivity].
  intros i I. exact (icons_ok (Panel.icons (pnl w)) i LI I).
Qed.

(** ** C78 *)
(** ACLS, whatever is on the screens: everything is cleared (see [cleared]); the program goes on with its own variables and its loops and subroutine calls as they were,
    unless these fill the call stack. *)
Theorem C78_acls_partial : forall data w v k, sound data w -> (length k < 255)%nat ->
  exists w', (forall n, (100 <= n)%nat -> cmd_acls n v k w = Back v k w') /\ cleared data w w'.
Proof.
  intros data w v k S L. exists (final data w). split; [|apply final_ok, S].
  intros n N. replace n with (100 + (n - 100))%nat by lia. set (m := (n - 100)%nat). unfold cmd_acls.
  change acls_linked with (Ok (the_code, {| Labels.label_count := 0; Labels.l_entry := [] |}, @nil err)).
  cbv iota. match goal with |- context [Link.run ?a ?b ?c ?d] => change (Link.run a b c d) with (Link.run (h := inside_host command) (lab0 command) the_code (100 + m) (cfg0 command 0 [] k start_vars w)) end.
  rewrite inside_run. replace (length k =? 255)%nat with false by (symmetry; apply Nat.eqb_neq; lia). rewrite (script_ok data w S). reflexivity.
Qed.

(** with 255 loops and calls waiting it cannot be run: the program stops with an error, and its variables are gone *)
Theorem C78_full_stack_refuted : forall data w v k n, sound data w -> length k = 255%nat -> (100 <= n)%nat -> cmd_acls n v k w = Lost ERR_OUT_OF_MEMORY.
Proof.
  intros data w v k n S L N. replace n with (100 + (n - 100))%nat by lia. set (m := (n - 100)%nat). unfold cmd_acls.
  change acls_linked with (Ok (the_code, {| Labels.label_count := 0; Labels.l_entry := [] |}, @nil err)).
  cbv iota. match goal with |- context [Link.run ?a ?b ?c ?d] => change (Link.run a b c d) with (Link.run (h := inside_host command) (lab0 command) the_code (100 + m) (cfg0 command 0 [] k start_vars w)) end.
  rewrite inside_run, L. change (255 =? 255)%nat with true. cbv iota. rewrite head_ok. reflexivity.
Qed.

(** The hypotheses are met: a screen with something on it, a loop and a call waiting. *)
Definition demo_data (m : Z) : list Z := repeat (m + 7) 512.
Definition demo_files : st :=
  mkSt (mkFs (fun q => Some ((ResourcesSpec.text "PETC"%string ++ repeat 0 8) ++ demo_data (nth 13 q 0 - 48) ++ [])) (fun _ => false)) [] (fun b => repeat 3 (Z.to_nat (size_of b))) 0 0 0 [] [] (fun _ => false) false.
Definition demo_world : world :=
  mkW 5 (Console.cmd_color Console.init_console 7 (Some 2)) (Graphics.init_graphics 9 (fun n i => n + i))
    {| Background.page := 1; Background.scr := repeat (repeat 5 4096) 8; Background.ofs := repeat {| Background.ox := 4096; Background.oy := -3; Background.step_x := 1; Background.step_y := 1; Background.time := 9 |} 4 |}
    (fun _ => mkClip 8 8 15 15) (Sprites.mkS 7 (fun p i => Sprites.set_active true (Sprites.info Sprites.init_sprites p i)) 0 0 0 0) demo_files Panel.start_panel.
Example C78_used : sound demo_data demo_world /\ exists w', cmd_acls 100 start_vars [CFor 5 (Caller 3); CGosub 17] demo_world = Back start_vars [CFor 5 (Caller 3); CGosub 17] w' /\ cleared demo_data demo_world w'.
Proof.
  assert (S : sound demo_data demo_world).
  { split; [reflexivity|]. split; [reflexivity|]. split; [reflexivity|]. split.
    - constructor; cbn [files demo_world demo_files bufs prg_len mem_len search_path]; [|lia|lia|cbn; lia].
      intros b. unfold zlen. rewrite repeat_length, Z2Nat.id; [reflexivity|]. destruct b; cbn; lia.
    - intros m M. split; [unfold demo_data, zlen; rewrite repeat_length; reflexivity|]. eexists. split; [reflexivity|].
      replace (nth 13 (original_col m) 0 - 48) with m by (assert (m = 0 \/ m = 1 \/ m = 2) as [->|[->| ->]] by lia; reflexivity).
      apply internal_format; reflexivity. }
  split; [exact S|]. destruct (C78_acls_partial demo_data demo_world start_vars [CFor 5 (Caller 3); CGosub 17] S ltac:(cbn; lia)) as (w' & A & B). exists w'. split; [apply A; lia|exact B].
Qed.
Print Assumptions C78_acls_partial.
Print Assumptions C78_full_stack_refuted.
Print Assumptions C78_used.
