(** ACLS (source/system.c:70-111): a BASIC program of ten lines, compiled and run inside the running one, on the whole of the screens.

    The state is put together from the models of the single subsystems; only the palettes of Files.st are used here (the character patterns of the
    layers are in Background.v, the graphics pages in Graphics.v). *)
From Coq Require Import String Ascii.
From Verif Require Import Base Tokens Strs Memory Resources Labels Bytecode Runner Lexer Link TokTest Vars Num Machine.
From Verif Require Console Background Graphics Sprites Files Panel Display.
Open Scope Z_scope.

(** background.h:38-45 struct bg clip, in pixels *)
Record clip := mkClip { x1 : Z; y1 : Z; x2 : Z; y2 : Z }.
Record world := mkW { vis : Z;                    (* res.visible *)
                      con : Console.console; gfx : Graphics.gfx; bg : Background.bg; clips : Z -> clip; spr : Sprites.sprites; files : Files.st; pnl : Panel.panel }.
Definition w_vis w v := mkW v (con w) (gfx w) (bg w) (clips w) (spr w) (files w) (pnl w).
Definition w_con w v := mkW (vis w) v (gfx w) (bg w) (clips w) (spr w) (files w) (pnl w).
Definition w_gfx w v := mkW (vis w) (con w) v (bg w) (clips w) (spr w) (files w) (pnl w).
Definition w_bg w v := mkW (vis w) (con w) (gfx w) v (clips w) (spr w) (files w) (pnl w).
Definition w_clips w v := mkW (vis w) (con w) (gfx w) (bg w) v (spr w) (files w) (pnl w).
Definition w_spr w v := mkW (vis w) (con w) (gfx w) (bg w) (clips w) v (files w) (pnl w).
Definition w_files w v := mkW (vis w) (con w) (gfx w) (bg w) (clips w) (spr w) v (pnl w).
Definition w_pnl w v := mkW (vis w) (con w) (gfx w) (bg w) (clips w) (spr w) (files w) v.

(** the arguments of a command as it finds them on the value stack *)
Inductive given := GNum (v : Z) | GStr (s : list Z) | GOp.

(** background.c:199-210 cmd_bgclip *)
Definition cmd_bgclip (w : world) (a b c d : Z) : outcome world :=
  let bad v hi := (FP_TO_INT v <? 0) || (hi <? FP_TO_INT v) in
  if bad a 31 || bad b 23 || bad c 31 || bad d 23 then Err ERR_OUT_OF_RANGE
  else Ok (w_clips w (Graphics.upd2 (clips w) (Background.page (bg w)) (mkClip (8 * FP_TO_INT a) (8 * FP_TO_INT b) (8 * FP_TO_INT c + 7) (8 * FP_TO_INT d + 7)))).
(** console.c:179-190: CLS clears the text of the panel, too *)
Definition cls_panel (p : Panel.panel) : Panel.panel :=
  let c := Panel.ptext p in
  Panel.set_ptext p {| Console.cx := Console.cx c; Console.cy := Console.cy c; Console.tabstep := Console.tabstep c; Console.sys_tabstep := Console.sys_tabstep c;
    Console.col := Console.col c; Console.text := repeat 0 768; Console.color := repeat 0 768 |}.
Definition ends {A} (x : A * fin) : outcome A := match x with (a, Done) => Ok a | (_, Raised e) => Err e | (_, Crash) => UB end.
Definition vis_of (g : given) : Display.vis_arg := match g with GNum v => Display.VNum v | GStr _ => Display.VStr | GOp => Display.VOmitted end.

(** The places of the commands in the table of tokens.c:20-41 *)
Definition CMD_COLOR := 2. Definition CMD_CLS := 18. Definition CMD_VISIBLE := 19. Definition CMD_BGCLIP := 27. Definition CMD_BGCLR := 28. Definition CMD_BGOFS := 39.
Definition CMD_BGPAGE := 40. Definition CMD_COLINIT := 48. Definition CMD_GCLS := 59. Definition CMD_GCOLOR := 60. Definition CMD_GDRAWMD := 62. Definition CMD_GPAGE := 65.
Definition CMD_GPRIO := 68. Definition CMD_ICONCLR := 70. Definition CMD_SPCLR := 91. Definition CMD_SPPAGE := 96.
(** the commands ACLS uses, on the whole state; other commands and argument lists are not modelled here *)
Definition command (k : Z) (args : list given) (w : world) : outcome world :=
  let pages := mkPages (Background.page (bg w)) (Sprites.page_ (spr w)) (Graphics.screen (gfx w)) in
  if k =? CMD_VISIBLE then
    match Display.cmd_visible (vis w) (map vis_of args) with (v, None) => Ok (w_vis w v) | (_, Some e) => Err e end
  else if k =? CMD_ICONCLR then
    match args with [] => let* p := Panel.cmd_iconclr (pnl w) None in Ok (w_pnl w p) | [GNum v] => let* p := Panel.cmd_iconclr (pnl w) (Some (FP_TO_INT v)) in Ok (w_pnl w p) | _ => UB end
  else if k =? CMD_COLOR then
    match args with
    | [GNum a] => Ok (w_con w (Console.cmd_color (con w) (FP_TO_INT a) None))
    | [GNum a; GNum b] => Ok (w_con w (Console.cmd_color (con w) (FP_TO_INT a) (Some (FP_TO_INT b)))) | _ => UB end
  else if k =? CMD_CLS then Ok (w_pnl (w_con w (Console.cmd_cls (con w))) (cls_panel (pnl w)))
  else if k =? CMD_GDRAWMD then match args with [GNum a] => let* g := ends (Graphics.cmd_gdrawmd (gfx w) a) in Ok (w_gfx w g) | _ => UB end
  else if k =? CMD_GPAGE then
    match args with
    | [GNum a] => let* g := ends (Graphics.cmd_gpage (gfx w) a None) in Ok (w_gfx w g)
    | [GNum a; GNum b; GNum c] => let* g := ends (Graphics.cmd_gpage (gfx w) a (Some (b, c))) in Ok (w_gfx w g) | _ => UB end
  else if k =? CMD_GCOLOR then match args with [GNum a] => let* g := ends (Graphics.cmd_gcolor (gfx w) a) in Ok (w_gfx w g) | _ => UB end
  else if k =? CMD_GCLS then
    match args with
    | [] => let* g := ends (Graphics.cmd_gcls (gfx w) None) in Ok (w_gfx w g)
    | [GNum a] => let* g := ends (Graphics.cmd_gcls (gfx w) (Some a)) in Ok (w_gfx w g) | _ => UB end
  else if k =? CMD_GPRIO then match args with [GNum a] => let* g := ends (Graphics.cmd_gprio (gfx w) a) in Ok (w_gfx w g) | _ => UB end
  else if k =? CMD_BGPAGE then match args with [GNum a] => let* b := Background.cmd_bgpage (bg w) (FP_TO_INT a) in Ok (w_bg w b) | _ => UB end
  else if k =? CMD_BGOFS then
    match args with
    | [GNum a; GNum x; GNum y] => let* b := Background.cmd_bgofs (bg w) (FP_TO_INT a) x y None in Ok (w_bg w b)
    | [GNum a; GNum x; GNum y; GNum t] => let* b := Background.cmd_bgofs (bg w) (FP_TO_INT a) x y (Some (FP_TO_INT t)) in Ok (w_bg w b) | _ => UB end
  else if k =? CMD_BGCLR then
    match args with
    | [] => let* b := Background.cmd_bgclr (bg w) None in Ok (w_bg w b)
    | [GNum a] => let* b := Background.cmd_bgclr (bg w) (Some (FP_TO_INT a)) in Ok (w_bg w b) | _ => UB end
  else if k =? CMD_BGCLIP then match args with [GNum a; GNum b; GNum c; GNum d] => cmd_bgclip w a b c d | _ => UB end
  else if k =? CMD_SPPAGE then match args with [GNum a] => let* s := ends (Sprites.cmd_sppage (spr w) a) in Ok (w_spr w s) | _ => UB end
  else if k =? CMD_SPCLR then
    match args with
    | [] => let* s := ends (Sprites.cmd_spclr (spr w) None) in Ok (w_spr w s)
    | [GNum a] => let* s := ends (Sprites.cmd_spclr (spr w) (Some a)) in Ok (w_spr w s) | _ => UB end
  else if k =? CMD_COLINIT then
    match args with
    | [] => let* f := ends (Files.cmd_colinit pages (files w) None) in Ok (w_files w f)
    | [GStr s] => let* f := ends (Files.cmd_colinit pages (files w) (Some (s, None))) in Ok (w_files w f)
    | _ => UB end
  else UB.

(** ** The program inside.  A place is a slot of the temporary table, or one of the program that called ACLS. *)
Inductive aloc := Temp (i : Z) | Caller (n : Z).
Section Inside.
(** what a command does to the state [W] *)
Context {W : Type} (do : Z -> list given -> W -> outcome W).
Definition ast : Type := variables * W.
Definition agetn (s : ast) (l : aloc) : Z := match l with Temp i => match v_value (slot (fst s) i) with VNum n => n | _ => 0 end | Caller _ => 0 end.
Definition asetn (s : ast) (l : aloc) (n : Z) : ast :=
  match l with Temp i => let x := slot (fst s) i in (set_slot (fst s) i (mkVar (v_type x) (v_name x) (VNum n)), snd s) | Caller _ => s end.
Definition avar (r : vref) (s : ast) : outcome (bool * aloc * ast) :=
  match r with
  | ByName false w =>
      let '(nm, t) := var_name w in
      match get_var (fst s) nm t with (v, Ok i) => Ok (t =? VAR_STRING, Temp i, (v, snd s)) | (_, Err e) => Err e | (_, UB) => UB end
  | _ => UB
  end.
Definition agiven (s : ast) (e : entry aloc) : given :=
  match e with EN v => GNum v | ER false l => GNum (agetn s l) | ES _ b => GStr b | ER true _ => GOp | EO _ => GOp end.
(** the parts of the interpreter's host that the program uses; the rest is UB *)
Definition inside_host : host :=
  mkHost ast aloc (fun a b => match a, b with Temp i, Temp j => i =? j | Caller i, Caller j => i =? j | _, _ => false end) agetn asetn avar
    (fun _ _ _ => UB) (fun _ _ _ => UB)
    (fun o e s => if o =? OP_NEGATE then match e with EN v => let* n := op_negate v in Ok (EN n, s) | _ => UB end else UB)
    (fun _ _ _ _ => UB) (fun _ _ _ => UB) (fun _ _ _ => UB)
    (fun k s => if k =? 0 then Ok (EN (INT_TO_FP 1), s) else if k =? 1 then Ok (EN (INT_TO_FP 0), s) else UB)
    (fun _ _ => UB)
    (fun k args s => let* w := do k (map (agiven s) args) (snd s) in Ok (fst s, w)).
End Inside.

(** system.c:70-83 *)
Definition acls_code : list Z := Eval vm_compute in zs (
  "VISIBLE 1,1,1,1,1,1:ICONCLR" ++ String (ascii_of_nat 13) ("COLOR 0,0:CLS:GDRAWMD FALSE" ++ String (ascii_of_nat 13) ("FOR P=1 TO 0 STEP -1" ++ String (ascii_of_nat 13) (
  " GPAGE P,P,P:GCOLOR 0:GCLS:GPRIO 3" ++ String (ascii_of_nat 13) (" BGPAGE P:BGOFS 0,0,0:BGOFS 1,0,0" ++ String (ascii_of_nat 13) (" BGCLR:BGCLIP 0,0,31,23" ++ String (ascii_of_nat 13) (
  " SPPAGE P:SPCLR" ++ String (ascii_of_nat 13) (" COLINIT ""BG"":COLINIT ""SP""" ++ String (ascii_of_nat 13) (" COLINIT ""GRP""" ++ String (ascii_of_nat 13) ("NEXT" ++ String (ascii_of_nat 13) ""))))))))))%string.
(** the checker of the argument lists (tokens.c:1156-1418) *)
Definition checked (l : list token) : option err := match tok_test l with Ok e => e | _ => Some ERR_SYNTAX end.
(** system.c:98: tokenize, with a label table of size 0; error numbers are of no interest here *)
Definition acls_linked : outcome (list Z * Labels.labels * list err) := link_text (fun _ => 0) None false checked 0 acls_code.
(** system.c:89-110 cmd_acls.  [v] are the variables of the program, [k] its call stack (it is not emptied: runner.c:618-620 calls _run with init_exec false).
    [n] bounds the number of instructions run. *)
Inductive acls_end :=
| Back (v : variables) (k : list (call aloc)) (w : world)  (* the program goes on behind ACLS *)
| Lost (e : err)                                           (* the error stays; the variables are the four of the temporary table *)
| Wild.
Definition cmd_acls (n : nat) (v : variables) (k : list (call aloc)) (w : world) : acls_end :=
  match acls_linked with
  | Ok (code, tbl, []) =>
      match Link.run (h := inside_host command) (fun _ _ => UB) code n (mkC (h := inside_host command) 0 [] k 0 (init_vars 4 0 false, w)) with
      | Ok c => if ix c <? Z.of_nat (length code) then Wild (* not enough instructions *) else Back v (calls c) (snd (hst c))
      | Err e => Lost e
      | UB => Wild
      end
  | Ok (_, _, e :: _) => Lost e
  | _ => Wild
  end.
