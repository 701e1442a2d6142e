(** The machine of Draw.v with the background layers of Background.v (source/subsystem/background.c): BGPAGE, BGCLR, BGPUT, BGFILL, BGCOPY and BGREAD as commands of
    running programs.

    Simplifications: a number of arguments no form of the command has, a text for a number, or something else than a variable where BGREAD stores, is UB (the code reads what
    happens to be in the slot); all arguments are converted before the first is used, which changes nothing as the conversion has no effect and reports nothing;
    as in Machine.v the pool of strings never runs out. *)
From Verif Require Import Base Labels Strs Tokens Runner Vars Data Machine HostData MachineData LineInput Ask Graphics Draw.
From Verif Require Background.
Notation tilepages := Background.bg.

(** tokens.c:20-52 *)
Definition CMD_BGCLR := 28. Definition CMD_BGCOPY := 29. Definition CMD_BGFILL := 30. Definition CMD_BGPAGE := 40. Definition CMD_BGPUT := 41. Definition CMD_BGREAD := 42.
Definition tiling (c : Z) : bool := existsb (Z.eqb c) [CMD_BGCLR; CMD_BGCOPY; CMD_BGFILL; CMD_BGPAGE; CMD_BGPUT; CMD_BGREAD].
(** stack.h:15-22 STACK_INT *)
Definition mint (m : mstate) (e : ment) : outcome Z := let* v := mnum m e in Ok (FP_TO_INT v).
(** background.c:93-105, 127-139: the arguments for the tile *)
Definition tile_args (m : mstate) (es : list ment) : outcome Background.tile :=
  match es with
  | [e] => if is_str e then let* s := mstr m e in Ok (Background.TStr (str_wide_copy s)) else let* v := mint m e in Ok (Background.TNum v)
  | [c; p; h; v] => let* c := mint m c in let* p := mint m p in let* h := mint m h in let* v := mint m v in Ok (Background.TParts c p h v)
  | _ => UB
  end.
(** background.c:222-250: where the tile goes *)
Definition tile_store (m : mstate) (s : tilepages) (l x y : Z) (es : list ment) : outcome mstate :=
  match es with
  | [ER false a] => let* w := Background.bgread_num s l x y in Ok (ask_stores m es [IVNum w])
  | [ER true a] => let* t := Background.bgread_str s l x y in Ok (ask_stores m es [IVStr (SChar t)])
  | [ER false a; ER false b; ER false c; ER false d] =>
      let* r := Background.bgread_parts s l x y in let '(c, p, h, v) := r in Ok (ask_stores m es [IVNum c; IVNum p; IVNum h; IVNum v])
  | _ => UB
  end.
(** background.c:60-307: the forms of the commands *)
Definition tile_do (c : Z) (m : mstate) (es : list ment) (s : tilepages) : outcome (mstate * tilepages) :=
  if c =? CMD_BGPAGE then match es with [p] => let* p := mint m p in let* s := Background.cmd_bgpage s p in Ok (m, s) | _ => UB end
  else if c =? CMD_BGCLR then
    match es with
    | [] => let* s := Background.cmd_bgclr s None in Ok (m, s)
    | [l] => let* l := mint m l in let* s := Background.cmd_bgclr s (Some l) in Ok (m, s)
    | _ => UB
    end
  else if c =? CMD_BGPUT then
    match es with
    | l :: x :: y :: t =>
        let* l := mint m l in let* x := mint m x in let* y := mint m y in let* t := tile_args m t in let* s := Background.cmd_bgput s l x y t in Ok (m, s)
    | _ => UB
    end
  else if c =? CMD_BGFILL then
    match es with
    | l :: x :: y :: u :: v :: t =>
        let* l := mint m l in let* x := mint m x in let* y := mint m y in let* u := mint m u in let* v := mint m v in
        let* t := tile_args m t in let* s := Background.cmd_bgfill s l x y u v t in Ok (m, s)
    | _ => UB
    end
  else if c =? CMD_BGCOPY then
    match es with
    | [l; x; y; u; v; a; b] =>
        let* l := mint m l in let* x := mint m x in let* y := mint m y in let* u := mint m u in let* v := mint m v in let* a := mint m a in let* b := mint m b in
        let* s := Background.cmd_bgcopy s l x y u v a b in Ok (m, s)
    | _ => UB
    end
  else
    match es with
    | l :: x :: y :: r => let* l := mint m l in let* x := mint m x in let* y := mint m y in let* m := tile_store m s l x y r in Ok (m, s)
    | _ => UB
    end.
Notation draw_state := (((mstate * reader) * list keys) * gfx)%type.
Definition tile_cmd (c : Z) (args : list ment) (st : draw_state * tilepages) : option (outcome (draw_state * tilepages)) :=
  let '((((m, r), ks), g), s) := st in
  if tiling c then Some (let* q := tile_do c m args s in Ok ((((fst q, r), ks), g), snd q)) else None.
Definition machine_tiles (code : list Z) (tbl : Labels.labels) : host := attach (machine_draw code tbl) tilepages tile_cmd.
Definition titext (st : draw_state * tilepages) (l : mloc) : list Z := drtext (fst st) l.
Definition machine_tiles_start (max elements : Z) (ks : list keys) (g : gfx) (s : tilepages) : draw_state * tilepages := (machine_draw_start max elements ks g, s).
