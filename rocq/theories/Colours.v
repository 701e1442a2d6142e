(** The machine of Tiles.v with the palettes (source/subsystem/resources.c): COLSET and COLREAD as commands of running programs.

    Simplifications: a number of arguments or kinds of arguments no form of the command has are UB (the checker refuses them, C46); SPPAGE is not one of the machine's commands, so sprite
    palettes are those of the upper screen; that the screen is drawn again with the new colours (DisplayFrame.v) is not followed here; as in Machine.v the pool of strings never runs out. *)
From Verif Require Import Base Labels Strs Tokens Runner Vars Data Machine HostData MachineData LineInput Ask Graphics Draw Tiles.
From Verif Require Background Resources ChrCol Memory.
Notation banks := ChrCol.banks.

(** tokens.c:20-52 *)
Definition CMD_COLREAD := 49. Definition CMD_COLSET := 50.
Definition colouring (c : Z) : bool := (c =? CMD_COLREAD) || (c =? CMD_COLSET).
(** resources.c:1018-1091: the arguments; the pages chosen *)
Definition colour_do (c : Z) (m : mstate) (es : list ment) (p : Resources.pages) (r : banks) : outcome (mstate * banks) :=
  if c =? CMD_COLSET then
    match es with
    | [t; k; s] =>
        let* t := mstr m t in let* k := mnum m k in let* s := mstr m s in
        match ChrCol.cmd_colset p r t k s with (r, Memory.Done) => Ok (m, r) | (_, Memory.Raised e) => Err e | (_, Memory.Crash) => UB end
    | _ => UB
    end
  else
    match es with
    | [t; k; ER false a; ER false b; ER false d] =>
        let* t := mstr m t in let* k := mnum m k in
        let* q := ChrCol.cmd_colread p r t k in let '(x, y, z) := q in Ok (ask_stores m [ER false a; ER false b; ER false d] [IVNum x; IVNum y; IVNum z], r)
    | _ => UB
    end.
Notation tile_state := (draw_state * tilepages)%type.
Definition pages_of (st : tile_state) : Resources.pages := Resources.mkPages (Background.page (snd st)) 0 (screen (snd (fst st))).
Definition colour_cmd (c : Z) (args : list ment) (st : tile_state * banks) : option (outcome (tile_state * banks)) :=
  let '(((((m, k), ks), g), s), r) := st in
  if colouring c then Some (let* q := colour_do c m args (pages_of (fst st)) r in Ok (((((fst q, k), ks), g), s), snd q)) else None.
Definition machine_colours (code : list Z) (tbl : Labels.labels) : host := attach (machine_tiles code tbl) banks colour_cmd.
Definition cotext (st : tile_state * banks) (l : mloc) : list Z := titext (fst st) l.
Definition machine_colours_start (max elements : Z) (ks : list keys) (g : gfx) (s : tilepages) (r : banks) : tile_state * banks := (machine_tiles_start max elements ks g s, r).
