(** INPUT and LINPUT (source/subsystem/console.c:199-472).  The state of the buttons and the keyboard in one turn of
    the loop of shared_input is given as a record; waiting for it is not modelled.  The panel is not modelled. *)
From Verif Require Import Base Strs NumText Console.
Open Scope Z_scope.

(** what one turn of the loop (console.c:221-279) sees: L or R changed; Backspace (key 15 or button Y); Delete (key 67);
    the character from get_inkey (0: none); the buttons left, right, A; an error, e.g. Break *)
Record keys := { k_lr : bool; k_back : bool; k_del : bool; k_char : Z; k_left : bool; k_right : bool; k_a : bool; k_err : bool }.
(** the console, out_index and out_index_max *)
Record edit := { e_con : console; e_i : Z; e_max : Z }.

Definition with_cells (c : console) (t cl : list Z) : console :=
  {| cx := cx c; cy := cy c; tabstep := tabstep c; sys_tabstep := sys_tabstep c; col := col c; text := t; color := cl |}.
(** output[i] and outcol[i]: row by row, outside the 768 cells undefined *)
Definition get_cell (c : console) (i : Z) : outcome (Z * Z) :=
  let k := cy c * CW + i in if (0 <=? k) && (k <? 768) then Ok (nth (Z.to_nat k) (text c) 0, nth (Z.to_nat k) (color c) 0) else UB.
Definition set_cell (c : console) (i t cl : Z) : outcome console :=
  let k := cy c * CW + i in if (0 <=? k) && (k <? 768) then Ok (with_cells c (upd (text c) (Z.to_nat k) t) (upd (color c) (Z.to_nat k) cl)) else UB.
Definition set_text (c : console) (i t : Z) : outcome console :=
  let k := cy c * CW + i in if (0 <=? k) && (k <? 768) then Ok (with_cells c (upd (text c) (Z.to_nat k) t) (color c)) else UB.
(** console.c:237-240, :248-251: [n] cells from [i] on get the next one's content *)
Fixpoint move_back (n : nat) (i : Z) (c : console) : outcome console :=
  match n with O => Ok c | S n => let* q := get_cell c (i + 1) in let* c := set_cell c i (fst q) (snd q) in move_back n (i + 1) c end.
(** console.c:266-269: the cells from [i + n - 1] down to [i] move to the next one *)
Fixpoint move_on (n : nat) (i : Z) (c : console) : outcome console :=
  match n with O => Ok c | S n => let* q := get_cell c (i + Z.of_nat n) in let* c := set_cell c (i + Z.of_nat n + 1) (fst q) (snd q) in move_on n i c end.
(** console.c:228-279, one turn; the panel is always in INSERT mode (panel.c:125) *)
Definition edit_keys (e : edit) (k : keys) : outcome edit :=
  let c := e_con e in let i := e_i e in let m := e_max e in
  if k_lr k then Ok e
  else if k_back k then
    if i >? 0 then
      let* c := move_back (Z.to_nat (m - (i - 1))) (i - 1) c in
      let* c := set_text c (m - 1) 0 in Ok {| e_con := c; e_i := i - 1; e_max := m - 1 |}
    else Ok e
  else if k_del k then
    if i <? m then
      let* c := move_back (Z.to_nat (m - i)) i c in
      let* c := set_text c (m - 1) 0 in Ok {| e_con := c; e_i := i; e_max := m - 1 |}
    else Ok e
  else if k_char k =? 13 then Ok e
  else if negb (k_char k =? 0) && (m <? CW) then
    let* c := move_on (Z.to_nat (m - i)) i c in
    let* c := set_cell c i (k_char k) (col c) in Ok {| e_con := c; e_i := i + 1; e_max := m + 1 |}
  else if k_left k then Ok {| e_con := c; e_i := i - b2z (i >? 0); e_max := m |}
  else if k_right k then Ok {| e_con := c; e_i := i + b2z (i <? m); e_max := m |}
  else Ok e.
(** console.c:277 the cursor *)
Definition edit_step (e : edit) (k : keys) : outcome edit :=
  let* e := edit_keys e k in Ok {| e_con := set_cursor (e_con e) (e_i e) (cy (e_con e)); e_i := e_i e; e_max := e_max e |}.
(** console.c:200-286 shared_input: where it ends, whether by an error, and the turns not used; None: it still waits *)
Fixpoint edit_loop (e : edit) (ks : list keys) : outcome (option (console * bool * list keys)) :=
  match ks with
  | [] => Ok None
  | k :: t => let* e := edit_step e k in
      if k_err k then Ok (Some (e_con e, true, t))
      else if (k_char k =? 13) || k_a k then Ok (Some (e_con e, false, t))
      else edit_loop e t
  end.
Definition shared_input (c : console) (ks : list keys) := edit_loop {| e_con := c; e_i := 0; e_max := 0 |} ks.
(** the 32 cells of the row *)
Definition row (c : console) : list Z := firstn 32 (skipn (Z.to_nat (cy c * CW)) (text c)).
(** strs.c:381-383 *)
Definition is_char (w : Z) : bool := negb (to_char w =? -1).
Definition stored (ws : list Z) : str := if forallb is_char ws then SChar (map (fun w => u8 (to_char w)) ws) else SWide ws.
Fixpoint until_null (ws : list Z) : list Z := match ws with w :: t => if w =? 0 then [] else w :: until_null t | [] => [] end.
Inductive answer (A : Type) := Waiting | Broken (c : console) (a : A) | Answer (c : console) (a : A).
Arguments Waiting {A}. Arguments Broken {A}. Arguments Answer {A}.
(** console.c:423-472 cmd_linput; a free string is taken for granted *)
Definition cmd_linput (c : console) (prompt : option (list Z)) (ks : list keys) : outcome (answer (option str)) :=
  let* c := con_prompt c prompt in
  let* r := shared_input c ks in
  match r with
  | None => Ok Waiting
  | Some (c, true, _) => Ok (Broken c None)
  | Some (c, false, _) => Ok (Answer (con_newline c true) (Some (stored (until_null (row c)))))
  end.

(** strs.c:37-39 is_number *)
Definition is_digit (c : Z) : bool := (48 <=? c) && (c <=? 57).
(** INPUT's variables *)
Inductive ivar := INum | IStr | IOther.
Inductive ival := IVNum (n : Z) | IVStr (s : str).
(** console.c:354-412; [prev]: prev_i, [out]: out_i; the values assigned, and [valid].  conversion_copy has 32 bytes *)
Fixpoint fields (fuel : nat) (r : list Z) (vars : list ivar) (prev out : nat) (acc : list ival) : outcome (list ival * bool) :=
  match vars, fuel with
  | [], _ => Ok (acc, true)
  | _, O => UB
  | v :: vs, S fuel =>
      if Nat.leb 32 out then UB else
      let c := u8 (to_char (nth out r 0)) in
      let n := (S out - prev - 1)%nat in
      match v with
      | INum =>
          if is_digit c || (c =? 46) || (c =? 45) then fields fuel r vars prev (S out) acc
          else if (c =? 44) || (c =? 0) || (c =? 32) || Nat.leb 32 (S out) then
            if Nat.eqb n 0 then Ok (acc, false)
            else let* x := u8_to_num (map (fun w => u8 (to_char w)) (firstn n (skipn prev r))) in fields fuel r vs (S out) (S out) (acc ++ [IVNum (s32 x)])
          else Ok (acc, false)
      | IStr =>
          if (c =? 44) || (c =? 0) || Nat.leb 32 (S out) then
            let ws := firstn n (skipn prev r) in
            let s := if forallb is_char (firstn (S n) (skipn prev r)) then SChar (map (fun w => u8 (to_char w)) ws) else SWide ws in
            fields fuel r vs (S out) (S out) (acc ++ [IVStr s])
          else fields fuel r vars prev (S out) acc
      | IOther => Err ERR_UNKNOWN_TYPE
      end
  end.
(** console.c:337-341 *)
Definition commas (r : list Z) : Z := Z.of_nat (length (filter (fun w => w =? to_wide 44) r)).
(** console.c:296-301 con_reprompt *)
Definition redo_text : list Z := map to_wide [63; 82; 101; 100; 111; 32; 102; 114; 111; 109; 32; 115; 116; 97; 114; 116].
Definition con_reprompt (c : console) (prompt : option (list Z)) : outcome console :=
  let* c := con_puts (con_newline c true) redo_text in con_prompt (con_newline c true) prompt.
(** what the variables hold when [acc] was assigned to the first of them *)
Definition overlay (acc vals : list ival) : list ival := acc ++ skipn (length acc) vals.
(** console.c:331-420; [n] attempts at most: each uses up at least one turn *)
Fixpoint input_loop (n : nat) (c : console) (prompt : option (list Z)) (vars : list ivar) (vals : list ival) (ks : list keys) : outcome (answer (list ival)) :=
  match n with
  | O => Ok Waiting
  | S n =>
      let* r := shared_input c ks in
      match r with
      | None => Ok Waiting
      | Some (c, true, _) => Ok (Broken (con_newline c true) vals)
      | Some (c, false, ks) =>
          if Z.of_nat (length vars) =? commas (row c) + 1 then
            let* f := fields 40 (row c) vars 0 0 [] in
            if snd f then Ok (Answer (con_newline c true) (overlay (fst f) vals))
            else let* c := con_reprompt c prompt in input_loop n c prompt vars (overlay (fst f) vals) ks
          else let* c := con_reprompt c prompt in input_loop n c prompt vars vals ks
      end
  end.
(** console.c:303-421 cmd_input: the prompt, the variables with their values *)
Definition cmd_input (c : console) (prompt : option (list Z)) (vars : list ivar) (vals : list ival) (ks : list keys) : outcome (answer (list ival)) :=
  let* c := con_prompt c prompt in input_loop (S (length ks)) c prompt vars vals ks.
