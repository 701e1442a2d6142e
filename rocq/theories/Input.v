(** Keyboard buffer and buttons (source/subsystem/input.c, input.h).  The mutex
    makes set_inkey/get_inkey atomic, so a concurrent run is an interleaving. *)
From Verif Require Import Base Strs.

Definition INKEY_BUF_SIZE : Z := 256.   (* input.h:48 *)
(** input.h:80-82; both indices are u16 *)
Record inkey := { buf : list Z; current_write : Z; current_base : Z }.
(** input.c:9-26 init_input *)
Definition init_inkey : inkey := {| buf := repeat 0 256; current_write := 0; current_base := 0 |}.

(** input.c:50-71 set_inkey *)
Definition set_inkey (i : inkey) (c : Z) : outcome (bool * inkey) :=
  if current_write i =? INKEY_BUF_SIZE then Ok (false, i)
  else
    let cur := (current_base i + current_write i) mod INKEY_BUF_SIZE in
    if cur <? Z.of_nat (length (buf i))
    then Ok (true, {| buf := upd (buf i) (Z.to_nat cur) c; current_write := u16 (current_write i + 1);
                      current_base := current_base i |})
    else UB.
(** input.c:73-93 get_inkey *)
Definition get_inkey (i : inkey) : outcome (Z * inkey) :=
  if current_write i =? 0 then Ok (0, i)
  else match nth_error (buf i) (Z.to_nat (current_base i)) with
       | Some c => Ok (c, {| buf := buf i; current_write := u16 (current_write i - 1);
                             current_base := (current_base i + 1) mod INKEY_BUF_SIZE |})
       | None => UB
       end.
(** input.c:196-209 func_inkey: None is the empty string, Some c the one-character
    string of single_char_strs (256 entries). *)
Definition func_inkey (i : inkey) : outcome (option Z * inkey) :=
  let* (k, i) := get_inkey i in
  if k =? 0 then Ok (None, i)
  else let c := to_char k in if (0 <=? c) && (c <? 256) then Ok (Some c, i) else UB.

(** input.h:59-66 button_time *)
Record button_time := { start : Z; repeat_ : Z; frame : Z }.
Record buttons := { button : Z; old_button : Z; times : list button_time }.
Definition BUTTON_COUNT : nat := 12.
Definition BUTTON_ID_SELECT : nat := 11.
Definition init_buttons : buttons :=
  {| button := 0; old_button := 0; times := repeat {| start := 0; repeat_ := 0; frame := 0 |} BUTTON_COUNT |}.

(** input.c:29-48 set_input, once per frame; the flag says that SELECT raises ERR_BREAK.
    int overflow of a frame counter is UB. *)
Definition step_time (b : Z) (jt : nat * button_time) : outcome button_time :=
  let '(j, t) := jt in
  if Z.testbit b (Z.of_nat j)
  then if s32b (frame t + 1) then Ok {| start := start t; repeat_ := repeat_ t; frame := frame t + 1 |} else UB
  else Ok {| start := start t; repeat_ := repeat_ t; frame := 0 |}.
Fixpoint mapM {A B} (f : A -> outcome B) (l : list A) : outcome (list B) :=
  match l with [] => Ok [] | x :: t => let* y := f x in let* ys := mapM f t in Ok (y :: ys) end.
Definition set_input (s : buttons) (b : Z) : outcome (bool * buttons) :=
  let* ts := mapM (step_time b) (combine (seq 0 (length (times s))) (times s)) in
  let brk := match nth_error ts BUTTON_ID_SELECT with Some t => frame t =? 1 | None => false end in
  Ok (brk, {| button := b; old_button := button s; times := ts |}).

(** input.h:95-102 check_repeat (C remainder, the operand is positive here) *)
Definition check_repeat (time start repeat : Z) : bool :=
  if (repeat >? 0) && (time >? start) then Z.rem (time - 1 - start) (repeat + 1) =? 0
  else time =? 1.
(** input.c:125-127 check_pressed *)
Definition check_pressed (t : button_time) : bool := check_repeat (frame t) (start t) (repeat_ t).

(** input.c:129-145 cmd_brepeat; [args] are the integer parts of the arguments.
    The start time is already stored when the repeat time is rejected. *)
Definition cmd_brepeat (s : buttons) (args : list Z) : buttons * option err :=
  let set id st rp := match nth_error (times s) (Z.to_nat id) with
    | Some t => {| button := button s; old_button := old_button s;
                   times := upd (times s) (Z.to_nat id)
                     {| start := match st with Some v => v | None => start t end;
                        repeat_ := match rp with Some v => v | None => repeat_ t end; frame := frame t |} |}
    | None => s end in
  match args with
  | id :: rest =>
      if (id <? 0) || (12 <? id) then (s, Some ERR_OUT_OF_RANGE)
      else if id =? 12 then (s, None)
      else match rest with
           | [] => (set id (Some 0) (Some 0), None)
           | st :: rp => if st <? 0 then (s, Some ERR_OUT_OF_RANGE)
               else match rp with
                    | v :: _ => if v <? 0 then (set id (Some st) None, Some ERR_OUT_OF_RANGE)
                                else (set id (Some st) (Some v), None)
                    | [] => (s, None)
                    end
           end
  | [] => (s, None)
  end.

(** input.c:147-156 func_btrig / case 1 of func_button *)
Fixpoint pressed_mask (j : nat) (ts : list button_time) : Z :=
  match ts with [] => 0 | t :: r => Z.lor (b2z (check_pressed t) * 2 ^ Z.of_nat j) (pressed_mask (S j) r) end.
Definition func_btrig (s : buttons) : Z := INT_TO_FP (pressed_mask 0 (times s)).
(** input.c:158-194 func_button *)
Definition func_button (s : buttons) (mode : Z) : outcome Z :=
  if mode =? 0 then Ok (INT_TO_FP (button s))
  else if mode =? 1 then Ok (INT_TO_FP (pressed_mask 0 (times s)))
  else if mode =? 2 then Ok (INT_TO_FP (Z.land (button s) (Z.lnot (old_button s))))
  else if mode =? 3 then Ok (INT_TO_FP (Z.land (Z.lnot (button s)) (old_button s)))
  else Err ERR_INVALID_ARGUMENT_VALUE.
