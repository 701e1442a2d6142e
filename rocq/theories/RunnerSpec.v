(** The value of an expression, by structure. *)
From Verif Require Import Base Tokens ExprSpec NumText Bytecode BytecodeSpec Runner.

(** the value of a numeric literal; None: too large *)
Definition lit (k : tty) (w : list Z) : option Z :=
  match k with
  | number => match u8_to_num w with Ok n => if (2147483648 <=? n) && (n <=? 4294967295) then None else Some (s32 n) | _ => None end
  | base_number => match u8_to_number (skipn 2 w) (if nth 1 w 0 =? 72 then 16 else 2) false with Ok n => Some (s32 n) | _ => None end
  | _ => None
  end.

Section Sem.
Variable h : host.
(** how the compiler refers to the variable (false) or array (true) of a given name *)
Variable ref : bool -> list Z -> vref.
Fixpoint sem (e : expr) (st : St h) : outcome (entry (Loc h) * St h) :=
  match e with
  | Atom k c w =>
      match k with
      | number | base_number => match lit k w with Some v => Ok (EN v, st) | None => UB end
      | string => Ok (ES false w, st)
      | sysvar => hsys h c st
      | _ => let* (b, l, st) := hvar h (ref false w) st in Ok (ER b l, st)
      end
  | Paren e => sem e st
  | Un o e => let* (v, st) := sem e st in hun h o v st
  | Bin o l r => let* (a, st) := sem l st in let* (b, st) := sem r st in hbin h o a b st
  | Call fn c w _ args =>
      let* (vs, st) := (fix go (l : list expr) (st : St h) : outcome (list (entry (Loc h)) * St h) :=
        match l with
        | [] => Ok ([], st)
        | x :: r => let* (v, st) := sem x st in let* (vs, st) := go r st in Ok (v :: vs, st)
        end) args st in
      if fn then hfun h c vs st
      else match vs with
           | [] => let* (b, l, st) := hvar h (ref true w) st in Ok (ER b l, st)
           | _ => let* (b, l, st) := harr h (ref true w) vs st in Ok (ER b l, st)
           end
  end.
Fixpoint sems (l : list expr) (st : St h) : outcome (list (entry (Loc h)) * St h) :=
  match l with
  | [] => Ok ([], st)
  | x :: r => let* (v, st) := sem x st in let* (vs, st) := sems r st in Ok (v :: vs, st)
  end.
End Sem.
