(** What FOR and NEXT are meant to do. *)
From Verif Require Import Base Tokens ExprSpec StmtSpec Bytecode BytecodeSpec Runner RunnerSpec ExecProofs FlowSpec.

(** The loop with first value [a], last value [e] and step [s] (all in units of 1/4096) is over at value [v]. *)
Definition over (s e v : Z) : Prop := if s <? 0 then v < e else e < v.
(** how often the body runs *)
Definition trips (a e s : Z) : Z :=
  if s <? 0 then (if a <? e then 0 else (a - e) / - s + 1) else if e <? a then 0 else (e - a) / s + 1.

Section Loop.
Variable h : host.
Variable ref : bool -> list Z -> vref.
(** the bounds TO b [STEP s] in state [st]: last value, step *)
Definition limits (b : expr) (s : option expr) (st : St h) : outcome (Z * Z * St h) :=
  let* (vb, st) := sem h ref b st in
  let* (vs, st) := osem h ref s st in
  let* e := value_num h st vb in
  match vs with
  | [] => Ok (e, 4096, st)
  | v :: _ => let* x := value_num h st v in Ok (e, x, st)
  end.
(** the states in which the body is run for the first, second, ... time; [body] is what one run of it does *)
Fixpoint turn (l : Loc h) (body : St h -> St h) (a s : Z) (st : St h) (i : nat) : St h :=
  match i with
  | O => st
  | S i => let st' := body (turn l body a s st i) in setn h st' l (a + Z.of_nat (S i) * s)
  end.
End Loop.
(** the code of the bounds *)
Definition bounds_code (b : expr) (s : option expr) : list token :=
  rpn 0 b ++ [cmd_code false CMD_TO] ++ match s with Some s => rpn 0 s ++ [cmd_code false CMD_STEP] | None => [] end.
