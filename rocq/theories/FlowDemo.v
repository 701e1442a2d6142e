(** A small concrete host for examples: variables A-Z holding numbers, arrays A-Z (one cell each), a log of the commands executed. *)
From Verif Require Import Base Tokens ExprSpec Num NumText Bytecode BytecodeSpec Runner RunnerSpec StmtSpec ExecProofs FlowSpec.

Definition dstate : Type := ((nat -> Z) * list (Z * list Z))%type.
Definition dnum (st : dstate) (e : entry nat) : Z := match e with EN v => v | ER _ l => fst st l | ES _ w => nth 0 w 0 | EO o => - o end.
Definition dop (o a b : Z) : outcome Z :=
  if o =? OP_ADD then Ok (a + b) else if o =? OP_SUBTRACT then Ok (a - b) else if o =? OP_MULTIPLY then Ok (a * b / 4096)
  else if o =? OP_EQUAL then Ok (if a =? b then 4096 else 0) else if o =? OP_LESS then Ok (if a <? b then 4096 else 0) else Err ERR_UNIMPLEMENTED.
Definition letter (r : vref) : outcome nat := match r with ByName a [c] => if (65 <=? c) && (c <=? 90) then Ok (Z.to_nat (c - 65 + if a then 26 else 0)) else Err ERR_SYNTAX | _ => Err ERR_SYNTAX end.
Definition demo : host := mkHost dstate nat Nat.eqb (fun st l => fst st l) (fun st l v => ((fun j => if Nat.eqb j l then v else fst st j), snd st))
  (fun r st => let* l := letter r in Ok (false, l, st)) (fun r _ st => let* l := letter r in Ok (false, l, st)) (fun _ _ st => Ok st)
  (fun o e st => if o =? OP_NEGATE then Ok (EN (- dnum st e), st) else Err ERR_UNIMPLEMENTED)
  (fun o a b st => let* v := dop o (dnum st a) (dnum st b) in Ok (EN v, st))
  (fun _ _ _ => Err ERR_UNIMPLEMENTED) (fun _ _ _ => Err ERR_UNIMPLEMENTED) (fun _ _ => Err ERR_UNIMPLEMENTED) (fun _ st => Ok st)
  (fun c vs st => Ok (fst st, snd st ++ [(c, map (dnum st) vs)])).
Definition dst : dstate := ((fun _ => 0), []).
(** labels: @X is at 1000 + the code of X *)
Definition dlab : labels_fun demo := fun e _ => match e with ES _ [c] => Ok (1000 + c) | _ => Err ERR_LABEL_NOT_FOUND end.
Definition dcode (ls : list (list token)) : outcome (list Z) := compile (fun _ => 0) None false (fun _ => None) [] (map Tokens ls).
(** run from the start for at most [n] instructions, stopping at the end of the code *)
Fixpoint run_to_end (n : nat) (code : list Z) (c : cfg demo) : outcome (cfg demo) :=
  match n with
  | O => Ok c
  | S n => if ix c <? Z.of_nat (length code) then let* c := step dlab code c in run_to_end n code c else Ok c
  end.
Definition drun (ls : list (list token)) : outcome (cfg demo) := let* code := dcode ls in run_to_end 200 code (@mkC demo 0 [] [] 0 dst).
Definition var_A (c : cfg demo) : Z := fst (hst c) 0%nat.
Definition log (c : cfg demo) : list (Z * list Z) := snd (hst c).

Definition tN (s : list Z) : token := mk number (Z.of_nat (length s)) 0 s.
Definition tV (c : Z) : token := mk name 1 0 [c].
Definition tO (o : Z) : token := op_tok o 0.
Definition tC (c : Z) : token := cmd_tok c.
Definition eV (c : Z) : expr := Atom name 1 [c].
Definition eN (s : list Z) : expr := Atom number (Z.of_nat (length s)) s.
Ltac prop_tac := repeat (first [exact I | reflexivity | discriminate | apply conj | apply Forall_nil | apply Forall_cons | lia | progress (cbn; unfold is_byte, good_name, lexed, good_tok, fine, ordinary, flow_cmd, jumps) | intro | match goal with H : _ \/ _ |- _ => destruct H | H : ?x = _ |- False => discriminate H | H : False |- _ => destruct H end]).
