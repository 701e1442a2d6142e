(** A host with something more to remember: every operation works on the first part of the state as before, except the commands that [cmd] knows. *)
From Verif Require Import Base Tokens Bytecode BytecodeSpec Runner.

Definition keep {X S D} (d : D) (x : outcome (X * S)) : outcome (X * (S * D)) := let* (v, s) := x in Ok (v, (s, d)).
Definition keep1 {S D} (d : D) (x : outcome S) : outcome (S * D) := let* s := x in Ok (s, d).

Section Attach.
Variable h : host.
Variable D : Type.
Variable cmd : Z -> list (entry (Loc h)) -> St h * D -> option (outcome (St h * D)).
Definition attach : host :=
  mkHost (St h * D) (Loc h) (same h) (fun s l => getn h (fst s) l) (fun s l v => (setn h (fst s) l v, snd s))
    (fun r s => keep (snd s) (hvar h r (fst s))) (fun r vs s => keep (snd s) (harr h r vs (fst s))) (fun w vs s => keep1 (snd s) (hdim h w vs (fst s)))
    (fun o v s => keep (snd s) (hun h o v (fst s))) (fun o v w s => keep (snd s) (hbin h o v w (fst s))) (fun l v s => keep1 (snd s) (hsassign h l v (fst s)))
    (fun c vs s => keep (snd s) (hfun h c vs (fst s))) (fun c s => keep (snd s) (hsys h c (fst s))) (fun c s => keep1 (snd s) (hcheck h c (fst s)))
    (fun c vs s => match cmd c vs s with Some r => r | None => keep1 (snd s) (hcmd h c vs (fst s)) end).
End Attach.
