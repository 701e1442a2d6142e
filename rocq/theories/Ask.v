(** The machine of MachineData.v with INPUT and LINPUT (source/subsystem/console.c:288-472, modelled in LineInput.v) on its variables and its screen.
    The keys the player will press are part of the state; what a statement does not use is left for the next one.

    Simplifications: waiting for more keys than there are is UB; breaking off is ERR_BREAK (the escape key); the text in front of the semicolon is left out
    (a PRINT in front does the same); as in Machine.v the pool of strings never runs out. *)
From Verif Require Import Base Labels Link Strs Tokens Bytecode BytecodeSpec Runner Vars Data Machine HostData MachineData Console LineInput.

Definition CMD_INPUT := 23. Definition CMD_LINPUT := 24.
(** console.c:331-420 once more, keeping the keys not used (LineInput.v's [input_loop] drops them: AskHost.v, [input_rest_loop]) *)
Fixpoint input_rest (n : nat) (c : console) (prompt : option (list Z)) (vars : list ivar) (vals : list ival) (ks : list keys) : outcome (answer (list ival * list keys)) :=
  match n with
  | O => Ok Waiting
  | S n =>
      let* r := shared_input c ks in
      match r with
      | None => Ok Waiting
      | Some (c, true, ks) => Ok (Broken (con_newline c true) (vals, ks))
      | Some (c, false, ks) =>
          if Z.of_nat (length vars) =? commas (row c) + 1 then
            let* f := fields 40 (row c) vars 0 0 [] in
            if snd f then Ok (Answer (con_newline c true) (overlay (fst f) vals, ks))
            else let* c := con_reprompt c prompt in input_rest n c prompt vars (overlay (fst f) vals) ks
          else let* c := con_reprompt c prompt in input_rest n c prompt vars vals ks
      end
  end.
(** console.c:345-404: what an argument is, and where a value goes *)
Definition ask_kind (e : entry mloc) : ivar := match e with ER false _ => INum | ER true _ => IStr | _ => IOther end.
Definition ask_value (m : mstate) (e : entry mloc) : ival :=
  match e with ER false l => IVNum (mgetn m l) | ER true l => IVStr (SChar (mtext m l)) | _ => IVNum 0 end.
Definition ask_store (m : mstate) (e : entry mloc) (v : ival) : mstate :=
  match e, v with
  | ER false l, IVNum z => mput m l (VNum z)
  | ER true l, IVStr s => mput (mkM (mvars m) (texts m ++ [bytes_of s]) (mcon m)) l (VStr (Z.of_nat (length (texts m))))
  | _, _ => m
  end.
(** Simplification: the values are stored when the line is accepted; in between no one can see them. *)
Fixpoint ask_stores (m : mstate) (es : list (entry mloc)) (vs : list ival) : mstate :=
  match es, vs with e :: es, v :: vs => ask_stores (ask_store m e v) es vs | _, _ => m end.
Section Ask.
Variable D : Type.
(** console.c:303-472 *)
Definition ask_cmd (c : Z) (args : list (entry mloc)) (st : (mstate * D) * list keys) : option (outcome ((mstate * D) * list keys)) :=
  let '((m, d), ks) := st in
  if c =? CMD_LINPUT then
    Some (match args with
          | [ER true l] =>
              let* k := con_prompt (mcon m) None in
              let* r := shared_input k ks in
              match r with
              | None => UB
              | Some (_, true, _) => Err ERR_BREAK
              | Some (k, false, ks) => Ok (ask_store (with_con m (con_newline k true)) (ER true l) (IVStr (stored (until_null (row k)))), d, ks)
              end
          | _ => UB
          end)
  else if c =? CMD_INPUT then
    Some (match args with
          | [] => UB
          | _ =>
              let* k := con_prompt (mcon m) None in
              let* r := input_rest (S (length ks)) k None (map ask_kind args) (map (ask_value m) args) ks in
              match r with
              | Waiting => UB
              | Broken _ _ => Err ERR_BREAK
              | Answer k (vs, ks) => Ok (ask_stores (with_con m k) args vs, d, ks)
              end
          end)
  else None.
End Ask.
Definition machine_ask (code : list Z) (tbl : Labels.labels) : host := attach (machine_data code tbl) (list keys) (ask_cmd reader).
Definition atext (st : (mstate * reader) * list keys) (l : mloc) : list Z := dtext (fst st) l.
(** at the start of a program, with the keys that will be pressed *)
Definition machine_ask_start (max elements : Z) (ks : list keys) : (mstate * reader) * list keys := (machine_data_start max elements, ks).
