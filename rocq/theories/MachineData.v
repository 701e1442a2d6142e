(** The machine of Machine.v with the reader of DATA statements: READ and RESTORE (source/interpreter/data.c, modelled in Data.v) on its variables and labels.

    Simplification: as in Machine.v the pool of strings never runs out ([d_free] is set to what the statement needs). *)
From Verif Require Import Base Labels Link Memory Strs Tokens Bytecode BytecodeSpec Runner Vars Codes Data Machine HostData.

(** data.c:16,:35,:58: the kind of an argument *)
Definition dkind (e : entry mloc) : kind := match e with ER false _ => KNum | ER true _ => KStr | _ => KOther end.
(** data.c:29-33,:56: the value goes where the argument points; a string is a new one.
    Simplification: everything is read before the first value is stored (a failing READ ends the program). *)
Definition mstore (m : mstate) (e : entry mloc) (v : Data.value) : mstate :=
  match e, v with
  | ER _ l, RNum z => mput m l (VNum z)
  | ER _ l, RStr t => mput (mkM (mvars m) (texts m ++ [t]) (mcon m)) l (VStr (Z.of_nat (length (texts m))))
  | _, _ => m
  end.
Fixpoint mstores (m : mstate) (es : list (entry mloc)) (vs : list Data.value) : mstate :=
  match es, vs with e :: es, v :: vs => mstores (mstore m e v) es vs | _, _ => m end.
(** data.c:77-130 *)
Definition data_cmd (code : list Z) (tbl : Labels.labels) (c : Z) (args : list (entry mloc)) (st : mstate * reader) : option (outcome (mstate * reader)) :=
  let (m, r) := st in
  if c =? CMD_READ then
    let ks := map dkind args in
    Some (match cmd_read code (mkReader (d_index r) (d_ofs r) (Z.of_nat (length ks))) ks with
          | (vs, r, Done) => Ok (mstores m args vs, r)
          | (_, _, Raised e) => Err e
          | (_, _, Crash) => UB
          end)
  else if c =? CMD_RESTORE then
    Some (match args with
          | [v] => match cmd_restore code r (table_lab machine mtext tbl v m) with
                   | (r, Done) => Ok (m, r)
                   | (_, Raised e) => Err e
                   | (_, Crash) => UB
                   end
          | _ => UB
          end)
  else None.
Definition machine_data (code : list Z) (tbl : Labels.labels) : host := attach machine reader (data_cmd code tbl).
Definition dtext (st : mstate * reader) (l : mloc) : list Z := mtext (fst st) l.
(** runner.c:180-181 *)
Definition machine_data_start (max elements : Z) : mstate * reader := (machine_start max elements, reader_start 0).
