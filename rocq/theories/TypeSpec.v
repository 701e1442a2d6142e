(** Operations that keep to the types of the argument check. *)
From Verif Require Import Base Tokens ExprSpec StmtSpec Bytecode BytecodeSpec Runner RunnerSpec FlowSpec TokTest TokTestSpec.
Open Scope Z_scope.

Definition entry_kind {L} (e : entry L) : option kind :=
  match e with EN _ => Some Num | ES _ _ => Some Str | ER false _ => Some NumVar | ER true _ => Some StrVar | EO _ => None end.
(** the letter of an argument *)
Definition shows {L} (e : entry L) (z : Z) : Prop := (exists k, entry_kind e = Some k /\ z = letter k) \/ ((exists w, e = ES true w) /\ z = cL).
(** not UB, and [P] if it succeeds *)
Definition safe {A} (P : A -> Prop) (x : outcome A) : Prop := match x with Ok a => P a | Err _ => True | UB => False end.

Section Host.
Variable h : host.
Variable ref : bool -> list Z -> vref.
Variable lab : labels_fun h.
(** Given operands of the types it takes, every operation succeeds with a result of its type or ends with a BASIC error.
    Nothing is assumed of what it does with other operands. *)
Record typed_host : Prop := {
  th_var : forall a w st, safe (fun '(b, _, _) => b = dollar w) (hvar h (ref a w) st);
  th_arr : forall w vs ks st, Forall2 (fun v k => entry_kind v = Some k) vs ks -> Forall (fun k => numeric k = true) ks -> length ks = 1%nat \/ length ks = 2%nat ->
    safe (fun '(b, _, _) => b = dollar w) (harr h (ref true w) vs st);
  th_dim : forall w vs ks st, Forall2 (fun v k => entry_kind v = Some k) vs ks -> Forall (fun k => numeric k = true) ks -> length ks = 1%nat \/ length ks = 2%nat ->
    safe (fun _ => True) (hdim h w vs st);
  th_un : forall o v k st, is_unary o = true -> entry_kind v = Some k -> numeric k = true -> safe (fun '(r, _) => entry_kind r = Some Num) (hun h o v st);
  th_bin : forall o a b ka kb k st, bin_level o <> None -> entry_kind a = Some ka -> entry_kind b = Some kb -> bin_type o ka kb = Some k ->
    safe (fun '(r, _) => entry_kind r = Some k) (hbin h o a b st);
  th_fun : forall c vs ks st, Forall2 (fun v k => entry_kind v = Some k) vs ks -> accepts (format_of func_format c) (map letter ks) ->
    safe (fun '(r, _) => entry_kind r = Some (fun_type c)) (hfun h c vs st);
  th_sys : forall c st, safe (fun '(r, _) => entry_kind r = Some (sys_of c)) (hsys h c st);
  th_set : forall l v k st, entry_kind v = Some k -> numeric k = false -> safe (fun _ => True) (hsassign h l v st);
  th_cmd : forall c vs zs st, ordinary c -> Forall2 shows vs zs -> accepts (format_of cmd_format c) zs -> safe (fun _ => True) (hcmd h c vs st);
  th_print : forall vs st, Forall (fun v => entry_kind v <> None \/ v = EO OP_COMMA \/ v = EO OP_SEMICOLON) vs -> safe (fun _ => True) (hcmd h CMD_PRINT vs st);
  th_check : forall c st, safe (fun _ => True) (hcheck h c st);
  th_lab : forall v k st, entry_kind v = Some k -> numeric k = false -> safe (fun _ => True) (lab v st)
}.
End Host.

(** every number written in the line is in range *)
Definition in_range (ts : list token) : Prop := forall t, In t ts -> ty t = number \/ ty t = base_number -> lit (ty t) (text t) <> None.
(** ON ... GOTO with string variables for labels is accepted, but the variable itself is then taken for a string (see the refutation) *)
Definition plain_label (a : arg_) : Prop := match a with AL _ => True | AE e => exists c w, e = Atom string c w end.
Definition plain_on (s : stmt) : Prop := match s with SOn _ _ args => Forall plain_label args | _ => True end.
