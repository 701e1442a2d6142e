(** What a format string says, and which expressions and lines are well typed. *)
From Coq Require Import String Ascii.
From Verif Require Import Base Tokens ExprSpec StmtSpec TokTest.
Open Scope Z_scope.

(** ** Formats (the comment tokens.c:76-91)
    Arguments are described by one letter each: N a number, n a number variable, S a string, s a string variable, L a label,
    A an array, ; and < the separators of PRINT. *)
Definition letter_fits (c k : Z) : bool :=
  if c =? cN then (k =? cN) || (k =? cn)
  else if c =? cn then k =? cn
  else if c =? cS then (k =? cS) || (k =? cs)
  else if c =? cs then k =? cs
  else if c =? cL then (k =? cS) || (k =? cs) || (k =? cL)
  else if c =? cA then k =? cA
  else if c =? csemi then k =? csemi
  else false.
(** v: variables, l: labels, a: arrays, one or more *)
Definition list_fits (c k : Z) : bool :=
  if c =? cv then (k =? cn) || (k =? cs)
  else if c =? cl_ then (k =? cS) || (k =? cs) || (k =? cL)
  else if c =? ca then k =? cA
  else false.
Definition is_list (c : Z) : bool := (c =? cv) || (c =? cl_) || (c =? ca).
(** the alternatives, between commas *)
Fixpoint alternatives (f : list Z) : list (list Z) :=
  match f with
  | [] => [[]]
  | c :: r => if c =? ccomma then [] :: alternatives r
              else match alternatives r with a :: l => (c :: a) :: l | [] => [[c]] end
  end.
(** an alternative describes an argument list *)
Definition matches (f args : list Z) : Prop :=
  f = [cstar] \/ (f = [c0] /\ args = []) \/
  (f <> [] /\ Forall2 (fun c k => letter_fits c k = true) f args) \/
  (exists g x a b, f = g ++ [x] /\ args = a ++ b /\ b <> [] /\
     Forall2 (fun c k => letter_fits c k = true) g a /\ Forall (fun k => list_fits x k = true) b).
Definition accepts (fmt args : list Z) : Prop := exists f, In f (alternatives fmt) /\ matches f args.
(** the arguments end where the list of an alternative should begin *)
Definition stops_short (fmt args : list Z) : Prop :=
  exists f g x, In f (alternatives fmt) /\ f = g ++ [x] /\ is_list x = true /\ g <> [] /\
    Forall2 (fun c k => letter_fits c k = true) g args.

(** ** Types of expressions *)
Inductive kind := Num | NumVar | Str | StrVar.
Definition letter (k : kind) : Z := match k with Num => cN | NumVar => cn | Str => cS | StrVar => cs end.
Definition numeric (k : kind) : bool := match k with Num | NumVar => true | _ => false end.
(** the last character of a name *)
Definition dollar (w : list Z) : bool := List.last w 0 =? 36.
Definition var_of (w : list Z) : kind := if dollar w then StrVar else NumVar.
(** TIME$ DATE$ PRGNAME$ PACKAGE$ MEM$ (ptc.h:139-160, by number) *)
Definition sys_of (c : Z) : kind := if existsb (Z.eqb c) [4; 5; 10; 11; 31] then StrVar else NumVar.
Definition value_of (k : kind) : kind := if numeric k then Num else Str.
Definition compares (o : Z) : bool := (OP_EQUAL <=? o) && (o <=? OP_GREATER_EQUAL).
(** numbers: every operator; strings: + and comparisons; string * number *)
Definition bin_type (o : Z) (a b : kind) : option kind :=
  if numeric a then if numeric b then Some Num else None
  else if numeric b then if o =? OP_MULTIPLY then Some Str else None
  else if compares o then Some Num else if o =? OP_ADD then Some Str else None.
(** CHR$ HEX$ INKEY$ LEFT$ MID$ RIGHT$ STR$ SUBST$ PTR$ give strings (by function number) *)
Definition fun_type (c : Z) : kind := if existsb (Z.eqb c) [9; 15; 17; 19; 22; 26; 36; 37; 45] then Str else Num.
Inductive has_type : expr -> kind -> Prop :=
| t_number c w : has_type (Atom number c w) Num
| t_base c w : has_type (Atom base_number c w) Num
| t_string c w : has_type (Atom string c w) Str
| t_name c w : has_type (Atom name c w) (var_of w)
| t_sys c w : has_type (Atom sysvar c w) (sys_of c)
| t_paren e k : has_type e k -> has_type (Paren e) k
| t_un o e k : has_type e k -> numeric k = true -> has_type (Un o e) Num
| t_bin o a b ka kb k : has_type a ka -> has_type b kb -> bin_type o ka kb = Some k -> has_type (Bin o a b) k
| t_fun c w br args ks : Forall2 has_type args ks -> accepts (format_of func_format c) (map letter ks) ->
    has_type (Call true c w br args) (fun_type c)
| t_elem c w br args ks : Forall2 has_type args ks -> Forall (fun k => numeric k = true) ks -> length ks = 1%nat \/ length ks = 2%nat ->
    has_type (Call false c w br args) (var_of w).

(** ** Lines *)
Definition arg_type (a : arg_) (z : Z) : Prop := match a with AE e => exists k, has_type e k /\ z = letter k | AL _ => z = cL end.
Definition typable (e : expr) : Prop := exists k, has_type e k.
Definition otypable (o : option expr) : Prop := match o with Some e => typable e | None => True end.
Definition cmd_typed (c : Z) (args : list arg_) : Prop :=
  exists ks, Forall2 arg_type args ks /\ accepts (format_of cmd_format c) ks.
Definition assignable (lv e : expr) : Prop :=
  exists k k', has_type lv k /\ has_type e k' /\ numeric k = numeric k'.
Definition well_typed_stmt (s : stmt) : Prop :=
  match s with
  | SLet lv e => assignable lv e
  | SCmd c args => cmd_typed c args
  | SOn e c args => (exists k, has_type e k /\ numeric k = true) /\ cmd_typed c args
  | SPrint items last => Forall (fun it => otypable (fst it)) items /\ otypable last
  | SFor lv a b s => assignable lv a /\ typable b /\ otypable s
  | SGo _ => True
  | SDim items => Forall typable items
  end.
Fixpoint well_typed (l : lin) : Prop :=
  match l with
  | LOne s => well_typed_stmt s
  | LSeq s l => well_typed_stmt s /\ well_typed l
  | LIf e t el => (exists k, has_type e k /\ numeric k = true) /\ well_typed t /\ match el with Some el => well_typed el | None => True end
  end.

(** ** Room on the checker's stack: values waiting at the same time *)
Fixpoint width (e : expr) : nat :=
  match e with
  | Atom _ _ _ => 1
  | Paren e | Un _ e => width e
  | Bin _ a b => Nat.max (width a) (1 + width b)
  | Call _ _ _ _ args => Nat.max 1 (fold_right (fun e m => Nat.max (width e) (1 + m)) 0%nat args)
  end.
Definition awidth (a : arg_) : nat := match a with AE e => width e | AL _ => 1 end.
Definition owidth (o : option expr) : nat := match o with Some e => width e | None => 0 end.
Definition ocount (o : option expr) : nat := match o with Some _ => 1 | None => 0 end.
Fixpoint swidth_items (l : list (option expr * Z)) (last : option expr) : nat :=
  match l with
  | [] => owidth last
  | it :: r => Nat.max (owidth (fst it)) (ocount (fst it) + 1 + swidth_items r last)
  end.
Definition lwidth (args : list arg_) : nat := fold_right (fun a m => Nat.max (awidth a) (1 + m)) 0%nat args.
Definition stmt_width (s : stmt) : nat :=
  match s with
  | SLet lv e => Nat.max (width lv) (1 + width e)
  | SCmd _ args => lwidth args
  | SOn e _ args => Nat.max (width e) (lwidth args)
  | SPrint items last => swidth_items items last
  | SFor lv a b s => Nat.max (Nat.max (width lv) (1 + width a)) (Nat.max (width b) (1 + owidth s))
  | SGo _ => 1
  | SDim items => fold_right (fun e m => Nat.max (width e) m) 0%nat items
  end.
Fixpoint line_width (l : lin) : nat :=
  match l with
  | LOne s => stmt_width s
  | LSeq s l => Nat.max (stmt_width s) (line_width l)
  | LIf e t el => Nat.max (width e) (Nat.max (line_width t) (match el with Some el => line_width el | None => 0 end))
  end.
(** ** Two spellings the check misjudges: an array element without subscripts, and a label after THEN or ELSE followed by a statement *)
Fixpoint subscripted (e : expr) : Prop :=
  match e with
  | Atom k c w => k = name -> 0 < c /\ c = Z.of_nat (length w)
  | Paren e | Un _ e => subscripted e
  | Bin _ a b => subscripted a /\ subscripted b
  | Call fn c w _ args => (fn = false -> args <> [] /\ 0 < c /\ c = Z.of_nat (length w)) /\
      (fix all (l : list expr) : Prop := match l with [] => True | x :: r => subscripted x /\ all r end) args
  end.
Definition asub (a : arg_) : Prop := match a with AE e => subscripted e | AL _ => True end.
Definition osub (o : option expr) : Prop := match o with Some e => subscripted e | None => True end.
Definition ssub (s : stmt) : Prop :=
  match s with
  | SLet lv e => subscripted lv /\ subscripted e
  | SCmd c args => Forall asub args
  | SOn e c args => subscripted e /\ Forall asub args
  | SPrint items last => Forall (fun it => osub (fst it)) items /\ osub last
  | SFor lv a b s => subscripted lv /\ subscripted a /\ subscripted b /\ osub s
  | SGo _ => True
  | SDim items => Forall subscripted items
  end.
Fixpoint checkable (l : lin) : Prop :=
  match l with
  | LOne s => ssub s
  | LSeq s l => ssub s /\ not_go s /\ checkable l
  | LIf e t el => subscripted e /\ checkable t /\ match el with Some el => checkable el | None => True end
  end.
