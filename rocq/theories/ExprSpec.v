(** Expressions as trees, their spelling as tokens, and their intended translation. *)
From Verif Require Import Base Tokens.

(** Priority of the binary operators: AND OR XOR < comparisons < + - < * / %. *)
Definition bin_level (o : Z) : option Z :=
  if (o =? OP_AND) || (o =? OP_OR) || (o =? OP_XOR) then Some 2
  else if (OP_EQUAL <=? o) && (o <=? OP_GREATER_EQUAL) then Some 3
  else if (o =? OP_ADD) || (o =? OP_SUBTRACT) then Some 4
  else if (o =? OP_MULTIPLY) || (o =? OP_DIVIDE) || (o =? OP_MODULO) then Some 5
  else None.
Definition is_unary (o : Z) : bool := (o =? OP_NEGATE) || (o =? OP_NOT) || (o =? OP_LOGICAL_NOT).

Inductive expr :=
| Atom (k : tty) (c : Z) (w : list Z)        (* number, string, variable, system variable *)
| Paren (e : expr)
| Un (o : Z) (e : expr)
| Bin (o : Z) (l r : expr)
| Call (fn : bool) (c : Z) (w : list Z) (bracket : bool) (args : list expr).  (* function or array element *)

Definition atom_ty (k : tty) : bool :=
  match k with number | base_number | string | name | sysvar => true | _ => false end.
(** the operator binding an expression from outside: 2..5 binary, 6 unary, 7 tighter *)
Definition prec (e : expr) : Z :=
  match e with Bin o _ _ => match bin_level o with Some k => k | None => 0 end | Un _ _ => 6 | _ => 7 end.

Definition op_tok (o p : Z) : token := mk operation o p [].
(** spelling, before priorities are assigned: the sign is written '-' *)
Definition minus_char (o : Z) : Z := if o =? OP_NEGATE then OP_SUBTRACT else o.
Definition opens (b : bool) : Z := if b then OP_OPEN_BRACKET else OP_OPEN_PAREN.
Definition closes (b : bool) : Z := if b then OP_CLOSE_BRACKET else OP_CLOSE_PAREN.
Fixpoint sep {A} (s : A) (l : list (list A)) : list A :=
  match l with [] => [] | [x] => x | x :: r => x ++ s :: sep s r end.
Fixpoint toks (e : expr) : list token :=
  match e with
  | Atom k c w => [mk k c 0 w]
  | Paren e => op_tok OP_OPEN_PAREN 0 :: toks e ++ [op_tok OP_CLOSE_PAREN 0]
  | Un o e => op_tok (minus_char o) 0 :: toks e
  | Bin o l r => toks l ++ op_tok o 0 :: toks r
  | Call fn c w b args =>
      mk (if fn then function else name) c 0 w :: op_tok (opens b) 0 :: sep (op_tok OP_COMMA 0) (map toks args) ++ [op_tok (closes b) 0]
  end.

(** first / last token kinds that matter for the sign *)
Fixpoint starts_minus (e : expr) : bool :=
  match e with Un o _ => o =? OP_NEGATE | Bin _ l _ => starts_minus l | _ => false end.
(** kinds of last token after which the compiler takes '-' as binary *)
Fixpoint ends_value (e : expr) : bool :=
  match e with
  | Atom k _ _ => match k with number | name | sysvar => true | _ => false end
  | Un _ e => ends_value e | Bin _ _ r => ends_value r | _ => true
  end.

(** An expression that is written with its own parentheses where priorities or left associativity
    require them.  Two spellings the compiler misreads are excluded: a binary '-' directly after a
    string or &H/&B literal, and a sign directly after '['. *)
Fixpoint wfe (e : expr) : Prop :=
  match e with
  | Atom k c w => atom_ty k = true
  | Paren e => wfe e
  | Un o e => is_unary o = true /\ wfe e /\ 6 <= prec e
  | Bin o l r => bin_level o <> None /\ wfe l /\ wfe r /\ prec (Bin o l r) <= prec l /\ prec (Bin o l r) < prec r /\
                 (o = OP_SUBTRACT -> ends_value l = true)
  | Call fn c w b args =>
      (fix all (l : list expr) : Prop := match l with [] => True | x :: r => wfe x /\ all r end) args /\
      (length args < 128)%nat /\
      (b = true -> match args with [] => False | x :: _ => starts_minus x = false end)
  end.

(** The translation: operands first, then the operator (reverse Polish).  [n] is the nesting level * 8. *)
Fixpoint rpn (n : Z) (e : expr) : list token :=
  match e with
  | Atom k c w => [mk k c 0 w]
  | Paren e => rpn (n + 8) e
  | Un o e => rpn n e ++ [op_tok o (n + 6)]
  | Bin o l r => rpn n l ++ rpn n r ++ [op_tok o (n + prec (Bin o l r))]
  | Call fn c w b args =>
      concat (map (rpn (n + 8)) args) ++
      [mk arg_count (Z.of_nat (length args)) (n + 8) []; mk (if fn then function else array_name) c (n + 7) w]
  end.
(** nesting of parentheses and calls *)
Fixpoint depth (e : expr) : nat :=
  match e with
  | Atom _ _ _ => 0
  | Paren e => S (depth e)
  | Un _ e => depth e
  | Bin _ l r => Nat.max (depth l) (depth r)
  | Call _ _ _ _ args => S (fold_right (fun e m => Nat.max (depth e) m) 0%nat args)
  end.
