(** Instructions and their bytes. *)
From Verif Require Import Base Bytecode.

Inductive instr :=
| INum (big : bool) (v : Z)                 (* a number, v / 4096, in 4 bytes or 1 *)
| IStr (is_label : bool) (s : list Z)       (* string literal, label used as a value *)
| ICmd (first : bool) (c : Z) | IOp (o : Z) | IFun (f : Z) | ISys (c : Z) | ICheck (c : Z)
| IVar (s : list Z) | IArray (s : list Z) | IDim (s : list Z)   (* by name *)
| IId (big : bool) (i : Z)                                      (* by number *)
| IArgc (n : Z) | ILoop
| ILabel (s : list Z) | IData (s : list Z)
| IErr (e : Z).

Definition pad (s : list Z) : list Z := if Nat.odd (length s) then [0] else [].
Definition len (s : list Z) : Z := Z.of_nat (length s).
Definition named (op : Z) (s : list Z) : list Z := match s with [c] => [op; c] | _ => [op; len s] ++ s ++ pad s end.
Definition enc (i : instr) : list Z :=
  match i with
  | INum false v => [BC_SMALL_NUMBER; v / 4096]
  | INum true v => let u := v mod 2 ^ 32 in [BC_NUMBER; 0; u / 2 ^ 24; u / 2 ^ 16 mod 256; u / 2 ^ 8 mod 256; u mod 256]
  | IStr lb s => [if lb then BC_LABEL_STRING else BC_STRING; len s] ++ s ++ pad s
  | ICmd f c => [if f then BC_COMMAND_FIRST else BC_COMMAND; c]
  | IOp o => [BC_OPERATOR; o] | IFun f => [BC_FUNCTION; f] | ISys c => [BC_SYSVAR; c] | ICheck c => [BC_SYSVAR_VALIDATE; c]
  | IVar s => named BC_VARIABLE_NAME s | IArray s => named BC_ARRAY_NAME s | IDim s => named BC_DIM s
  | IId b i => if b then [BC_VARIABLE_ID; i mod 256; i / 256 mod 256; i / 65536 mod 256] else [BC_VARIABLE_ID_SMALL; i]
  | IArgc n => [BC_ARGCOUNT; n] | ILoop => [BC_BEGIN_LOOP; 0]
  | ILabel s => [BC_LABEL; len s] ++ s ++ pad s | IData s => [BC_DATA; len s] ++ s ++ pad s
  | IErr e => [BC_ERROR; e]
  end.
Definition opcode (i : instr) : Z := hd 0 (enc i).
Definition is_byte (b : Z) : Prop := 0 <= b < 256.
(** names of 1 to 64 characters, the first of them a letter or '_' (ASCII) *)
Definition good_name (s : list Z) : Prop :=
  Forall is_byte s /\ (length s < 65)%nat /\ match s with [] => False | c :: _ => 65 <= c < 128 end.
Definition good (i : instr) : Prop :=
  match i with
  | INum true v => is_s32 v
  | INum false v => v mod 4096 = 0 /\ 0 <= v / 4096 < 100
  | IStr _ s | ILabel s | IData s => Forall is_byte s /\ (length s < 256)%nat
  | IVar s | IArray s | IDim s => good_name s
  | IId b i => 0 <= i < (if b then 2 ^ 24 else 256)
  | ICmd _ c | IOp c | IFun c | ISys c | ICheck c | IArgc c | IErr c => is_byte c
  | ILoop => True
  end.
Definition encode (l : list instr) : list Z := concat (map enc l).
(** where instruction number k of a program starts *)
Definition start (l : list instr) (k : nat) : Z := Z.of_nat (length (encode (firstn k l))).

(** what the lexer produces: the recorded length is that of the text, names are names *)
Definition good_tok (t : Tokens.token) : Prop :=
  is_byte (Tokens.cl t) /\
  match Tokens.ty t with
  | Tokens.string | Tokens.label | Tokens.label_string => Forall is_byte (Tokens.text t) /\ len (Tokens.text t) = Tokens.cl t
  | Tokens.name | Tokens.array_name | Tokens.array_actual | Tokens.dim_arr => good_name (Tokens.text t) /\ len (Tokens.text t) = Tokens.cl t
  | Tokens.command | Tokens.first_of_line_command =>
      Tokens.cl t = Tokens.CMD_DATA -> Forall is_byte (Tokens.text t) /\ (length (Tokens.text t) < 256)%nat
  | _ => True
  end.
Definition good_line (l : line) : Prop := match l with Tokens l => Forall good_tok l | BadLine _ => True end.
Definition good_ids (f : ids_fun) : Prop := forall s t id, f s t = Ok id -> 0 <= id < 2 ^ 24.
