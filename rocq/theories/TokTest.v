(** The check of arguments at compile time (source/interpreter/tokens.c:92-147 tables, :342-448 check_cmd, :450-640 tok_test). *)
From Coq Require Import String Ascii.
From Verif Require Import Base Tokens.
Open Scope Z_scope.

(** characters of a C string *)
Definition chars (s : String.string) : list Z := map (fun a => Z.of_nat (nat_of_ascii a)) (list_ascii_of_string s).
Open Scope string_scope.
(** tokens.c:92-120 cmd_format, by command number *)
Definition cmd_format : list String.string :=
  ["*"; "NN"; "N,NN"; "*"; "*"; "*"; "*"; "0,n"; "N"; "*"; "*"; "*"; "L,l"; "L,l"; "N"; "0"; "0"; "0"; "0"; "*"; "0"; "N"; "N"; "v,S;v"; "s,S;s"; 
   "S"; "0,N,NN,NNN,NNNN"; "NNNN"; "0,N"; "NNNNNNN"; "NNNNNN,NNNNNS,NNNNNNNNN"; "0,N"; 
   "N,S,NN,SS,NNN,SSS,SSSS,SSSSS,SSSSSS,SSSSSSS,SSSSSSSS,SSSSSSSSS"; "NS,NNS,NNNNNS,NNNNNNS"; 
   "NS,NSS,NSSS,NSSSS,NSSSSS,NSSSSSS,NSSSSSSS,NSSSSSSSS,NSSSSSSSS,NSSSSSSSSS"; "NL"; "NNN"; "0,N,NN"; "N,NN"; "NNN,NNNN"; "N"; "NNNN,NNNS,NNNNNNN"; 
   "NNNn,NNNs,NNNnnnn"; "N,NNN"; "S"; "SNs"; "SNS"; "0"; "0,S,SN"; "SNnnn"; "SNS"; "0"; "*"; "S"; "Snnn"; "S"; "0,S,SS,SSS,SSSS,SSSSS"; "NNNN,NNNNN"; 
   "NNN,NNNN,NNNNNN"; "0,N"; "N"; "NNNNNNN,NNNNNNNN"; "N"; "NNNN,NNNNN"; "NNNN,NNNNN"; "N,NNN"; "NN,NNN,NNNN"; "NN,NNN"; "N"; "NNSNNN"; "0,N"; "NN"; 
   "NS"; ""; "S,SN"; "0"; "NNS,NNSN"; "S"; "v"; ""; ""; "SS"; "L"; "NNa"; "0"; "S"; ""; "NNa"; "NN,NNN,NNNN"; "NNN,NNNN"; "NN,NNNNNN"; "0,N"; 
   "NNNNNN,NNNNNNN"; "NNN"; "NNN"; "NNN,NNNN"; "N"; "NN,NNN,NNNN,NNNNN,NNNNNN"; "NN,NNN"; "NNNNNN,NNNNNNNN"; "NNN"; "nn,ss"; "Snnn"; "S"; "0"; "NN"; 
   "NN"; "NN"; "NNN"; "NNN"].
(** tokens.c:122-130 func_format and :132-138 func_return *)
Definition func_format : list String.string :=
  ["N"; "S"; "N,NN"; "N"; "0,N"; "NN"; "0"; "0,N"; "NN"; "N"; "N"; "N"; ""; "N"; "NN,NNN"; "N,NN"; "0"; "0"; "SS,SSN"; "SN"; "S"; "N"; "SNN"; "0"; 
   "NN"; "N"; "SN"; "N"; "N"; "N"; "N"; "NN"; "N,NN"; ""; "NN"; "N"; "N"; "SNNS"; ""; "S"; "0"; "N"; "N"; "N"; "S,SN"; "N"].
Definition func_return : String.string := "NNNNNNNNNSNNNNNSNSNSNNSNNNSNNNNNNNNNSSNNNNNNNS".
(** tokens.c:140-147 op_format *)
Definition op_format : list String.string :=
  ["NN,SS"; "*"; "NN"; "NN,SN"; "NN"; "*"; "nN,sS"; "N"; "NN,SS"; "NN,SS"; "NN,SS"; "NN,SS"; "NN,SS"; "NN,SS"; "NN"; "NN"; "NN"; "NN"; "N"; "N"; "*"; 
   "*"; "*"; "*"].
Close Scope string_scope.
Definition format_of (l : list String.string) (c : Z) : list Z := chars (nth (Z.to_nat c) l ""%string).

(** the letters of tokens.c:76-91 *)
Definition cN := 78. Definition cn := 110. Definition cS := 83. Definition cs := 115. Definition cA := 65. Definition ca := 97. Definition cv := 118.
Definition cL := 76. Definition cl_ := 108. Definition c0 := 48. Definition csemi := 59. Definition clt := 60. Definition ccomma := 44. Definition cstar := 42.
(** tokens.c:355-445: the loop of check_cmd at format character [v], stack index [i]; the character one beyond the stack's top is read but not used *)
Fixpoint check_loop (fuel : nat) (stack v : list Z) (i : nat) (ok : bool) : bool :=
  match fuel with
  | O => false
  | S fuel =>
      match v with
      | [] => Nat.eqb i (length stack) && ok
      | c :: w =>
          let s := nth i stack 0 in
          let next (b : bool) := check_loop fuel stack w (S i) (ok && b) in
          let same (b : bool) := if b then check_loop fuel stack v (S i) ok else check_loop fuel stack w (S i) false in
          if c =? ccomma then if ok && Nat.ltb (length stack) (S i) then true else check_loop fuel stack w 0 true
          else if Nat.ltb (length stack) (S i) then if (c =? cl_) || (c =? cv) || (c =? ca) then ok else false
          else if c =? cN then next ((s =? cN) || (s =? cn))
          else if c =? cn then next (s =? cn)
          else if c =? cS then next ((s =? cS) || (s =? cs))
          else if c =? cs then next (s =? cs)
          else if c =? cL then next ((s =? cS) || (s =? cs) || (s =? cL))
          else if c =? cl_ then same ((s =? cS) || (s =? cs) || (s =? cL) || (s =? clt))
          else if c =? cv then same ((s =? cn) || (s =? cs))
          else if c =? cA then next (s =? cA)
          else if c =? ca then same (s =? cA)
          else if c =? cstar then true
          else if c =? c0 then next false
          else if c =? csemi then next (s =? csemi)
          else false
      end
  end.
(** tokens.c:342-350 and the loop; one turn per format character and, for lists, per argument *)
Definition check_cmd (stack v : list Z) : bool :=
  let n := length stack in
  match v with
  | [c] => if c =? c0 then Nat.eqb n 0 else if Nat.eqb n 0 then c =? cstar else check_loop (S ((length v + 1) * (n + 2))) stack v 0 true
  | _ => if Nat.eqb n 0 then match v with c :: _ => (c =? cstar) || (c =? c0) | [] => false end else check_loop (S ((length v + 1) * (n + 2))) stack v 0 true
  end.

(** tok_test: the stack with its last element first; char stack[40] *)
Definition tpush (s : list Z) (k : Z) : outcome (list Z) := if Nat.ltb (length s) 40 then Ok (k :: s) else UB.
Definition top (n : nat) (s : list Z) : list Z := rev (firstn n s).
(** tokens.c:540, :565-568: the name ends with '$' *)
Definition var_kind (t : token) : Z := if nth (Z.to_nat (cl t - 1)) (text t) 0 =? 36 then cs else cn.
(** tokens.c:585-592 *)
Definition sys_kind (c : Z) : Z := if existsb (Z.eqb c) [4; 5; 10; 11; 31] then cs else cn.
(** upper case: & 0x5f *)
Definition upper (c : Z) : Z := Z.land c 95.
(** one token: the new stack and argument count, or an error *)
Inductive tres := Go (s : list Z) (argc : Z) | Stop (e : err).
Definition test_array (s : list Z) (argc : Z) : outcome tres :=
  if argc =? 0 then Ok (Go s 0)
  else let n := Z.to_nat argc in
    if Nat.ltb (length s) n then UB
    else if check_cmd (top n s) (chars "N,NN"%string) then Ok (Go (skipn n s) 0) else Ok (Stop ERR_TEST_ARRAY).
Definition test_token (s : list Z) (argc : Z) (t : token) : outcome tres :=
  let put k := let* s := tpush s k in Ok (Go s argc) in
  match ty t with
  | number | base_number => put cN
  | string => put cS
  | array_actual => put cA
  | first_of_line_command | command =>
      if cl t =? CMD_DATA then Ok (Go s argc)
      else if check_cmd (rev s) (format_of cmd_format (cl t)) then Ok (Go (if (cl t =? CMD_FOR) || (cl t =? CMD_TO) then s else []) argc)
      else Ok (Stop ERR_TEST_COMMAND)
  | operation =>
      if cl t =? OP_COMMA then put clt
      else if cl t =? OP_SEMICOLON then put csemi
      else if negb (level t =? 6) then
        if Nat.ltb (length s) 2 then Ok (Stop ERR_TEST_OPERATION)
        else if check_cmd (top 2 s) (format_of op_format (cl t)) then
          let s' := skipn 2 s in
          Ok (Go (if (OP_EQUAL <=? cl t) && (cl t <=? OP_GREATER_EQUAL) then cN :: s'
                  else if negb (cl t =? OP_ASSIGN) then upper (nth 1 s 0) :: s' else s') argc)
        else Ok (Stop ERR_TEST_OPERATION)
      else
        if Nat.ltb (length s) 1 then Ok (Stop ERR_TEST_OPERATION)
        else if check_cmd (top 1 s) (chars "N"%string) then Ok (Go (cN :: skipn 1 s) argc) else Ok (Stop ERR_TEST_OPERATION)
  | function =>
      let n := Z.to_nat argc in
      if Nat.ltb (length s) n then UB
      else if check_cmd (top n s) (format_of func_format (cl t))
      then let* s := tpush (skipn n s) (nth (Z.to_nat (cl t)) (chars func_return) 0) in Ok (Go s 0)
      else Ok (Stop ERR_TEST_FUNCTION)
  | array_name | name =>
      let* r := test_array s argc in
      match r with Go s a => let* s := tpush s (var_kind t) in Ok (Go s a) | Stop e => Ok (Stop e) end
  | dim_arr => test_array s argc
  | sysvar => put (sys_kind (cl t))
  | label_string => put cL
  | arg_count => Ok (Go s (cl t))
  | label | comment | newline => Ok (Go s argc)
  | loop_begin => Ok (Go [] argc)
  | tt_empty => Ok (Stop ERR_TEST_UNKNOWN)
  end.
Fixpoint test_loop (s : list Z) (argc : Z) (l : list token) : outcome (option err) :=
  match l with
  | [] => Ok (match s with [] => None | _ => Some ERR_TEST_STACK end)
  | t :: r => let* x := test_token s argc t in match x with Go s argc => test_loop s argc r | Stop e => Ok (Some e) end
  end.
Definition tok_test (l : list token) : outcome (option err) := test_loop [] 0 l.
