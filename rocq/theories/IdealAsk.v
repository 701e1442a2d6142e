(** The ideal computer with INPUT and LINPUT: the player answers every question with a line of text, or breaks off ([None]).  [UB] is what is left unspecified.

    Independent of the code; of the models only the table of display codes [to_wide] and the record of the keys pressed are used; the page is that of ConsoleSpec.v, the line editor that of LineInputSpec.v. *)
From Verif Require Import Base Tokens Runner Strs NumTextSpec ProgSpec Ideal HostData IdealData ConsoleSpec.
From Verif Require LineInput LineInputSpec.

(** ** On the page *)
(** A question: a question mark, and a new line if there is not one anyway.  The cursor must be on the screen, and the line for the answer must be empty
    and in the present colour. *)
Definition ask (p : paper) : outcome paper :=
  if lines p <=? pos p / 32 then UB else
  let p := ConsoleSpec.put p (to_wide 63) in
  let p := if pos p mod 32 =? 0 then p else newline p in
  if (lines p <=? pos p / 32) || negb (forallb (fun c => (fst c =? 0) && (snd c =? colr p)) (firstn 32 (skipn (Z.to_nat (pos p)) (cells p)))) then UB else Ok p.
(** the answer is written there *)
Definition written (p : paper) (t : list Z) : paper := newline (puts p (map to_wide t)).
(** ?Redo from start *)
Definition redo : list Z := [63; 82; 101; 100; 111; 32; 102; 114; 111; 109; 32; 115; 116; 97; 114; 116].

(** ** The answer *)
(** cut at the commas *)
Fixpoint cut (t : list Z) : list (list Z) :=
  match t with
  | [] => [[]]
  | c :: t => if c =? 44 then [] :: cut t else match cut t with f :: fs => (c :: f) :: fs | [] => [[c]] end
  end.
(** a number begins with a digit, perhaps behind a minus *)
Definition answer_number (t : list Z) : outcome Z :=
  match leading 10 (if is_char 45 t then tl t else t) with ([], _) => UB | _ => plain_number t end.
Fixpoint answers (ks : list bool) (fs : list (list Z)) : outcome (list thing) :=
  match ks, fs with
  | [], [] => Ok []
  | k :: ks, f :: fs => let* x := (if k then Ok (Words f) else let* z := answer_number f in Ok (Number z)) in let* xs := answers ks fs in Ok (x :: xs)
  | _, _ => UB
  end.
(** asked again: another number of fields than variables, or a first number that does not look like one *)
Definition no_answer (ks : list bool) (t : list Z) : bool :=
  negb (length (cut t) =? length ks)%nat || match ks with false :: _ => match t with c :: _ => negb (numeric c) | [] => true end | _ => false end.
Fixpoint question (ks : list bool) (p : paper) (todo : list (option (list Z))) : outcome (list thing * paper * list (option (list Z))) :=
  match todo with
  | [] => UB
  | None :: _ => Err ERR_BREAK
  | Some t :: todo =>
      if no_answer ks t then let* p := ask (print (written p t) [Console.Text (map to_wide redo)]) in question ks p todo
      else let* xs := answers ks (cut t) in Ok (xs, written p t, todo)
  end.
Definition CMD_INPUT := 23. Definition CMD_LINPUT := 24.
Section Ask.
Variable D : Type.
Definition ask_icmd (c : Z) (args : list (entry iloc)) (st : (istate * D) * list (option (list Z))) : option (outcome ((istate * D) * list (option (list Z)))) :=
  let '((s, d), todo) := st in
  if c =? CMD_LINPUT then
    Some (match args with
          | [ER true l] =>
              let* p := ask (page s) in
              match todo with
              | [] => UB
              | None :: _ => Err ERR_BREAK
              | Some t :: todo => Ok (Ideal.put (with_page s (written p t)) l (Words t), d, todo)
              end
          | _ => UB
          end)
  else if c =? CMD_INPUT then
    Some (match args with
          | [] => UB
          | _ => let* ls := places args in
                 let* p := ask (page s) in
                 let* (x, todo) := question (map fst ls) p todo in
                 Ok (fill (with_page s (snd x)) ls (fst x), d, todo)
          end)
  else None.
End Ask.
(** the computer of IdealData.v with a player *)
Definition ideal_ask (us : list statement) (its : list (list (list Z))) (max cells : Z) : host := attach (ideal_data us its max cells) (list (option (list Z))) (ask_icmd (list (list Z))).
Definition ideal_ask_text (st : (istate * list (list Z)) * list (option (list Z))) (l : iloc) : list Z := ideal_data_text (fst st) l.
Definition ideal_ask_start (its : list (list (list Z))) (todo : list (option (list Z))) : (istate * list (list Z)) * list (option (list Z)) := (ideal_data_start its, todo).

(** ** At the keyboard *)
(** a line of at most 31 characters is typed (with all the editing one likes) and finished; or the line is broken off.  The line is never full. *)
Definition types_line (ks : list LineInput.keys) (t : list Z) (rest : list LineInput.keys) : Prop :=
  exists l, LineInputSpec.typing ([], []) ks l false rest /\ LineInputSpec.never_full ([], []) ks = true /\
    LineInputSpec.typed l = map to_wide t /\ Forall (fun c => 0 < c < 256) t /\ (length t <= 31)%nat.
Definition breaks_off (ks : list LineInput.keys) : Prop := exists l rest, LineInputSpec.typing ([], []) ks l true rest /\ LineInputSpec.never_full ([], []) ks = true.
Inductive player : list (option (list Z)) -> list LineInput.keys -> Prop :=
| player_done ks : player [] ks
| player_line t todo ks rest : types_line ks t rest -> player todo rest -> player (Some t :: todo) ks
| player_break todo ks : breaks_off ks -> player (None :: todo) ks.
