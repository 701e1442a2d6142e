(** The compiler with its label table (source/interpreter/tokens.c:226-338; Bytecode.compile has the code alone),
    and how the interpreter finds labels (flow.c, label.c:104-134). *)
From Verif Require Import Base Tokens Labels Bytecode BytecodeSpec Runner Lexer.

(** tokens.c:301-338 tok_convert and 249-285 of tokenize_full, for one line: a label at the start of the line is added to the
    table before anything else; an error in the line is compiled (without TOKOPT_STRICT_ERROR) and noted in the list [es]. *)
Definition link_line (errno : err -> Z) ids no_labels test (d : list Z) (tbl : Labels.labels) (l : list token) : outcome (list Z * Labels.labels * list err) :=
  let failed e d := (d ++ [BC_ERROR; errno e]) in
  let go tbl :=
    let* (d, e) := convert ids no_labels test d l in
    match e with None => Ok (d, tbl, []) | Some e => Ok (failed e d, tbl, [e]) end in
  match l with
  | t :: _ =>
      if is_ty t label then
        match add_label tbl (firstn (Z.to_nat (cl t)) (text t)) (Z.of_nat (length d)) with
        | Some tbl => go tbl
        | None => Ok (failed ERR_LABEL_ADD_FAILURE d, tbl, [ERR_LABEL_ADD_FAILURE])
        end
      else go tbl
  | [] => go tbl
  end.
Fixpoint link (errno : err -> Z) ids no_labels test (d : list Z) (tbl : Labels.labels) (ls : list line) : outcome (list Z * Labels.labels * list err) :=
  match ls with
  | [] => Ok (d, tbl, [])
  | BadLine e :: r => let* (d, tbl, es) := link errno ids no_labels test (d ++ [BC_ERROR; errno e]) tbl r in Ok (d, tbl, e :: es)
  | Tokens l :: r =>
      let* (d, tbl, es) := link_line errno ids no_labels test d tbl l in
      let* (d, tbl, es') := link errno ids no_labels test d tbl r in Ok (d, tbl, es ++ es')
  end.
(** tokenize_full on a text, with a table of [size] entries (program.c:57-82; main.c and runner.c give a power of two) *)
Definition link_text errno ids no_labels test (size : Z) (src : list Z) : outcome (list Z * Labels.labels * list err) :=
  let* ls := lex src in link errno ids no_labels test [] (reset_label (init_labels size)) ls.

(** search_label on what GOTO, GOSUB, ON and RESTORE are given: a label, a string, a string variable with text [strv st l] *)
Definition table_lab (h : host) (strv : St h -> Loc h -> list Z) (tbl : Labels.labels) : labels_fun h :=
  fun v st => match v with
              | ES true w => search_label tbl (Lit w)
              | ES false s => search_label tbl (Text s)
              | ER true l => search_label tbl (Text (strv st l))
              | _ => UB
              end.

(** The loop of the interpreter (runner.c:186): at most [n] instructions; it ends by itself at the end of the code *)
Fixpoint run {h} (lab : labels_fun h) (code : list Z) (n : nat) (c : cfg h) : outcome (cfg h) :=
  match n with
  | O => Ok c
  | S n => if ix c <? Z.of_nat (length code) then let* c := step lab code c in run lab code n c else Ok c
  end.
