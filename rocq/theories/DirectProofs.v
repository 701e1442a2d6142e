(** Direct mode: one round of the machine against one round of the ideal computer. *)
From Coq Require Import String Ascii.
From Verif Require Import Base BaseLemmas Tokens ExprSpec NumText Hash HashProofs Labels LabelsProofs Bytecode BytecodeSpec BytecodeProofs Runner RunnerSpec StmtSpec ExecProofs FlowSpec FlowProofs FlowLine ForSpec ProgSpec Lexer LexSpec LexProofs LexProps Link ProgProofs ProgSim ProgEnd ProgProps.
From Verif Require Import Codes Vars Strs Data DataSpec Console ConsoleSpec ConsoleProofs Machine Ideal HostSim MachineSim MachineHost HostData MachineData IdealData DataHost.
From Verif Require Import LineInput LineInputSpec LineInputProps LineInputFields Ask IdealAsk AskProofs AskHost Direct IdealDirect.
Ltac Zify.zify_post_hook ::= Z.div_mod_to_equations.
Open Scope Z_scope.

Section Direct.
Variables n cells labels : Z.
Hypothesis Hn : 0 <= n <= 18.
Hypothesis Hl : 0 <= labels.
Variable errno : err -> Z.
Variable test : list token -> option err.
Notation SR := (MachineSim.SR n cells).
Notation LR := (MachineSim.LR n).
Notation h1 := (ideal (2 ^ n) cells).

(** ** a line that is a program *)
Lemma complete_ok sources prog code tbl its i m todo ks q s :
  Forall2 line_spelled sources (map ptoks prog) -> Forall proper_pline prog -> link_text errno None false test (2 ^ labels) (concat sources) = Ok (code, tbl, []) ->
  Z.of_nat (length code) < 16777216 -> Forall (short_bounds None) (statements prog) -> Forall2 data_line (statements prog) its -> SR i m -> player todo ks ->
  run_program (ideal_ask (statements prog) its (2 ^ n) cells) (ref_of None) ideal_ask_text (statements prog) q ((i, from_here its 0), todo) = ProgSpec.End s ->
  exists k m' ks', (forall fuel, (k <= fuel)%nat -> complete fuel code tbl m ks = Ok (m', ks')) /\ SR (fst (fst s)) m' /\ player (snd s) ks'.
Proof.
  intros Sp P L Sz Sb Dl S Pl Er. set (host := machine_ask code tbl).
  assert (Lk : link errno None false test [] (init_labels (2 ^ labels)) (map (fun p => Tokens (ptoks p)) prog) = Ok (code, tbl, [])).
  { pose proof L as L1. unfold link_text in L1. rewrite (C67_source_partial _ _ Sp), reset_init, map_map in L1; [exact L1|]. apply Forall_map. eapply Forall_impl; [apply proper_short|exact P]. }
  destruct (link_program errno None test prog ltac:(discriminate) P [] _ _ _ eq_refl Lk) as (iss & U & E & T). cbn [app length] in E, T. change (Z.of_nat 0) with 0 in T.
  pose proof (program_uok prog P) as Uo. rewrite E in Sz.
  pose proof (ask_agrees n cells Hn (statements prog) iss its tbl labels Hl Uo U Dl T Sz) as Ag. rewrite <- E in Ag.
  pose proof (run_program_sim _ _ _ _ _ _ Ag (ref_of None) (statements prog) q ((i, from_here its 0), todo) ((m, reader_start 0), ks)
    (conj (conj S (start_reading (statements prog) iss its U Dl 0)) Pl)) as Sim.
  rewrite <- E in Sz.
  pose proof (C70_text_partial host atext errno None test labels sources prog code tbl ltac:(discriminate)
    ltac:(intros a b; cbn [same host machine_ask machine_data attach machine]; destruct (mloc_eq a b); split; congruence) Hl Sp P L Sz Sb q ((m, reader_start 0), ks)) as G. cbv zeta in G.
  fold host in Sim. unfold ideal_ask in *. rewrite Er in Sim. cbn [mr] in Sim. destruct Sim as (t & Er2 & [[R1 _] R2]). rewrite Er2 in G. destruct G as (k & calls & G).
  exists k, (fst (fst t)), (snd t). split; [|split; assumption]. intros fuel F. unfold complete. cbv zeta. fold host. replace fuel with (k + (fuel - k))%nat by lia. rewrite G. cbn [bind ix hst].
  rewrite Z.ltb_irrefl. reflexivity.
Qed.
(** ** what is said *)
Lemma say_ok i m w : SR i m -> exists c, con_puts (mcon m) (map to_wide w) = Ok c /\ SR (say i w) (with_con m (con_newline c true)).
Proof.
  intros S. pose proof (SR_page n cells i m S) as Pg. destruct (con_puts_R _ _ (map to_wide w) Pg) as (c & E & R1). exists c. split; [exact E|].
  apply (page_set n cells i m _ _ S). exact (con_newline_R _ _ R1).
Qed.
(** ** the question *)
Lemma typed_ok s m t s1 todo ks : SR s m -> typed_line (2 ^ n) s t s1 -> player (Some t :: todo) ks ->
  exists l m0 c c1 rest, mvar (ByName false CODE) m = Ok (true, l, m0) /\ con_prompt (mcon m0) None = Ok c /\ shared_input c ks = Ok (Some (c1, false, rest)) /\
    (let m1 := ask_store (with_con m0 (con_newline c1 true)) (ER true l) (IVStr (stored (until_null (row c1)))) in SR s1 m1 /\ mtext m1 l = t) /\ player todo rest /\ (length t <= 31)%nat.
Proof.
  intros S (l & s0 & p & V & A & ->) P. pose proof (var_ok n cells (ByName false CODE) s m S) as G. change variable_name with CODE in V. rewrite V in G. cbn [okr] in G.
  destruct G as ([[c0 q] m0] & Eq & (<- & (S0 & _) & L)). pose proof (SR_page n cells _ _ S0) as Pg. pose proof (ask_ok _ _ Pg) as Ak. rewrite A in Ak. destruct Ak as (c & Ec & R1 & X & Y & Em).
  inversion P as [|t0 todo0 ks0 rest (l0 & T & NF & Ty & Ft & Lt) P'|]; subst. destruct (AskProofs.line_ok c p ks l0 rest t R1 X Y Em T NF Ty Lt) as (c1 & E1 & _ & R2 & Sh).
  exists q, m0, c, c1, rest. split; [exact Eq|]. split; [exact Ec|]. split; [exact E1|]. split; [|split; [exact P'|exact Lt]].
  assert (G : Forall LineInputProps.good (LineInputSpec.typed l0)). { rewrite Ty. apply Forall_map. eapply Forall_impl; [|exact Ft]. intros b Hb. cbn beta in Hb. split; [|exists b; split; [lia|reflexivity]]. change 0 with (to_wide 0). intros Q. apply StrProofs.to_wide_inj in Q; lia. }
  rewrite (LineInputProps.shows_row _ _ _ Sh) by (rewrite Ty, map_length; lia). rewrite LineInputProps.until_typed by exact G. rewrite Ty. unfold stored. rewrite all_char by (apply bytes_pos, Ft). rewrite map_back by (apply bytes_pos, Ft).
  cbv zeta. cbn [ask_store]. destruct (page_set n cells s0 m0 (written p t) (con_newline c1 true) S0 R2) as [S2 X2].
  pose proof (text_in n cells [] 0 (with_page s0 (written p t)) (with_con m0 (con_newline c1 true)) l q t S2 (X2 _ _ _ L) _ eq_refl) as [S3 X3].
  split; [exact S3|]. pose proof (get_rel _ _ _ _ _ _ _ S3 (X3 _ _ _ (X2 _ _ _ L))) as W.
  assert (K : exists k, l = IVar k). { clear - V. cbn [Ideal.ivar] in V. destruct (name_of CODE) as [nm b]. destruct (legal nm); [|discriminate]. destruct (know _ _ _); cbn [bind] in V; try discriminate. injection V as _ <- _. eauto. }
  destruct K as (k & ->). cbn [get put vals] in W. unfold VarsSpec.set in W. destruct (VarsSpec.key_eq k k); [|contradiction]. cbn [vrel] in W.
  match type of W with context [mget ?m2 ?q2] => change (match mget m2 q2 with VStr h => nth (Z.to_nat h) (texts m2) [] | _ => [] end = t); destruct (mget m2 q2) as [|h| |]; try contradiction end.
  destruct W as [_ W]. exact W.
Qed.
(** ** a line that is none *)
Lemma bad_line t : not_a_line t -> exists tbl, link_text errno None false test (2 ^ labels) (t ++ [13]) = Ok ([BC_ERROR; errno ERR_UNKNOWN_TRANSITION], tbl, [ERR_UNKNOWN_TRANSITION]).
Proof.
  intros (ss & ts & c & r & -> & F & L & I & N). pose proof (C67_illegal_partial [] [] ss ts c r [] [] ltac:(constructor) ltac:(constructor) ltac:(constructor) F L I N) as Q.
  cbn [concat map app] in Q. rewrite app_nil_r in Q. unfold link_text. rewrite <- !app_assoc. change ((c :: r) ++ [13]) with (c :: r ++ [13]). rewrite Q. cbn [bind link app]. eauto.
Qed.
Lemma not_debug t : ~ debug_line t -> is_debug t = false.
Proof. unfold debug_line, is_debug. destruct (list_eq_dec _ _ _); [tauto|]. destruct (list_eq_dec _ _ _); [tauto|reflexivity]. Qed.

(** the two tables of messages are one *)
Lemma complaint_same e : complaint e = err_msg (Some e).
Proof. destruct e; reflexivity. Qed.
Lemma turn_ok s todo s' todo' m ks : turn errno test labels (2 ^ n) cells (s, todo) (s', todo') -> SR s m -> player todo ks ->
  exists k m' ks', (forall fuel, (k <= fuel)%nat -> direct_turn errno test (2 ^ labels) fuel m ks = Ok (Some (m', ks'))) /\ SR s' m' /\ player todo' ks'.
Proof.
  intros T S P. inversion T as [s_ t todo1 s1 line its after Ty Nd (Sp & Pp & Sb & Dl & code & tbl & Lk & Sz) [q Er] | s_ t todo1 s1 Ty Nd Bad | s_ t todo1 s1 e Ty Nd (code & tbl & es & Lk)]; subst.
  - destruct (run_program _ _ _ _ _ _) as [|sa| |] eqn:Er2; try contradiction. destruct Er.
    destruct (typed_ok s m t s1 todo1 ks S Ty P) as (l & m0 & c & c1 & rest & E1 & E2 & E3 & (S1 & Tx) & P1 & Lt). unfold direct_turn.
    rewrite E1, E2. cbn [bind]. rewrite E3. cbn [bind]. cbv zeta in *. set (m1 := ask_store _ _ _) in *. rewrite Tx.
    assert (Lk1 : link_text errno None false test (2 ^ labels) (concat [t ++ [13]]) = Ok (code, tbl, [])) by (cbn [concat]; rewrite app_nil_r; exact Lk).
    destruct (complete_ok [t ++ [13]] [line] code tbl its s1 m1 todo1 rest q _ ltac:(constructor; [exact Sp|constructor]) ltac:(constructor; [exact Pp|constructor]) Lk1 Sz Sb Dl S1 P1 Er2) as (k & m2 & ks2 & G & S2 & P2). 
    destruct (say_ok (fst (fst sa)) m2 ok_text S2) as (c2 & E4 & S3). exists k, (with_con m2 (con_newline c2 true)), ks2. split; [|split; assumption]. intros fuel F. unfold direct_exec.
    rewrite (not_debug t Nd), (proj2 (Nat.ltb_ge 32 (length t)) ltac:(lia)). cbn [orb]. rewrite Lk. cbn [bind]. rewrite (G fuel F). unfold report.
    change ok_text with (err_msg None) in E4. destruct code; cbn [bind fst snd]; rewrite E4; reflexivity.
  - destruct (typed_ok s m t s1 todo' ks S Ty P) as (l & m0 & c & c1 & rest & E1 & E2 & E3 & (S1 & Tx) & P1 & Lt). unfold direct_turn.
    rewrite E1, E2. cbn [bind]. rewrite E3. cbn [bind]. cbv zeta in *. set (m1 := ask_store _ _ _) in *. rewrite Tx.
    destruct (say_ok s1 m1 (letters "Unknown transition") S1) as (c2 & E4 & S3). exists 0%nat, (with_con m1 (con_newline c2 true)), rest. split; [|split; assumption]. intros fuel F. unfold direct_exec.
    rewrite (not_debug t Nd), (proj2 (Nat.ltb_ge 32 (length t)) ltac:(lia)). cbn [orb]. destruct (bad_line t Bad) as (tbl & ->). cbn [bind]. change (BC_ERROR =? BC_ERROR) with true.
    unfold report. change (letters "Unknown transition") with (err_msg (Some ERR_UNKNOWN_TRANSITION)) in E4. cbn [bind fst snd]. rewrite E4. reflexivity.
  - destruct (typed_ok s m t s1 todo' ks S Ty P) as (l & m0 & c & c1 & rest & E1 & E2 & E3 & (S1 & Tx) & P1 & Lt). unfold direct_turn.
    rewrite E1, E2. cbn [bind]. rewrite E3. cbn [bind]. cbv zeta in *. set (m1 := ask_store _ _ _) in *. rewrite Tx.
    destruct (say_ok s1 m1 (complaint e) S1) as (c2 & E4 & S3). exists 0%nat, (with_con m1 (con_newline c2 true)), rest. split; [|split; assumption]. intros fuel F. unfold direct_exec.
    rewrite (not_debug t Nd), (proj2 (Nat.ltb_ge 32 (length t)) ltac:(lia)). cbn [orb]. rewrite Lk. cbn [bind]. change (BC_ERROR =? BC_ERROR) with true.
    unfold report. cbn [bind fst snd]. rewrite <- complaint_same, E4. reflexivity.
Qed.
Lemma session_ok k : forall s todo s' todo' m ks, session errno test labels (2 ^ n) cells k (s, todo) (s', todo') -> SR s m -> player todo ks ->
  exists f m' ks', (forall fuel, (f <= fuel)%nat -> direct errno test (2 ^ labels) fuel k m ks = Ok (Some (m', ks'))) /\ SR s' m' /\ player todo' ks'.
Proof.
  induction k as [|k IH]; intros s todo s' todo' m ks X S P; inversion X as [|k0 x [s1 todo1] z T X1]; subst.
  - exists 0%nat, m, ks. split; [reflexivity|auto].
  - destruct (turn_ok _ _ _ _ _ _ T S P) as (f1 & m1 & ks1 & G1 & S1 & P1). destruct (IH _ _ _ _ _ _ X1 S1 P1) as (f2 & m2 & ks2 & G2 & S2 & P2).
    exists (Nat.max f1 f2), m2, ks2. split; [|auto]. intros fuel F. cbn [direct]. rewrite G1 by lia. cbn [bind]. apply G2. lia.
Qed.
Lemma start_direct elements : 0 <= elements -> cells = elements + 2 * 2 ^ n -> cells < 2 ^ 30 -> exists m, direct_start (2 ^ n) elements = Ok m /\ SR switched_on m.
Proof.
  intros He Ec Hc. pose proof (start_ok n cells elements ltac:(lia) He Ec Hc) as S. destruct (say_ok _ _ banner S) as (c & E & S1).
  exists (with_con (machine_start (2 ^ n) elements) (con_newline c true)). split; [|exact S1]. unfold direct_start. rewrite E. reflexivity.
Qed.
End Direct.
