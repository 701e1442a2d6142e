(** The machine with INPUT and LINPUT against the ideal computer with a player. *)
From Verif Require Import Base BaseLemmas Labels Link Memory Strs Tokens ExprSpec NumText NumTextSpec Bytecode BytecodeSpec BytecodeProofs Runner RunnerSpec StmtSpec ExecProofs FlowSpec ForSpec ProgSpec ProgProofs ProgSim ProgEnd.
From Verif Require Import Vars Codes StrProofs Data DataSpec Machine Ideal IdealVal HostSim MachineSim MachineHost HostData MachineData IdealData DataHost.
From Verif Require Import Console ConsoleSpec LineInput LineInputSpec LineInputFields Ask IdealAsk AskProofs.
Ltac Zify.zify_post_hook ::= Z.div_mod_to_equations.

(** [input_rest] is LineInput.v's [input_loop] that also tells which keys are left *)
Lemma input_rest_loop prompt vars : forall n c vals ks, input_loop n c prompt vars vals ks =
  (let* r := input_rest n c prompt vars vals ks in Ok (match r with Waiting => Waiting | Broken c (v, _) => Broken c v | Answer c (v, _) => Answer c v end)).
Proof.
  induction n as [|n IH]; intros c vals ks; cbn [input_loop input_rest]; [reflexivity|]. destruct (shared_input c ks) as [[[[c1 [|]] ks1]|]|e|]; cbn [bind]; try reflexivity.
  destruct (_ =? _).
  - destruct (fields _ _ _ _ _ _) as [[f [|]]|e|]; cbn [bind fst snd]; try reflexivity. destruct (con_reprompt _ _); cbn [bind]; try reflexivity. apply IH.
  - destruct (con_reprompt _ _); cbn [bind]; try reflexivity. apply IH.
Qed.

Section Both.
Variables n cells : Z.
Hypothesis Hn : 0 <= n <= 18.
Variable us : list statement.
Variable iss : list (list BytecodeSpec.instr).
Variable its : list (list (list Z)).
Variable tbl : Labels.labels.
Variable nl : Z.
Hypothesis Hl : 0 <= nl.
Hypothesis Uo : Forall uok us.
Hypothesis Uc : ucodes None us = Ok iss.
Hypothesis Dl : Forall2 data_line us its.
Hypothesis Tb : load (init_labels (2 ^ nl)) (defs_of 0 us iss) = Some tbl.
Notation code := (encode (concat iss)).
Hypothesis Sz : Z.of_nat (length code) < 16777216.
Notation h1 := (ideal (2 ^ n) cells).
Notation h2 := machine.
Notation SR := (MachineSim.SR n cells).
Notation LR := (MachineSim.LR n).
Notation SD := (R' h1 h2 SR (list (list Z)) reader (reading iss) (data_icmd us its (2 ^ n) cells) (data_cmd code tbl)).
Notation LD := (LR' h1 h2 LR (list (list Z)) reader (data_icmd us its (2 ^ n) cells) (data_cmd code tbl)).
Notation D1 := (ideal_data us its (2 ^ n) cells).
Notation D2 := (machine_data code tbl).
Notation SA := (R' D1 D2 SD (list (option (list Z))) (list keys) player (ask_icmd (list (list Z))) (ask_cmd reader)).
Notation LA := (LR' D1 D2 LD (list (option (list Z))) (list keys) (ask_icmd (list (list Z))) (ask_cmd reader)).
Notation H1 := (ideal_ask us its (2 ^ n) cells).
Notation H2 := (machine_ask code tbl).

Lemma page_set i m p c : SR i m -> ConsoleProofs.R c p -> on h1 h2 SR LR i m (with_page i p) (with_con m c).
Proof.
  intros (s & S & V & C & Tx) Q. split.
  - exists s. cbn [mvars texts mcon with_con page with_page]. split; [exact S|]. split; [destruct V; constructor; assumption|]. split; [exact Q|exact Tx].
  - exact (kept_ext n i m (with_page i p) (with_con m c) (kept_refl n _) (tkept_eq _ _ eq_refl)).
Qed.
Lemma SR_page i m : SR i m -> ConsoleProofs.R (mcon m) (page i).
Proof. intros (s & _ & _ & C & _). exact C. Qed.
(** a text arrives *)
Lemma text_in i m l p t : SR i m -> LR i m true l p -> forall m1, m1 = mkM (mvars m) (texts m ++ [t]) (mcon m) -> on h1 h2 SR LR i m (Ideal.put i l (Words t)) (mput m1 p (VStr (Z.of_nat (length (texts m))))).
Proof.
  intros S L m1 ->. pose proof (SR_app n cells i m [t] S) as S1. assert (V1 : vrel (texts m ++ [t]) (Words t) (VStr (Z.of_nat (length (texts m))))).
  { cbn [vrel]. rewrite app_length, Nat2Z.id, nth_middle. cbn [length]. split; [lia|reflexivity]. }
  exact (on_put n cells i (mkM (mvars m) (texts m ++ [t]) (mcon m)) true l p _ _ S1 L V1).
Qed.
Lemma stores_ok : forall ls ws i m xs vs, SR i m -> Forall2 (fun a w => match w with ER b p => fst a = b /\ LR i m b (snd a) p | _ => False end) ls ws -> Forall2 amatch xs vs ->
  map fst ls = map (fun x => match x with Words _ => true | Number _ => false end) xs -> on h1 h2 SR LR i m (fill i ls xs) (ask_stores m ws vs).
Proof.
  induction ls as [|[b l] ls IH]; intros ws i m xs vs S F V K; inversion F as [|? w ? ws' E F']; subst; [cbn [fill ask_stores]; apply on_same, S|].
  destruct V as [|x v xs vs M V]; [discriminate|]. cbn [map fst] in K. injection K as K1 K2. cbn [fill ask_stores]. destruct w as [y|d y|c p|y]; try contradiction. cbn [fst snd] in E. destruct E as [-> L].
  assert (O : on h1 h2 SR LR i m (Ideal.put i l x) (ask_store m (ER c p) v)).
  { destruct x as [z|t], v as [z'|s]; cbn [amatch] in M; try contradiction; subst; cbn [ask_store].
    - eapply on_put; [exact S|exact L|reflexivity].
    - eapply text_in; [exact S|exact L|reflexivity]. }
  eapply on_trans; [exact O|]. destruct O as [S2 X]. apply IH; [exact S2| |exact V|exact K2]. eapply fimpl; [|exact F']. intros a w. destruct w as [|?|c' p'|]; try contradiction. intros [E L']. split; [exact E|apply X, L'].
Qed.
Lemma answers_kinds : forall ks fs xs, answers ks fs = Ok xs -> ks = map (fun x => match x with Words _ => true | Number _ => false end) xs.
Proof.
  induction ks as [|k ks IH]; intros [|f fs] xs; cbn [answers]; try discriminate; [intros [= <-]; reflexivity|].
  destruct k; [|destruct (answer_number f); cbn [bind]; try discriminate]; cbn [bind]; (destruct (answers ks fs) eqn:A; cbn [bind]; try discriminate); intros [= <-]; cbn [map]; f_equal; eapply IH; exact A.
Qed.
Lemma question_kinds ks : forall todo p xs p' todo', question ks p todo = Ok (xs, p', todo') -> ks = map (fun x => match x with Words _ => true | Number _ => false end) xs.
Proof.
  induction todo as [|[t|] todo IH]; intros p xs p' todo'; cbn [question]; try discriminate. destruct (no_answer ks t).
  - destruct (ask _); cbn [bind]; try discriminate. apply IH.
  - destruct (answers ks (cut t)) as [x| |] eqn:A; cbn [bind]; try discriminate. intros [= <- <- <-]. eapply answers_kinds, A.
Qed.
Lemma kinds_of ls ws (i : istate) m : Forall2 (fun a w => match w with ER b p => fst a = b /\ LR i m b (snd a) p | _ => False end) ls ws -> map ask_kind ws = map kind_of (map fst ls).
Proof. induction 1 as [|[b l] w ls ws E F IH]; [reflexivity|]. destruct w as [|?|c p|]; try contradiction. cbn [fst] in E. destruct E as [-> _]. cbn [map fst]. rewrite IH. destruct c; reflexivity. Qed.
Lemma ask_cmds c s1 s2 vs ws : SA s1 s2 -> Forall2 (er H1 H2 LA s1 s2) vs ws ->
  match ask_icmd (list (list Z)) c vs s1, ask_cmd reader c ws s2 with
  | Some x, Some y => okr (on_state H1 H2 SA LA s1 s2) x y
  | None, None => True
  | _, _ => False
  end.
Proof.
  destruct s1 as [[i d] todo], s2 as [[m r] ks]. intros [[S Rd] P] F. cbn [fst snd] in S, Rd, P. unfold ask_icmd, ask_cmd.
  assert (F1 : Forall2 (er h1 h2 LR i m) vs ws) by exact F. pose proof (SR_page _ _ S) as Pg. pose proof (ask_ok _ _ Pg) as Ak.
  assert (Fin : forall i' m' todo' ks', on h1 h2 SR LR i m i' m' -> player todo' ks' -> okr (on_state H1 H2 SA LA (i, d, todo) (m, r, ks)) (Ok (i', d, todo')) (Ok (m', r, ks'))).
  { intros i' m' todo' ks' [O X] P'. apply okr_ok. split; [split; [split; [exact O|exact Rd]|exact P']|]. intros b l p L. apply X, L. }
  destruct (c =? IdealAsk.CMD_LINPUT) eqn:C1; [change (c =? Ask.CMD_LINPUT) with (c =? IdealAsk.CMD_LINPUT); rewrite C1|change (c =? Ask.CMD_LINPUT) with (c =? IdealAsk.CMD_LINPUT); rewrite C1].
  - destruct F1 as [|v w vs ws E F1]; [exact I|]. destruct v as [x|b x|[|] l|x]; try exact I; (destruct F1 as [|? ? vs ws ? F1]; [|exact I]).
    destruct w as [y|b y|b p|y]; cbn [HostSim.er] in E; try contradiction. destruct E as [<- L].
    destruct (ask (page i)) as [pg|e|]; cbn [bind]; [|contradiction|exact I]. destruct Ak as (k & -> & R1 & X & Y & Em). cbn [bind].
    destruct P as [ks|t todo ks rest (l0 & T & NF & Ty & Ft & Lt) P|todo ks B]; [exact I| |].
    + destruct (line_ok k pg ks l0 rest t R1 X Y Em T NF Ty Lt) as (c1 & -> & Rw & R2 & Sh). cbn [bind].
      assert (G : Forall LineInputProps.good (LineInputSpec.typed l0)). { rewrite Ty. apply Forall_map. eapply Forall_impl; [|exact Ft]. intros b Hb. cbn beta in Hb. split; [|exists b; split; [lia|reflexivity]]. change 0 with (to_wide 0). intros Q. apply StrProofs.to_wide_inj in Q; lia. }
      rewrite (LineInputProps.shows_row _ _ _ Sh) by (rewrite Ty, map_length; lia). rewrite LineInputProps.until_typed by exact G. rewrite Ty. unfold stored. rewrite all_char by (apply bytes_pos, Ft). rewrite map_back by (apply bytes_pos, Ft).
      cbn [ask_store]. apply Fin; [|exact P]. eapply on_trans; [apply (page_set i m (written pg t) (con_newline c1 true) S R2)|]. destruct (page_set i m (written pg t) (con_newline c1 true) S R2) as [S2 X2].
      eapply text_in; [exact S2|apply X2, L|reflexivity].
    + destruct (broken_ok k pg ks R1 Y Em B) as (c1 & rest & ->). reflexivity.
  - change (c =? Ask.CMD_INPUT) with (c =? IdealAsk.CMD_INPUT). destruct (c =? IdealAsk.CMD_INPUT); [|exact I]. destruct F1 as [|v w vs ws E F1]; [exact I|].
    pose proof (places_ok n cells Hn iss nl Hl i m _ _ (Forall2_cons _ _ E F1)) as Pl. destruct (places (v :: vs)) as [ls|e|]; cbn [bind]; [|contradiction|exact I]. destruct Pl as (_ & Pl & Le).
    destruct (ask (page i)) as [pg|e|]; cbn [bind]; [|contradiction|exact I]. destruct Ak as (k & -> & R1 & X & Y & Em). cbn [bind].
    rewrite (kinds_of _ _ _ _ Pl). pose proof (question_ok (map fst ls) (Datatypes.S (length ks)) todo ks k pg (map (ask_value m) (w :: ws)) P ltac:(lia) ltac:(rewrite !map_length; exact (eq_sym Le)) R1 X Y Em) as Q.
    destruct (question (map fst ls) pg todo) as [[[xs p'] todo']|e|] eqn:Qq; cbn [bind fst snd]; [| |exact I].
    + destruct Q as (c' & vals & ks' & -> & R2 & P' & M). cbn [bind]. apply Fin; [|exact P']. eapply on_trans; [apply (page_set i m p' c' S R2)|]. destruct (page_set i m p' c' S R2) as [S2 X2].
      apply stores_ok; [exact S2| |exact M|eapply question_kinds; exact Qq]. eapply fimpl; [|exact Pl]. intros a w0. destruct w0 as [|?|b p|]; try contradiction. intros [E1 L']. split; [exact E1|apply X2, L'].
    + destruct Q as (-> & c' & a & ->). reflexivity.
Qed.
Lemma ask_agrees : hosts_agree H1 H2 SA LA ideal_ask_text atext.
Proof. apply (attach_agrees D1 D2 SD LD ideal_data_text dtext (data_agrees n cells Hn us iss its tbl nl Hl Uo Uc Dl Tb Sz)). exact ask_cmds. Qed.
End Both.
