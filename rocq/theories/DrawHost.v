(** The machine with graphics pages against the ideal computer with boards. *)
From Verif Require Import Base BaseLemmas Labels Link Memory Strs Tokens ExprSpec NumText NumTextSpec Bytecode BytecodeSpec BytecodeProofs Runner RunnerSpec StmtSpec ExecProofs FlowSpec ForSpec ProgSpec ProgProofs ProgSim ProgEnd.
From Verif Require Import Vars Codes StrProofs Data DataSpec Machine Ideal IdealVal HostSim MachineSim MachineHost HostData MachineData IdealData DataHost.
From Verif Require Import LineInput Ask IdealAsk AskHost Graphics Draw IdealDraw DrawProofs.
Ltac Zify.zify_post_hook ::= Z.div_mod_to_equations.

Section Fun.
Variables h1 h2 : host.
Variable R : St h1 -> St h2 -> Prop.
Variable LR : St h1 -> St h2 -> bool -> Loc h1 -> Loc h2 -> Prop.
Variable strv1 : St h1 -> Loc h1 -> list Z.
Variable strv2 : St h2 -> Loc h2 -> list Z.
Hypothesis A : hosts_agree h1 h2 R LR strv1 strv2.
Variable f1 : Z -> list (entry (Loc h1)) -> St h1 -> option (outcome Z).
Variable f2 : Z -> list (entry (Loc h2)) -> St h2 -> option (outcome Z).
Hypothesis F : forall c s1 s2 vs ws, R s1 s2 -> Forall2 (er h1 h2 LR s1 s2) vs ws ->
  match f1 c vs s1, f2 c ws s2 with Some x, Some y => okr eq x y | None, None => True | _, _ => False end.
Lemma fun_agrees : hosts_agree (with_fun h1 f1) (with_fun h2 f2) R LR strv1 strv2.
Proof.
  constructor.
  - exact (a_same _ _ _ _ _ _ A).
  - exact (a_getn _ _ _ _ _ _ A).
  - exact (a_setn _ _ _ _ _ _ A).
  - exact (a_strv _ _ _ _ _ _ A).
  - exact (a_var _ _ _ _ _ _ A).
  - exact (a_arr _ _ _ _ _ _ A).
  - exact (a_dim _ _ _ _ _ _ A).
  - exact (a_un _ _ _ _ _ _ A).
  - exact (a_bin _ _ _ _ _ _ A).
  - exact (a_sassign _ _ _ _ _ _ A).
  - intros c s1 s2 vs ws G E. pose proof (F c s1 s2 vs ws G E) as X. cbn [hfun with_fun]. destruct (f1 c vs s1), (f2 c ws s2); try contradiction; [|exact (a_fun _ _ _ _ _ _ A c s1 s2 vs ws G E)].
    eapply okr_bind; [exact X|]. intros a ? <-. apply okr_ok. split; [apply on_refl, G|reflexivity].
  - exact (a_sys _ _ _ _ _ _ A).
  - exact (a_check _ _ _ _ _ _ A).
  - exact (a_cmd _ _ _ _ _ _ A).
Qed.
End Fun.

Section Both.
Variables n cells : Z.
Hypothesis Hn : 0 <= n <= 18.
Variable us : list statement.
Variable iss : list (list BytecodeSpec.instr).
Variable its : list (list (list Z)).
Variable tbl : Labels.labels.
Variable nl : Z.
Hypothesis Hl : 0 <= nl.
Hypothesis Uo : Forall uok us.
Hypothesis Uc : ucodes None us = Ok iss.
Hypothesis Dl : Forall2 data_line us its.
Hypothesis Tb : load (init_labels (2 ^ nl)) (defs_of 0 us iss) = Some tbl.
Notation code := (encode (concat iss)).
Hypothesis Sz : Z.of_nat (length code) < 16777216.
Notation h1 := (ideal (2 ^ n) cells).
Notation h2 := machine.
Notation SR := (MachineSim.SR n cells).
Notation LR := (MachineSim.LR n).
Notation D1 := (ideal_data us its (2 ^ n) cells).
Notation D2 := (machine_data code tbl).
Notation A1 := (ideal_ask us its (2 ^ n) cells).
Notation A2 := (machine_ask code tbl).
(** what corresponds there *)
Definition arel (x : ask_istate) (y : ask_state) : Prop := (SR (fst (fst x)) (fst (fst y)) /\ reading iss (snd (fst x)) (snd (fst y))) /\ player (snd x) (snd y).
Definition alrel (x : ask_istate) (y : ask_state) (b : bool) (l : iloc) (p : mloc) : Prop := LR (fst (fst x)) (fst (fst y)) b l p.
Lemma ask_agrees2 : hosts_agree A1 A2 arel alrel ideal_ask_text atext.
Proof. exact (ask_agrees n cells Hn us iss its tbl nl Hl Uo Uc Dl Tb Sz). Qed.
Notation IC := (draw_icmd ask_istate (fun s => fst (fst s))).
Notation MC := (draw_cmd ask_state (fun s => fst (fst s))).
Notation SG := (R' A1 A2 arel board gfx pictured IC MC).
Notation LG := (LR' A1 A2 alrel board gfx IC MC).
Notation G1 := (attach A1 board IC).
Notation G2 := (attach A2 gfx MC).
Notation H1 := (ideal_draw us its (2 ^ n) cells).
Notation H2 := (machine_draw code tbl).

Lemma nums_ok i m : SR i m -> forall vs ws, Forall2 (er h1 h2 LR i m) vs ws -> okr eq (inums i vs) (nums m ws).
Proof.
  intros S vs ws F. induction F as [|v w vs ws E F IH]; [apply okr_ok; reflexivity|]. cbn [inums nums]. eapply okr_bind; [apply (num_ok n cells _ _ _ _ S E)|]. intros a ? [<- _].
  eapply okr_bind; [exact IH|]. intros l ? <-. apply okr_ok. reflexivity.
Qed.
Lemma draw_cmds c s1 s2 vs ws : SG s1 s2 -> Forall2 (er G1 G2 LG s1 s2) vs ws ->
  match IC c vs s1, MC c ws s2 with
  | Some x, Some y => okr (on_state G1 G2 SG LG s1 s2) x y
  | None, None => True
  | _, _ => False
  end.
Proof.
  destruct s1 as [[[i d] todo] b], s2 as [[[m r] ks] g]. intros [[[S Rd] P] Pc] F. cbn [fst snd] in S, Rd, P, Pc. unfold draw_icmd, draw_cmd. cbn [fst snd]. rewrite draws_same. destruct (drawing c); [|exact I].
  eapply okr_bind; [apply (nums_ok i m S vs ws F)|]. intros l ? <-. eapply okr_bind; [apply (do_ok c l b g Pc)|]. intros b' g' Pc'. apply okr_ok.
  split; [split; [split; [split; [exact S|exact Rd]|exact P]|exact Pc']|]. intros bb l' p L. exact L.
Qed.
(** what corresponds *)
Definition drel (x : ask_istate * board) (y : ask_state * gfx) : Prop := arel (fst x) (fst y) /\ pictured (snd x) (snd y).
Definition dlrel (x : ask_istate * board) (y : ask_state * gfx) (b : bool) (l : iloc) (p : mloc) : Prop := alrel (fst x) (fst y) b l p.
Lemma draw_funs c s1 s2 vs ws : drel s1 s2 -> Forall2 (er G1 G2 dlrel s1 s2) vs ws ->
  match draw_ifun ask_istate (fun s => fst (fst s)) c vs s1, draw_fun ask_state (fun s => fst (fst s)) c ws s2 with
  | Some x, Some y => okr eq x y
  | None, None => True
  | _, _ => False
  end.
Proof.
  destruct s1 as [[[i d] todo] b], s2 as [[[m r] ks] g]. intros [[[S Rd] P] Pc] F. cbn [fst snd] in S, Rd, P, Pc. unfold draw_ifun, draw_fun. cbn [fst snd]. change Draw.FUNC_GSPOIT with FUNC_GSPOIT. destruct (c =? FUNC_GSPOIT); [|exact I].
  eapply okr_bind; [apply (nums_ok i m S vs ws F)|]. intros l ? <-. apply look_ok, Pc.
Qed.
Lemma attach_agrees2 : hosts_agree G1 G2 drel dlrel ideal_draw_text drtext.
Proof. exact (attach_agrees A1 A2 arel alrel ideal_ask_text atext ask_agrees2 board gfx pictured IC MC draw_cmds). Qed.
Lemma draw_agrees : hosts_agree H1 H2 drel dlrel ideal_draw_text drtext.
Proof. exact (fun_agrees G1 G2 drel dlrel ideal_draw_text drtext attach_agrees2 _ _ draw_funs). Qed.
End Both.
