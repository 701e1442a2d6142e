(** Adding memory to two hosts that correspond step by step; the machine with a reader against the ideal computer with its list of items. *)
From Verif Require Import Base BaseLemmas Labels Link Memory Strs Tokens ExprSpec NumText NumTextSpec Bytecode BytecodeSpec BytecodeProofs Runner RunnerSpec StmtSpec ExecProofs FlowSpec ForSpec ProgSpec ProgProofs ProgSim ProgEnd.
From Verif Require Import Vars Codes Data DataSpec DataProofs DataProps Machine Ideal IdealVal HostSim MachineSim MachineHost HostData MachineData IdealData.
Ltac Zify.zify_post_hook ::= Z.div_mod_to_equations.

Section Attach.
Variables h1 h2 : host.
Variable R : St h1 -> St h2 -> Prop.
Variable LR : St h1 -> St h2 -> bool -> Loc h1 -> Loc h2 -> Prop.
Variable strv1 : St h1 -> Loc h1 -> list Z.
Variable strv2 : St h2 -> Loc h2 -> list Z.
Hypothesis A : hosts_agree h1 h2 R LR strv1 strv2.
Variables D1 D2 : Type.
Variable DR : D1 -> D2 -> Prop.
Variable c1 : Z -> list (entry (Loc h1)) -> St h1 * D1 -> option (outcome (St h1 * D1)).
Variable c2 : Z -> list (entry (Loc h2)) -> St h2 * D2 -> option (outcome (St h2 * D2)).
Notation H1 := (attach h1 D1 c1).
Notation H2 := (attach h2 D2 c2).
Definition R' (s1 : St H1) (s2 : St H2) : Prop := R (fst s1) (fst s2) /\ DR (snd s1) (snd s2).
Definition LR' (s1 : St H1) (s2 : St H2) (b : bool) (l : Loc H1) (m : Loc H2) : Prop := LR (fst s1) (fst s2) b l m.
Hypothesis C : forall c s1 s2 vs ws, R' s1 s2 -> Forall2 (er H1 H2 LR' s1 s2) vs ws ->
  match c1 c vs s1, c2 c ws s2 with
  | Some x, Some y => okr (on_state H1 H2 R' LR' s1 s2) x y
  | None, None => True
  | _, _ => False
  end.
Lemma keep_state s1 s2 d1 d2 x y : DR d1 d2 -> okr (on_state h1 h2 R LR (fst s1) (fst s2)) x y -> okr (on_state H1 H2 R' LR' s1 s2) (keep1 d1 x) (keep1 d2 y).
Proof. intros Q G. unfold keep1. eapply okr_bind; [exact G|]. intros t1 t2 [O E]. apply okr_ok. split; [split; [exact O|exact Q]|exact E]. Qed.
Lemma keep_value s1 s2 d1 d2 x y : DR d1 d2 -> okr (on_value h1 h2 R LR (fst s1) (fst s2)) x y -> okr (on_value H1 H2 R' LR' s1 s2) (keep d1 x) (keep d2 y).
Proof. intros Q G. unfold keep. eapply okr_bind; [exact G|]. intros [v t1] [w t2] [[O E] V]. cbn [fst snd] in *. apply okr_ok. split; [split; [split; [exact O|exact Q]|exact E]|exact V]. Qed.
Lemma keep_place s1 s2 d1 d2 x y : DR d1 d2 -> okr (on_place h1 h2 R LR (fst s1) (fst s2)) x y -> okr (on_place H1 H2 R' LR' s1 s2) (keep d1 x) (keep d2 y).
Proof. intros Q G. unfold keep. eapply okr_bind; [exact G|]. intros [[b l] t1] [[c m] t2] (-> & [O E] & V). apply okr_ok. split; [reflexivity|]. split; [split; [split; [exact O|exact Q]|exact E]|exact V]. Qed.
Lemma attach_agrees : hosts_agree H1 H2 R' LR' (fun s l => strv1 (fst s) l) (fun s l => strv2 (fst s) l).
Proof.
  constructor.
  - intros s1 s2 b c l m l' m' [G _] L L'. exact (a_same _ _ _ _ _ _ A _ _ _ _ _ _ _ _ G L L').
  - intros s1 s2 l m [G _] L. exact (a_getn _ _ _ _ _ _ A _ _ _ _ G L).
  - intros s1 s2 l m v [G Q] L. destruct (a_setn _ _ _ _ _ _ A _ _ _ _ v G L) as [O E]. split; [split; [exact O|exact Q]|exact E].
  - intros s1 s2 l m [G _] L. exact (a_strv _ _ _ _ _ _ A _ _ _ _ G L).
  - intros r s1 s2 [G Q]. apply keep_place; [exact Q|]. apply (a_var _ _ _ _ _ _ A), G.
  - intros r s1 s2 vs ws [G Q] F. apply keep_place; [exact Q|]. apply (a_arr _ _ _ _ _ _ A); [exact G|exact F].
  - intros w s1 s2 vs ws [G Q] F. apply keep_state; [exact Q|]. apply (a_dim _ _ _ _ _ _ A); [exact G|exact F].
  - intros o s1 s2 v w [G Q] E. apply keep_value; [exact Q|]. apply (a_un _ _ _ _ _ _ A); [exact G|exact E].
  - intros o s1 s2 v w v' w' [G Q] E E'. apply keep_value; [exact Q|]. apply (a_bin _ _ _ _ _ _ A); [exact G|exact E|exact E'].
  - intros s1 s2 l m v w [G Q] L E. apply keep_state; [exact Q|]. apply (a_sassign _ _ _ _ _ _ A); [exact G|exact L|exact E].
  - intros c s1 s2 vs ws [G Q] F. apply keep_value; [exact Q|]. apply (a_fun _ _ _ _ _ _ A); [exact G|exact F].
  - intros c s1 s2 [G Q]. apply keep_value; [exact Q|]. apply (a_sys _ _ _ _ _ _ A), G.
  - intros c s1 s2 [G Q]. apply keep_state; [exact Q|]. apply (a_check _ _ _ _ _ _ A), G.
  - intros c s1 s2 vs ws G F. pose proof (C c s1 s2 vs ws G F) as X. cbn [hcmd attach]. destruct (c1 c vs s1), (c2 c ws s2); try contradiction; [exact X|].
    destruct G as [G Q]. apply keep_state; [exact Q|]. apply (a_cmd _ _ _ _ _ _ A); [exact G|exact F].
Qed.
End Attach.

(** ** reading items *)
Lemma numeric_part_spec t : forall p q, numeric_part t = (p, q) -> t = p ++ q /\ Forall (fun c => 48 <= c <= 57 \/ c = 45 \/ c = 46) p /\ match q with [] => True | c :: _ => ~ (48 <= c <= 57 \/ c = 45 \/ c = 46) end.
Proof.
  induction t as [|c t IH]; intros p q; cbn [numeric_part]; [intros [= <- <-]; auto|]. destruct (numeric c) eqn:N; unfold numeric in N.
  - destruct (numeric_part t) as [p' q']. intros [= <- <-]. destruct (IH _ _ eq_refl) as (-> & F & Q). split; [reflexivity|]. split; [constructor; [lia|exact F]|exact Q].
  - intros [= <- <-]. split; [reflexivity|]. split; [constructor|lia].
Qed.
Lemma numeric_chars t : Forall (fun c => 48 <= c <= 57 \/ c = 45 \/ c = 46) t -> Forall (fun c => 0 <= c < 256) t.
Proof. apply Forall_impl. intros c. lia. Qed.
Lemma plain_item t z : Forall (fun c => 48 <= c <= 57 \/ c = 45 \/ c = 46) t -> plain_number t = Ok z -> item_value KNum t (RNum z).
Proof.
  intros F. unfold plain_number. set (neg := is_char 45 t). assert (T : t = (if neg then [45] else []) ++ (if neg then tl t else t)).
  { unfold neg. destruct t as [|c t]; [reflexivity|]. cbn [is_char tl]. destruct (Z.eqb_spec c 45); [subst; reflexivity|reflexivity]. }
  clearbody neg. assert (F2 : Forall (fun c => 0 <= c < 256) (if neg then tl t else t)). { apply numeric_chars in F. destruct neg; [|exact F]. destruct F; [constructor|assumption]. }
  cbv zeta. destruct (leading 10 (if neg then tl t else t)) as [ds r] eqn:L. destruct (leading_spec 10 ltac:(lia) _ _ _ L F2) as (E & D & R & _).
  assert (V : forall fs, digits 10 fs -> t = decimal_text neg ds fs ->
    (if (524288 <=? numeral 10 ds) || (6 <? Z.of_nat (length fs)) || (16 <? Z.of_nat (length t)) then UB
     else Ok (if neg then - (numeral 10 ds * 4096 + 4096 * numeral 10 fs / 10 ^ Z.of_nat (length fs)) else numeral 10 ds * 4096 + 4096 * numeral 10 fs / 10 ^ Z.of_nat (length fs))) = Ok z -> item_value KNum t (RNum z)).
  { intros fs Df Et. destruct (_ || _) eqn:B; [discriminate|]. rewrite !Bool.orb_false_iff in B. destruct B as [[B1 B2] B3]. intros [= <-]. pose proof (iv_number neg ds fs D Df) as I. cbv zeta in I. rewrite <- Et in I. apply I; lia. }
  rewrite E in T. destruct r as [|c r].
  - apply V; [constructor|]. rewrite T. unfold decimal_text. rewrite app_nil_r. reflexivity.
  - destruct (Z.eqb_spec c 46) as [->|]; [|discriminate]. destruct (leading 10 r) as [fs u] eqn:L2. destruct (leading_spec 10 ltac:(lia) _ _ _ L2 (Forall_inv_tail R)) as (E2 & D2 & _).
    destruct fs as [|f fs]; [discriminate|]. destruct u; [|discriminate]. apply V; [exact D2|]. rewrite T. unfold decimal_text. rewrite E2, app_nil_r. reflexivity.
Qed.
Lemma item_number_ok t : match item_number t with Ok z => item_value KNum t (RNum z) | Err e => e = ERR_READ_FAILURE /\ unreadable KNum t | UB => True end.
Proof.
  unfold item_number. destruct (numeric_part t) as [p q] eqn:N. destruct (numeric_part_spec _ _ _ N) as (E & F & Q). destruct q as [|c q].
  - rewrite app_nil_r in E. subst p. destruct (plain_number t) as [z|e|] eqn:P; [apply plain_item; assumption| |exact I].
    exfalso. revert P. unfold plain_number. cbv zeta. destruct (leading 10 _) as [ds [|c r]]; [destruct (_ || _); discriminate|]. destruct (c =? 46); [|discriminate]. destruct (leading 10 r) as [[|f fs] [|]]; try discriminate. destruct (_ || _); discriminate.
  - destruct ((length p <? 16)%nat) eqn:B; cbn [andb]; [|exact I]. destruct (Z.eqb_spec c 32); cbn [negb]; [exact I|]. split; [reflexivity|]. subst t. apply ur_number; [exact F|apply Nat.ltb_lt, B|lia].
Qed.
Definition vmatch (x : thing) (v : Data.value) : Prop := match x, v with Number z, RNum w => z = w | Words t, RStr u => t = u | _, _ => False end.
Definition kof (b : bool) : Data.kind := if b then KStr else KNum.
Lemma take_reads prog : Forall good prog -> Forall data_ok prog -> forall ks todo i ofs free acc, ks <> [] -> Forall (fun it => ~ In 13 it) todo -> Z.of_nat (length ks) <= free -> blockat prog i ofs todo ->
  match take ks todo with
  | Ok (xs, todo') => exists vs s, read_vars (encode prog) i ofs free (map kof ks) acc = (rev acc ++ vs, s, Done) /\ standing prog s todo' /\ Forall2 vmatch xs vs /\ Forall (fun it => ~ In 13 it) todo'
  | Err e => exists vs s, read_vars (encode prog) i ofs free (map kof ks) acc = (vs, s, Raised e)
  | UB => True
  end.
Proof.
  intros G D. induction ks as [|k ks IH]; intros todo i ofs free acc N W S B; [contradiction|]. clear N. cbn [take]. destruct todo as [|it todo]; [exact I|]. inversion W as [|? ? W1 W2]; subst.
  cbn [length] in S. cbn [map]. destruct (one_item prog i ofs free it todo (kof k) (map kof ks) acc G D B) as (Zi & Q & Q2 & _).
  assert (X : match (if k then Ok (Words it) else let* z := item_number it in Ok (Number z)) with
    | Ok x => exists v, vmatch x v /\ item_value (kof k) it v | Err e => forall r, read_one free (kof k) (it ++ 0 :: r) = Err e | UB => True end).
  { destruct k; [exists (RStr it); split; [reflexivity|constructor; exact W1]|]. pose proof (item_number_ok it) as P. destruct (item_number it) as [z|e|]; cbn [bind]; [exists (RNum z); split; [reflexivity|exact P]| |exact I].
    destruct P as [-> P]. intros r. apply unreadable_one; assumption. }
  destruct (if k then Ok (Words it) else let* z := item_number it in Ok (Number z)) as [x|e|]; cbn [bind]; [|exists (rev acc); eexists; apply Q2, X|exact I].
  destruct X as (v & M & V). assert (Rd : forall r, read_one free (kof k) (it ++ 0 :: r) = Ok (zlen it, v)) by (intros r; apply read_item; [exact V|exact Zi|lia]).
  destruct (Q v (Rd []) Rd) as [[-> R]|(j & o & B' & R)]; clear Q Q2.
  - destruct ks as [|k2 ks]; cbn [take bind map] in *; [|exact I]. rewrite R. exists [v]. eexists. split; [reflexivity|]. split; [constructor|]. split; [constructor; [exact M|constructor]|constructor].
  - destruct ks as [|k2 ks].
    + cbn [take bind map] in *. rewrite R. cbn [read_vars]. exists [v]. eexists. split; [reflexivity|]. split; [apply blockat_standing; exact B'|]. split; [constructor; [exact M|constructor]|exact W2].
    + specialize (IH todo j o (match v with RStr _ => free - 1 | RNum _ => free end) (v :: acc) ltac:(discriminate) W2 ltac:(destruct v; lia) B'). rewrite R.
      destruct (take (k2 :: ks) todo) as [[xs todo']|e|]; cbn [bind]; [|exact IH|exact I]. destruct IH as (vs & s & E & St & F & W'). exists (v :: vs), s. split; [rewrite E; cbn [rev]; rewrite <- app_assoc; reflexivity|].
      split; [exact St|]. split; [constructor; assumption|exact W'].
Qed.
Lemma standing_free prog i o f g rest : standing prog (mkReader i o f) rest -> standing prog (mkReader i o g) rest.
Proof. inversion 1; subst; econstructor; eauto. Qed.

(** ** the items of a program and of its code *)
(** statement [u] has the items [is]: those of its text if it is a DATA statement, otherwise none *)
Definition data_line (u : statement) (is : list (list Z)) : Prop :=
  match u with UData src => exists t, src = t ++ [13] /\ data_text t is | _ => is = [] end.
Definition nodata (i : BytecodeSpec.instr) : Prop := match i with IData _ => False | _ => True end.
Lemma instr_nodata ids t i : instr_of ids t = Ok i -> nodata i.
Proof.
  assert (N : forall z j, num_instr z = j -> nodata j) by (intros z j <-; unfold num_instr; repeat match goal with |- context [if ?b then _ else _] => destruct b end; exact I).
  assert (M : forall arr w j, name_instr ids arr w = Ok j -> nodata j).
  { intros arr w j. unfold name_instr. destruct ids; [|intros [= <-]; exact I]. match goal with |- context [let* _ := ?x in _] => destruct x; cbn [bind]; try discriminate end.
    repeat match goal with |- context [if ?b then _ else _] => destruct b end; try discriminate; intros [= <-]; exact I. }
  unfold instr_of. destruct (ty t); try discriminate; try (intros [= <-]; exact I); try apply M.
  all: match goal with |- context [let* _ := ?x in _] => destruct x; cbn [bind]; try discriminate end; try (destruct (_ && _); try discriminate); intros [= <-]; eapply N; reflexivity.
Qed.
Lemma instrs_nodata ids l : forall is, instrs ids l = Ok is -> Forall nodata is.
Proof.
  induction l as [|t l IH]; intros is; cbn [instrs]; [intros [= <-]; constructor|]. destruct (instr_of ids t) as [i| |] eqn:Q; cbn [bind]; try discriminate. destruct (instrs ids l) as [r| |]; cbn [bind]; try discriminate.
  intros [= <-]. constructor; [eapply instr_nodata; exact Q|apply IH; reflexivity].
Qed.
Lemma nodata_items is : Forall nodata is -> items is = [] /\ Forall data_ok is.
Proof. induction 1 as [|i is N F [IH1 IH2]]; [split; constructor|]. split; [destruct i; cbn [items]; try exact IH1; contradiction|]. constructor; [destruct i; try exact I; contradiction|exact IH2]. Qed.
Lemma field_no13 f i : field f i -> ~ In 13 i.
Proof.
  intros [a B|a w b B (W0 & W) B2|a q b B Q B2] H; [destruct H| |]; [rewrite Forall_forall in W; destruct (W _ H) as (_ & _ & _ & X)|rewrite Forall_forall in Q; destruct (Q _ H) as (_ & _ & X)]; exact (X eq_refl).
Qed.
Lemma text_no13 t is : data_text t is -> Forall (fun it => ~ In 13 it) is.
Proof. induction 1 as [f i F|f i t is F D IH]; constructor; try assumption; try constructor; eapply field_no13; exact F. Qed.
Lemma one_line ids u is its : data_line u its -> ucode ids u = Ok is -> items is = its /\ Forall data_ok is /\ Forall (fun it => ~ In 13 it) its.
Proof.
  intros L Q. assert (N : Forall nodata is -> its = [] -> items is = its /\ Forall data_ok is /\ Forall (fun it => ~ In 13 it) its).
  { intros F ->. destruct (nodata_items _ F) as [A B]. repeat split; [exact A|exact B|constructor]. }
  destruct u as [w|l|lv a b s|args|c|src]; cbn [data_line ucode] in *; try (apply N; [|exact L]).
  - injection Q as <-. repeat constructor.
  - eapply instrs_nodata, Q.
  - eapply instrs_nodata, Q.
  - eapply instrs_nodata, Q.
  - injection Q as <-. repeat constructor.
  - injection Q as <-. destruct L as (t & -> & T). unfold data_of. rewrite (loop_text t its T). destruct (text_items t its T) as (N0 & Z0). cbn [items]. rewrite app_nil_r, unpack_pack by exact Z0. split; [reflexivity|].
    split; [|eapply text_no13, T]. constructor; [exists its; auto|constructor].
Qed.
Lemma all_lines ids us : forall iss its, Forall2 data_line us its -> ucodes ids us = Ok iss ->
  (forall k, items (concat (skipn k iss)) = concat (skipn k its)) /\ Forall data_ok (concat iss) /\ Forall (Forall (fun it => ~ In 13 it)) its.
Proof.
  induction us as [|u us IH]; intros iss its F; inversion F as [|? il ? itl L F']; subst; cbn [ucodes].
  - intros [= <-]. split; [intros [|k]; reflexivity|]. split; constructor.
  - destruct (ucode ids u) as [i| |] eqn:Q; cbn [bind]; try discriminate. destruct (ucodes ids us) as [x| |] eqn:Qx; cbn [bind]; try discriminate. intros [= <-].
    destruct (IH x itl F' eq_refl) as (A & B & C). destruct (one_line _ _ _ _ L Q) as (A1 & B1 & C1). split; [|split].
    + intros [|k]; [|apply A]. cbn [skipn concat]. rewrite items_app, A1. f_equal. exact (A 0%nat).
    + cbn [concat]. apply Forall_app. auto.
    + constructor; assumption.
Qed.
Lemma concat_start iss k : (k <= length iss)%nat -> ProgSim.start iss k = BytecodeSpec.start (concat iss) (length (concat (firstn k iss))) /\
  skipn (length (concat (firstn k iss))) (concat iss) = concat (skipn k iss) /\ (length (concat (firstn k iss)) <= length (concat iss))%nat.
Proof.
  intros K. unfold ProgSim.start, BytecodeSpec.start. assert (E : concat iss = concat (firstn k iss) ++ concat (skipn k iss)) by (rewrite <- concat_app, firstn_skipn; reflexivity).
  rewrite E, firstn_app, Nat.sub_diag, firstn_all, skipn_app, Nat.sub_diag, skipn_all. cbn [firstn skipn app]. rewrite app_nil_r, app_length. split; [reflexivity|]. split; [reflexivity|lia].
Qed.

(** ** the two hosts *)
Section Both.
Variables n cells : Z.
Hypothesis Hn : 0 <= n <= 18.
Variable us : list statement.
Variable iss : list (list BytecodeSpec.instr).
Variable its : list (list (list Z)).
Variable tbl : Labels.labels.
Variable nl : Z.
Hypothesis Hl : 0 <= nl.
Hypothesis Uo : Forall uok us.
Hypothesis Uc : ucodes None us = Ok iss.
Hypothesis Dl : Forall2 data_line us its.
Hypothesis Tb : load (init_labels (2 ^ nl)) (defs_of 0 us iss) = Some tbl.
Notation code := (encode (concat iss)).
Hypothesis Sz : Z.of_nat (length code) < 16777216.
Notation h1 := (ideal (2 ^ n) cells).
Notation h2 := machine.
Notation SR := (MachineSim.SR n cells).
Notation LR := (MachineSim.LR n).
(** what the ideal computer has left to read is where the reader stands *)
Definition reading (todo : list (list Z)) (r : reader) : Prop := standing (concat iss) r todo /\ Forall (fun it => ~ In 13 it) todo.
Notation SD := (R' h1 h2 SR (list (list Z)) reader reading (data_icmd us its (2 ^ n) cells) (data_cmd code tbl)).
Notation LD := (LR' h1 h2 LR (list (list Z)) reader (data_icmd us its (2 ^ n) cells) (data_cmd code tbl)).
Notation H1 := (ideal_data us its (2 ^ n) cells).
Notation H2 := (machine_data code tbl).

Lemma good_code : Forall good (concat iss).
Proof. eapply (concat_good0 None); [intros f Q; discriminate|exact Uo|exact Uc]. Qed.
Lemma data_code_ok : Forall data_ok (concat iss).
Proof. apply (all_lines None us iss its Dl Uc). Qed.
Lemma start_reading f : reading (from_here its 0) (reader_start f).
Proof.
  destruct (all_lines None us iss its Dl Uc) as (A & B & C). split.
  - unfold from_here. rewrite <- A. apply start_standing, B.
  - unfold from_here. cbn [skipn]. clear - C. induction C as [|i0 its0 F C IH]; [constructor|]. cbn [concat]. apply Forall_app. auto.
Qed.
Lemma restore_reading k r : (k <= length us)%nat -> exists r', cmd_restore code r (Ok (ProgSim.start iss k)) = (r', Done) /\ reading (from_here its k) r'.
Proof.
  intros K. pose proof (ucodes_length _ _ _ Uc) as Le. destruct (concat_start iss k ltac:(lia)) as (E1 & E2 & E3). rewrite E1.
  destruct (restore_from (concat iss) r _ good_code data_code_ok E3) as (r' & E & St & _). exists r'. split; [exact E|]. rewrite E2 in St.
  destruct (all_lines None us iss its Dl Uc) as (A & B & C). split; [unfold from_here; rewrite <- A; exact St|].
  unfold from_here. assert (C' : Forall (Forall (fun it => ~ In 13 it)) (skipn k its)) by (clear - C; revert k; induction C as [|i0 its0 F C IH]; intros [|k]; cbn [skipn]; auto; constructor; auto).
  clear - C'. induction C' as [|i0 its0 F C IH]; [constructor|]. cbn [concat]. apply Forall_app. auto.
Qed.
Lemma places_ok i m vs ws : Forall2 (er h1 h2 LR i m) vs ws -> match places vs with
  | Ok ls => map dkind ws = map kof (map fst ls) /\ Forall2 (fun a w => match w with ER b p => fst a = b /\ LR i m b (snd a) p | _ => False end) ls ws /\ length ls = length ws
  | Err _ => False | UB => True end.
Proof.
  induction 1 as [|v w vs ws E F IH]; cbn [places]; [repeat split; constructor|]. destruct v as [x|c x|k l|x]; try exact I. destruct (places vs) as [ls|e|]; cbn [bind]; [|exact IH|exact I].
  destruct w as [y|d y|b p|y]; cbn [HostSim.er] in E; try contradiction. destruct E as [-> L]. destruct IH as (A & B & C). cbn [map fst snd length]. split; [|split; [|lia]].
  - rewrite <- A. destruct b; reflexivity.
  - constructor; [split; [reflexivity|exact L]|exact B].
Qed.
Lemma fimpl {A B} (P Q : A -> B -> Prop) l m : (forall a b, P a b -> Q a b) -> Forall2 P l m -> Forall2 Q l m.
Proof. intros H F. induction F; constructor; auto. Qed.
Lemma fill_ok : forall ls ws i m xs vs, SR i m -> Forall2 (fun a w => match w with ER b p => fst a = b /\ LR i m b (snd a) p | _ => False end) ls ws -> Forall2 vmatch xs vs ->
  on h1 h2 SR LR i m (fill i ls xs) (mstores m ws vs).
Proof.
  induction ls as [|[b l] ls IH]; intros ws i m xs vs S F V; inversion F as [|? w ? ws' E F']; subst; [cbn [fill mstores]; apply on_same, S|].
  destruct V as [|x v xs vs M V]; [cbn [fill mstores]; apply on_same, S|]. cbn [fill mstores]. destruct w as [y|d y|c p|y]; try contradiction. cbn [fst snd] in E. destruct E as [-> L].
  assert (O : on h1 h2 SR LR i m (put i l x) (mstore m (ER c p) v)).
  { destruct x as [z|t], v as [z'|t']; cbn [vmatch] in M; try contradiction; subst; cbn [mstore].
    - eapply on_put; [exact S|exact L|reflexivity].
    - set (m1 := mkM (mvars m) (texts m ++ [t']) (mcon m)). assert (S1 : SR i m1) by (apply SR_app, S). assert (L1 : LR i m1 c l p) by exact L.
      assert (V1 : vrel (texts m1) (Words t') (VStr (Z.of_nat (length (texts m))))). { cbn [vrel texts m1]. rewrite app_length, Nat2Z.id, nth_middle. cbn [length]. split; [lia|reflexivity]. }
      exact (on_put n cells i m1 c l p _ _ S1 L1 V1). }
  eapply on_trans; [exact O|]. destruct O as [S2 X]. apply IH; [exact S2| |exact V]. eapply fimpl; [|exact F'].  intros a w. destruct w as [|?|c' p'|]; try contradiction. intros [E L']. split; [exact E|apply X, L'].
Qed.
Lemma data_cmds c s1 s2 vs ws : SD s1 s2 -> Forall2 (er H1 H2 LD s1 s2) vs ws ->
  match data_icmd us its (2 ^ n) cells c vs s1, data_cmd code tbl c ws s2 with
  | Some x, Some y => okr (on_state H1 H2 SD LD s1 s2) x y
  | None, None => True
  | _, _ => False
  end.
Proof.
  destruct s1 as [i todo], s2 as [m r]. intros [S [St W]] F. cbn [fst snd] in *. unfold data_icmd, data_cmd.
  assert (F1 : Forall2 (er h1 h2 LR i m) vs ws) by exact F.
  destruct (c =? CMD_READ).
  - destruct vs as [|v vs]; [exact I|]. pose proof (places_ok i m _ _ F1) as P. destruct (places (v :: vs)) as [ls|e|]; cbn [bind]; [|contradiction|exact I].
    destruct P as (K & P & Le). rewrite K. assert (N : map fst ls <> []) by (destruct ls; [inversion P; subst; inversion F1|discriminate]).
    set (fr := Z.of_nat (length (map kof (map fst ls)))).
    assert (St' : standing (concat iss) (mkReader (d_index r) (d_ofs r) fr) todo) by (destruct r; eapply standing_free; exact St).
    destruct (read_from (concat iss) _ todo (map kof (map fst ls)) good_code data_code_ok St') as [(-> & s' & R & _)|(j & o & B & R)].
    + rewrite R. reflexivity.
    + rewrite R. destruct todo as [|it todo]; [exfalso; destruct B as (? & ? & ? & is & _ & N1 & _ & _ & _ & B4); destruct is; [contradiction|discriminate]|].
      cbn [d_free]. pose proof (take_reads (concat iss) good_code data_code_ok (map fst ls) (it :: todo) j o fr [] N W ltac:(unfold fr; rewrite !map_length; lia) B) as T.
      destruct (take (map fst ls) (it :: todo)) as [[xs todo']|e|]; cbn [bind]; [| |exact I].
      * destruct T as (vs' & s & -> & St2 & M & W2). cbn [rev app]. apply okr_ok. destruct (fill_ok _ _ _ _ _ _ S P M) as [O X]. split; [split; [exact O|split; [exact St2|exact W2]]|exact X].
      * destruct T as (vs' & s & ->). reflexivity.
  - destruct (c =? CMD_RESTORE); [|exact I]. destruct F1 as [|v w vs ws E F1]; [exact I|]. destruct F1 as [|v2 w2 vs ws E2 F1]; [|exact I].
    pose proof (slab_sim h1 h2 SR LR ideal_text mtext (machine_agrees n cells ltac:(lia)) us i m v w S E) as Sl.
    pose proof (labels_right (h := machine) mtext nl us iss tbl None Hl Uo Uc Sz Tb w m) as La.
    destruct (slab h1 ideal_text us v i) as [k|e|]; cbn [okr bind] in *; [|rewrite Sl in La; rewrite La; reflexivity|exact I].
    destruct Sl as (k' & E' & <-). pose proof E' as E3. rewrite E' in La. rewrite La. apply slab_lab in E3. destruct E3 as (w0 & E3). assert (K : (Z.to_nat k <= length us)%nat) by (apply Nat.lt_le_incl, nth_error_Some; rewrite E3; discriminate).
    destruct (restore_reading (Z.to_nat k) r K) as (r' & -> & Rd). apply okr_ok. split; [split; [exact S|exact Rd]|]. intros b l p L. exact L.
Qed.
Lemma data_agrees : hosts_agree H1 H2 SD LD ideal_data_text dtext.
Proof. apply (attach_agrees h1 h2 SR LR ideal_text mtext (machine_agrees n cells ltac:(lia))). exact data_cmds. Qed.
End Both.
