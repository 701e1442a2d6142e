(** tok_test accepts exactly the well typed lines. *)
From Coq Require Import String Ascii.
From Verif Require Import Base BaseLemmas Tokens ExprSpec ExprProofs StmtSpec StmtProofs TokTest TokTestSpec TokTestProofs.
Open Scope Z_scope.

(** ** the tables *)
Definition no_lists (fmt : list Z) : bool := forallb (fun c => negb (is_list c)) fmt.
Definition plain_lists (fmt : list Z) : bool :=
  forallb (fun f => match tail_ f with None => true | Some _ => match front f with [] => true | g => existsb (Z.eqb csemi) g end end) (alternatives fmt).
Lemma tables_wf : forallb (fun s => wf_format (chars s)) (cmd_format ++ func_format ++ op_format) = true. Proof. vm_compute. reflexivity. Qed.
Lemma funcs_plain : forallb (fun s => no_lists (chars s)) func_format = true. Proof. vm_compute. reflexivity. Qed.
Lemma cmds_plain : forallb (fun i => Nat.eqb i 83 || Nat.eqb i 87 || plain_lists (chars (nth i cmd_format ""%string))) (seq 0 110) = true. Proof. vm_compute. reflexivity. Qed.
Lemma nth_wf (tab : list String.string) c : forallb (fun s => wf_format (chars s)) tab = true -> wf_format (format_of tab c) = true.
Proof.
  intros H. unfold format_of. destruct (nth_in_or_default (Z.to_nat c) tab ""%string) as [I| ->]; [|reflexivity].
  rewrite forallb_forall in H. apply H. exact I.
Qed.
Lemma tab_split : forallb (fun s => wf_format (chars s)) cmd_format = true /\ forallb (fun s => wf_format (chars s)) func_format = true /\ forallb (fun s => wf_format (chars s)) op_format = true.
Proof. pose proof tables_wf as H. rewrite !forallb_app in H. apply andb_true_iff in H. destruct H as [H1 H]. apply andb_true_iff in H. destruct H as [H2 H3]. auto. Qed.
Lemma cmd_wf c : wf_format (format_of cmd_format c) = true. Proof. apply nth_wf. apply tab_split. Qed.
Lemma func_wf c : wf_format (format_of func_format c) = true. Proof. apply nth_wf. apply tab_split. Qed.
Lemma alts_char f a c : In a (alternatives f) -> In c a -> In c f.
Proof.
  revert a. induction f as [|d f IH]; intros a Ha Hc; cbn [alternatives] in Ha.
  - destruct Ha as [<-|[]]. exact Hc.
  - destruct (d =? ccomma).
    + destruct Ha as [<-|Ha]; [destruct Hc|right; eapply IH; eassumption].
    + pose proof (alts_nonempty f) as Hf. destruct (alternatives f) as [|b l]; [congruence|]. destruct Ha as [<-|Ha].
      * destruct Hc as [<-|Hc]; [left; reflexivity|right; apply (IH b); [left; reflexivity|exact Hc]].
      * right. apply (IH a); [right; exact Ha|exact Hc].
Qed.
Lemma func_check c args : ~ In clt args -> check_cmd args (format_of func_format c) = true <-> accepts (format_of func_format c) args.
Proof.
  intros N. rewrite (check_cmd_iff _ _ (func_wf c) N). split; [|auto]. intros [H|(f & g & x & I & E & Lx & _)]; [exact H|exfalso].
  unfold format_of in *. destruct (nth_in_or_default (Z.to_nat c) func_format ""%string) as [J|J].
  - pose proof funcs_plain as P. rewrite forallb_forall in P. specialize (P _ J). unfold no_lists in P. rewrite forallb_forall in P. specialize (P x).
    rewrite Lx in P. assert (In x f) by (rewrite E; apply in_or_app; right; left; reflexivity). specialize (P (alts_char _ _ _ I H)). discriminate.
  - rewrite J in I. destruct I as [<-|[]]. destruct g; discriminate.
Qed.
Lemma cmd_check c args : c <> CMD_SORT -> c <> CMD_RSORT -> ~ In clt args -> ~ In csemi args -> check_cmd args (format_of cmd_format c) = true <-> accepts (format_of cmd_format c) args.
Proof.
  intros N1 N2 N Ns. rewrite (check_cmd_iff _ _ (cmd_wf c) N). split; [|auto]. intros [H|(f & g & x & I & E & Lx & Hg & F)]; [exact H|exfalso].
  unfold format_of in *. destruct (Nat.ltb_spec (Z.to_nat c) 110) as [L|L].
  - pose proof cmds_plain as P. rewrite forallb_forall in P. specialize (P (Z.to_nat c)). rewrite in_seq in P. specialize (P ltac:(lia)).
    apply orb_true_iff in P. destruct P as [P|P].
    + apply orb_true_iff in P. destruct P as [P|P]; apply Nat.eqb_eq in P; unfold CMD_SORT, CMD_RSORT in *; lia.
    + unfold plain_lists in P. rewrite forallb_forall in P. specialize (P f I).
      unfold tail_, front in P. rewrite E, last_last, removelast_last, Lx in P. destruct g as [|y g]; [congruence|]. apply existsb_exists in P. destruct P as (z & Iz & Ez). apply Z.eqb_eq in Ez. subst z.
      clear - F Iz Ns. revert F Iz. generalize (y :: g) as l. intros l F. induction F as [|u k l ks H F IH]; intros Iz; [destruct Iz|]. destruct Iz as [->|Iz].
      * change (letter_fits csemi k) with (k =? csemi) in H. apply Z.eqb_eq in H. apply Ns. left. exact H.
      * apply IH; [|exact Iz]. intros Q. apply Ns. right. exact Q.
  - rewrite nth_overflow in I by exact L. destruct I as [<-|[]]. destruct g; discriminate.
Qed.

(** ** types computed *)
Fixpoint opt_all {A} (l : list (option A)) : option (list A) :=
  match l with [] => Some [] | Some x :: r => match opt_all r with Some xs => Some (x :: xs) | None => None end | None :: _ => None end.
Definition subs_ok (ks : list kind) : bool := forallb numeric ks && (Nat.eqb (length ks) 1 || Nat.eqb (length ks) 2).
Fixpoint etype (e : expr) : option kind :=
  match e with
  | Atom number _ _ | Atom base_number _ _ => Some Num
  | Atom string _ _ => Some Str
  | Atom name _ w => Some (var_of w)
  | Atom sysvar c _ => Some (sys_of c)
  | Atom _ _ _ => None
  | Paren e => etype e
  | Un _ e => match etype e with Some k => if numeric k then Some Num else None | None => None end
  | Bin o a b => match etype a, etype b with Some ka, Some kb => bin_type o ka kb | _, _ => None end
  | Call fn c w _ args =>
      match opt_all (map etype args) with
      | Some ks => if fn then if check_cmd (map letter ks) (format_of func_format c) then Some (fun_type c) else None
                   else if subs_ok ks then Some (var_of w) else None
      | None => None
      end
  end.
Lemma letters_clt ks : ~ In clt (map letter ks).
Proof. rewrite in_map_iff. intros (k & E & _). destruct k; discriminate. Qed.
Lemma subs_ok_iff ks : subs_ok ks = true <-> Forall (fun k => numeric k = true) ks /\ (length ks = 1%nat \/ length ks = 2%nat).
Proof. unfold subs_ok. rewrite andb_true_iff, orb_true_iff, !Nat.eqb_eq, forallb_forall, Forall_forall. reflexivity. Qed.
Lemma opt_all_iff (args : list expr) ks : Forall (fun e => forall k, etype e = Some k <-> has_type e k) args ->
  opt_all (map etype args) = Some ks <-> Forall2 has_type args ks.
Proof.
  intros H. revert ks. induction H as [|e r He _ IH]; intros ks; cbn [map opt_all].
  - split; [intros E; injection E as <-; constructor|intros F; inversion F; reflexivity].
  - destruct (etype e) as [k|] eqn:Ek.
    + destruct (opt_all (map etype r)) as [xs|] eqn:Er.
      * split.
        -- intros E. injection E as <-. constructor; [apply He; reflexivity|apply IH; reflexivity].
        -- intros F. inversion F; subst. apply He in H1. apply IH in H3. congruence.
      * split; [discriminate|]. intros F. inversion F; subst. apply IH in H3. discriminate.
    + split; [discriminate|]. intros F. inversion F; subst. apply He in H1. discriminate.
Qed.
Lemma etype_iff e : forall k, etype e = Some k <-> has_type e k.
Proof.
  induction e as [a c w|e IH|o e IH|o l r IHl IHr|fn c w b args IH] using expr_ind2; intros k; cbn [etype].
  - destruct a; split; intros H; try discriminate; try (injection H as <-; constructor); inversion H; reflexivity.
  - rewrite IH. split; intros H; [constructor; exact H|inversion H; assumption].
  - destruct (etype e) as [j|] eqn:E.
    + split.
      * destruct (numeric j) eqn:Nj; [|discriminate]. intros H. injection H as <-. apply t_un with (k := j); [apply IH; reflexivity|exact Nj].
      * intros H. inversion H; subst. match goal with H0 : has_type e _ |- _ => apply IH in H0; injection H0 as -> end. match goal with H0 : numeric _ = true |- _ => rewrite H0 end. reflexivity.
    + split; [discriminate|]. intros H. inversion H; subst. match goal with H0 : has_type e _ |- _ => apply IH in H0; discriminate end.
  - split.
    + destruct (etype l) as [ka|] eqn:El; [|discriminate]. destruct (etype r) as [kb|] eqn:Er; [|discriminate]. intros H. apply t_bin with (ka := ka) (kb := kb); [apply IHl; reflexivity|apply IHr; reflexivity|exact H].
    + intros H. inversion H; subst. apply IHl in H3. apply IHr in H5. rewrite H3, H5. assumption.
  - split.
    + destruct (opt_all (map etype args)) as [ks|] eqn:E; [|discriminate]. apply (opt_all_iff args ks IH) in E. destruct fn.
      * destruct (check_cmd (map letter ks) (format_of func_format c)) eqn:Q; [|discriminate]. intros H. injection H as <-. apply t_fun with (ks := ks); [exact E|]. apply func_check; [apply letters_clt|exact Q].
      * destruct (subs_ok ks) eqn:Q; [|discriminate]. intros H. injection H as <-. apply subs_ok_iff in Q. destruct Q. apply t_elem with (ks := ks); assumption.
    + intros H. inversion H; subst; match goal with F : Forall2 has_type args _ |- _ => apply (opt_all_iff args _ IH) in F; rewrite F end.
      * match goal with F : accepts _ _ |- _ => apply func_check in F; [rewrite F; reflexivity|apply letters_clt] end.
      * assert (Q : subs_ok ks = true) by (apply subs_ok_iff; auto). rewrite Q. reflexivity.
Qed.
Lemma has_type_fun e k k' : has_type e k -> has_type e k' -> k = k'.
Proof. intros A B. apply etype_iff in A. apply etype_iff in B. congruence. Qed.

(** ** one expression *)
Definition kinds := [Num; NumVar; Str; StrVar].
Lemma kinds_all (P : kind -> bool) : forallb P kinds = true -> forall k, P k = true.
Proof. intros H k. rewrite forallb_forall in H. apply H. destruct k; cbn; tauto. Qed.
Definition binops := [OP_AND; OP_OR; OP_XOR; OP_EQUAL; OP_NOT_EQUAL; OP_LESS; OP_GREATER; OP_LESS_EQUAL; OP_GREATER_EQUAL; OP_ADD; OP_SUBTRACT; OP_MULTIPLY; OP_DIVIDE; OP_MODULO].
Lemma bin_level_in o : bin_level o <> None -> In o binops.
Proof.
  unfold bin_level. destruct ((o =? OP_AND) || (o =? OP_OR) || (o =? OP_XOR)) eqn:A.
  { intros _. rewrite !orb_true_iff, !Z.eqb_eq in A. unfold binops. cbn [In]. intuition. }
  destruct ((OP_EQUAL <=? o) && (o <=? OP_GREATER_EQUAL)) eqn:B.
  { intros _. apply andb_true_iff in B. rewrite !Z.leb_le in B. unfold binops, OP_EQUAL, OP_GREATER_EQUAL, OP_NOT_EQUAL, OP_LESS, OP_GREATER, OP_LESS_EQUAL in *. cbn [In]. assert (o = 8 \/ o = 9 \/ o = 10 \/ o = 11 \/ o = 12 \/ o = 13) by lia. intuition. }
  destruct ((o =? OP_ADD) || (o =? OP_SUBTRACT)) eqn:C. { intros _. rewrite !orb_true_iff, !Z.eqb_eq in C. unfold binops. cbn [In]. intuition. }
  destruct ((o =? OP_MULTIPLY) || (o =? OP_DIVIDE) || (o =? OP_MODULO)) eqn:D. { intros _. rewrite !orb_true_iff, !Z.eqb_eq in D. unfold binops. cbn [In]. intuition. }
  congruence.
Qed.
Definition opt_letter (k : option kind) : Z := match k with Some k => letter k | None => 0 end.
Lemma bin_table : forallb (fun o => forallb (fun a => forallb (fun b =>
   Bool.eqb (check_cmd [letter a; letter b] (format_of op_format o)) (match bin_type o a b with Some _ => true | None => false end) &&
   match bin_type o a b with None => true | Some k =>
     (if (OP_EQUAL <=? o) && (o <=? OP_GREATER_EQUAL) then cN else upper (letter a)) =? letter k end) kinds) kinds) binops = true.
Proof. vm_compute. reflexivity. Qed.
Lemma assign_table : forallb (fun a => forallb (fun b =>
   Bool.eqb (check_cmd [letter a; letter b] (format_of op_format OP_ASSIGN)) (match a with NumVar => numeric b | StrVar => negb (numeric b) | _ => false end)) kinds) kinds = true.
Proof. vm_compute. reflexivity. Qed.
Lemma num_table : forallb (fun a => Bool.eqb (check_cmd [letter a] (chars "N"%string)) (numeric a)) kinds = true.
Proof. vm_compute. reflexivity. Qed.
Lemma ret_table : forallb (fun i => nth i (chars func_return) 0 =? letter (fun_type (Z.of_nat i))) (seq 0 46) = true.
Proof. vm_compute. reflexivity. Qed.
Lemma subs_check ks : check_cmd (map letter ks) (chars "N,NN"%string) = subs_ok ks.
Proof.
  apply Bool.eq_iff_eq_true. rewrite check_cmd_iff by (try reflexivity; apply letters_clt). rewrite subs_ok_iff.
  change (chars "N,NN"%string) with [cN; ccomma; cN; cN]. unfold accepts, stops_short. change (alternatives [cN; ccomma; cN; cN]) with [[cN]; [cN; cN]].
  assert (Nm : forall k, letter_fits cN (letter k) = numeric k) by (intros []; reflexivity). split.
  - intros [(f & I & [M|[[M _]|[[_ M]|(g & x & a & b & E & _ & Nb & _ & F)]]])|(f & g & x & I & E & Lx & _)].
    + subst f. destruct I as [I|[I|[]]]; discriminate.
    + subst f. destruct I as [I|[I|[]]]; discriminate.
    + destruct I as [<-|[<-|[]]].
      * destruct ks as [|k [|? ks]]; inversion M; subst; try (inversion H4; fail). rewrite Nm in H2. auto.
      * destruct ks as [|k [|k2 [|? ks]]]; inversion M; subst; try (inversion H4; fail); inversion H4; subst; try (inversion H6; fail). rewrite Nm in *. auto.
    + assert (Hx : x = cN). { destruct I as [<-|[<-|[]]]; destruct g as [|? [|? [|]]]; cbn in E; congruence. } subst x. destruct b; [congruence|]. inversion F; subst. discriminate.
    + assert (Hx : x = cN). { destruct I as [<-|[<-|[]]]; destruct g as [|? [|? [|]]]; cbn in E; congruence. } subst x. discriminate.
  - intros [F L]. left. destruct ks as [|k [|k2 [|? ks]]]; cbn in L; try lia.
    + exists [cN]. split; [left; reflexivity|]. right. right. left. split; [discriminate|]. inversion F; subst. cbn [map]. constructor; [rewrite Nm; assumption|constructor].
    + exists [cN; cN]. split; [right; left; reflexivity|]. right. right. left. split; [discriminate|]. inversion F; subst. inversion H2; subst. cbn [map]. repeat (constructor; [rewrite Nm; assumption|]). constructor.
Qed.
Lemma var_kind_of k c p w : 0 < c -> c = Z.of_nat (length w) -> var_kind (mk k c p w) = letter (var_of w).
Proof.
  intros H ->. unfold var_kind, var_of, dollar. cbn [cl text]. assert (E : nth (Z.to_nat (Z.of_nat (length w) - 1)) w 0 = List.last w 0).
  { replace (Z.to_nat (Z.of_nat (length w) - 1)) with (length w - 1)%nat by lia. clear H. induction w as [|x w IH]; [reflexivity|]. destruct w as [|y w]; [reflexivity|].
    change (List.last (x :: y :: w) 0) with (List.last (y :: w) 0). rewrite <- IH. cbn [length]. replace (S (S (length w)) - 1)%nat with (S (S (length w) - 1)) by lia. reflexivity. }
  rewrite E. destruct (List.last w 0 =? 36); reflexivity.
Qed.
Lemma sys_kind_of c : sys_kind c = letter (sys_of c).
Proof. unfold sys_kind, sys_of. destruct (existsb (Z.eqb c) [4; 5; 10; 11; 31]); reflexivity. Qed.
Lemma tl_cons s a t r : test_loop s a (t :: r) = let* x := test_token s a t in match x with Go s argc => test_loop s argc r | Stop e => Ok (Some e) end.
Proof. reflexivity. Qed.
Lemma tpush_ok s k : (length s < 40)%nat -> tpush s k = Ok (k :: s).
Proof. intros H. unfold tpush. apply Nat.ltb_lt in H. rewrite H. reflexivity. Qed.
Lemma top_rev (ls s : list Z) : top (length ls) (rev ls ++ s) = ls /\ skipn (length ls) (rev ls ++ s) = s.
Proof.
  unfold top. rewrite <- (rev_length ls). rewrite firstn_app, skipn_app, Nat.sub_diag, firstn_all, skipn_all. cbn [firstn skipn]. rewrite app_nil_r, rev_involutive. split; reflexivity.
Qed.
Definition sim_at (k : option Z) (s : list Z) (code : list token) : Prop :=
  match k with
  | Some k => forall r, test_loop s 0 (code ++ r) = test_loop (k :: s) 0 r
  | None => exists er, forall r, test_loop s 0 (code ++ r) = Ok (Some er)
  end.
Definition okind (k : option kind) : option Z := match k with Some k => Some (letter k) | None => None end.
Definition args_at (ks : option (list kind)) (s : list Z) (code : list token) : Prop :=
  match ks with
  | Some ks => forall r, test_loop s 0 (code ++ r) = test_loop (rev (map letter ks) ++ s) 0 r
  | None => exists er, forall r, test_loop s 0 (code ++ r) = Ok (Some er)
  end.
Lemma sub_args l : ((fix all (l : list expr) : Prop := match l with [] => True | x :: r => subscripted x /\ all r end) l) <-> Forall subscripted l.
Proof. induction l as [|x r IH]; split; intros G; auto. - destruct G. constructor; [assumption|]. apply IH. assumption. - inversion G; subst. split; [assumption|]. apply IH. assumption. Qed.
Lemma check_fun_range c args : check_cmd args (format_of func_format c) = true -> (Z.to_nat c < 46)%nat.
Proof.
  intros H. destruct (Nat.ltb_spec (Z.to_nat c) 46) as [L|L]; [exact L|]. unfold format_of in H. rewrite nth_overflow in H by exact L. unfold check_cmd in H. cbn in H.
  destruct args; discriminate.
Qed.
Lemma ret_of c args : check_cmd args (format_of func_format c) = true -> nth (Z.to_nat c) (chars func_return) 0 = letter (fun_type c).
Proof.
  intros H. apply check_fun_range in H. pose proof ret_table as T. rewrite forallb_forall in T. specialize (T (Z.to_nat c)). rewrite in_seq in T. specialize (T ltac:(lia)).
  apply Z.eqb_eq in T. rewrite T. destruct (Z.le_gt_cases 0 c) as [C|C]; [rewrite Z2Nat.id by lia; reflexivity|]. destruct c; try lia. reflexivity.
Qed.
Lemma sim_args n args : (forall e, In e args -> forall s, (length s + width e <= 40)%nat -> sim_at (okind (etype e)) s (rpn n e)) ->
  forall s, (length s + fold_right (fun e m => Nat.max (width e) (1 + m)) 0%nat args <= 40)%nat -> args_at (opt_all (map etype args)) s (concat (map (rpn n) args)).
Proof.
  induction args as [|e r IH]; intros H s W; cbn [map opt_all concat fold_right] in *.
  - intros r. reflexivity.
  - pose proof (H e ltac:(left; reflexivity) s ltac:(lia)) as He. destruct (etype e) as [k|]; cbn [okind sim_at] in He.
    + assert (IH' := IH (fun e' I => H e' (or_intror I)) (letter k :: s) ltac:(cbn [length]; lia)). destruct (opt_all (map etype r)) as [ks|]; cbn [args_at] in *.
      * intros q. rewrite <- app_assoc, He, IH'. cbn [map rev]. rewrite <- app_assoc. reflexivity.
      * destruct IH' as [er IH']. exists er. intros q. rewrite <- app_assoc, He, IH'. reflexivity.
    + destruct He as [er He]. exists er. intros q. rewrite <- app_assoc. apply He.
Qed.
Lemma level_of n p k w o : n mod 8 = 0 -> 0 <= p < 8 -> level (mk k o (n + p) w) = p.
Proof. intros H P. unfold level. cbn [prio]. Z.div_mod_to_equations. lia. Qed.
Lemma opt_all_length {A} (l : list (option A)) ks : opt_all l = Some ks -> length ks = length l.
Proof. revert ks. induction l as [|[x|] l IH]; intros ks; cbn [opt_all]; try discriminate; [intros E; injection E as <-; reflexivity|]. destruct (opt_all l) as [xs|]; [|discriminate]. intros E. injection E as <-. cbn [length]. f_equal. apply IH. reflexivity. Qed.
Lemma sim e : wfe e -> subscripted e -> forall n s, n mod 8 = 0 -> (length s + width e <= 40)%nat -> sim_at (okind (etype e)) s (rpn n e).
Proof.
  induction e as [a c w|e IH|o e IH|o l r IHl IHr|fn c w b args IH] using expr_ind2; intros Hw Hs n s N W; cbn [wfe subscripted width rpn] in *.
  - assert (T : forall k, tpush s k = Ok (k :: s)) by (intros k; apply tpush_ok; lia).
    destruct a; try discriminate; cbn [etype okind sim_at]; intros q; cbn [app]; rewrite tl_cons; unfold test_token; cbn [ty cl]; rewrite ?T; try reflexivity.
    + specialize (Hs eq_refl). destruct Hs as [H1 H2]. unfold test_array. cbn [Z.eqb bind]. rewrite T. cbn [bind]. rewrite var_kind_of by assumption. reflexivity.
    + cbn [bind]. rewrite sys_kind_of. reflexivity.
  - cbn [etype]. apply IH; [exact Hw|exact Hs| |exact W]. rewrite Z.add_mod by lia. rewrite N. reflexivity.
  - destruct Hw as (Hu & Hw & _). specialize (IH Hw Hs n s N W). cbn [etype]. destruct (etype e) as [k|]; cbn [okind sim_at] in IH.
    + pose proof (kinds_all _ num_table k) as Nk. apply eqb_prop in Nk.
      assert (Q : forall q, test_loop s 0 ((rpn n e ++ [op_tok o (n + 6)]) ++ q) = if numeric k then test_loop (cN :: s) 0 q else Ok (Some ERR_TEST_OPERATION)).
      { intros q. rewrite <- app_assoc, IH. cbn [app]. rewrite tl_cons. unfold op_tok, test_token. cbn [ty cl].
        assert (E1 : (o =? OP_COMMA) = false /\ (o =? OP_SEMICOLON) = false).
        { unfold is_unary in Hu. rewrite !orb_true_iff, !Z.eqb_eq in Hu. destruct Hu as [[->| ->]| ->]; split; reflexivity. }
        destruct E1 as [E1 E2]. rewrite E1, E2, level_of by (try exact N; lia). cbn [Z.eqb Pos.eqb negb length Nat.ltb Nat.leb bind].
        replace (Nat.leb 1 (length s)) with (Nat.leb 1 (length s)) by reflexivity.
        change (top 1 (letter k :: s)) with [letter k]. rewrite Nk. destruct (numeric k); reflexivity. }
      destruct (numeric k); cbn [okind sim_at]; [exact Q|exists ERR_TEST_OPERATION; exact Q].
    + cbn [okind sim_at]. destruct IH as [er IH]. exists er. intros q. rewrite <- app_assoc. apply IH.
  - destruct Hw as (Hb & Hl & Hr & _ & _ & _). destruct Hs as [Sl Sr]. specialize (IHl Hl Sl n s N ltac:(lia)). cbn [etype]. pose proof (bin_prec o l r Hb) as Hp.
    destruct (etype l) as [ka|]; cbn [okind sim_at] in IHl; [|cbn [okind sim_at]; destruct IHl as [er IHl]; exists er; intros q; rewrite <- app_assoc; apply IHl].
    specialize (IHr Hr Sr n (letter ka :: s) N ltac:(cbn [length]; lia)).
    destruct (etype r) as [kb|]; cbn [okind sim_at] in IHr; [|cbn [okind sim_at]; destruct IHr as [er IHr]; exists er; intros q; rewrite <- !app_assoc, IHl; apply IHr].
    pose proof bin_table as T. rewrite forallb_forall in T. specialize (T o (bin_level_in o Hb)). pose proof (kinds_all _ (kinds_all _ T ka) kb) as T2. clear T. cbn beta in T2.
    apply andb_true_iff in T2. destruct T2 as [T1 T2]. apply eqb_prop in T1.
    assert (Q : forall q, test_loop s 0 ((rpn n l ++ rpn n r ++ [op_tok o (n + prec (Bin o l r))]) ++ q) = match bin_type o ka kb with Some k => test_loop (letter k :: s) 0 q | None => Ok (Some ERR_TEST_OPERATION) end).
    { intros q. rewrite <- !app_assoc, IHl, IHr. cbn [app]. rewrite tl_cons. unfold op_tok, test_token. cbn [ty cl]. rewrite level_of by (try exact N; lia).
      assert (E1 : (o =? OP_COMMA) = false /\ (o =? OP_SEMICOLON) = false /\ (o =? OP_ASSIGN) = false).
      { apply bin_level_in in Hb. cbn in Hb. repeat (destruct Hb as [<-|Hb]; [repeat split; reflexivity|]). destruct Hb. }
      destruct E1 as (E1 & E2 & E3). rewrite E1, E2, E3. assert (E6 : (prec (Bin o l r) =? 6) = false) by (apply Z.eqb_neq; lia). rewrite E6. cbn [negb].
      change (Nat.ltb (length (letter kb :: letter ka :: s)) 2) with false. cbv iota. change (top 2 (letter kb :: letter ka :: s)) with [letter ka; letter kb]. rewrite T1.
      destruct (bin_type o ka kb) as [k|]; [|reflexivity]. apply Z.eqb_eq in T2. cbv iota. cbn [skipn nth bind]. destruct ((OP_EQUAL <=? o) && (o <=? OP_GREATER_EQUAL)); rewrite T2; reflexivity. }
    destruct (bin_type o ka kb) as [k|]; cbn [okind sim_at]; [exact Q|exists ERR_TEST_OPERATION; exact Q].
  - destruct Hw as (Hw & _ & _). destruct Hs as [Hf Hs]. apply wfe_args in Hw. apply sub_args in Hs. cbn [etype].
    assert (A : args_at (opt_all (map etype args)) s (concat (map (rpn (n + 8)) args))).
    { apply sim_args; [|lia]. intros e I s' W'. rewrite Forall_forall in IH, Hw, Hs. apply IH; [exact I|apply Hw; exact I|apply Hs; exact I| |exact W']. rewrite Z.add_mod by lia. rewrite N. reflexivity. }
    destruct (opt_all (map etype args)) as [ks|] eqn:Ek; cbn [args_at] in A; [|cbn [okind sim_at]; destruct A as [er A]; exists er; intros q; rewrite <- app_assoc; apply A].
    apply opt_all_length in Ek. rewrite map_length in Ek. destruct (top_rev (map letter ks) s) as [T1 T2]. rewrite map_length in T1, T2.
    assert (L : length (rev (map letter ks) ++ s) = (length ks + length s)%nat) by (rewrite app_length, rev_length, map_length; reflexivity).
    destruct fn.
    + assert (Q : forall q, test_loop s 0 ((concat (map (rpn (n + 8)) args) ++ [mk arg_count (Z.of_nat (length args)) (n + 8) []; mk function c (n + 7) w]) ++ q) =
         if check_cmd (map letter ks) (format_of func_format c) then test_loop (letter (fun_type c) :: s) 0 q else Ok (Some ERR_TEST_FUNCTION)).
      { intros q. rewrite <- app_assoc, A. cbn [app]. rewrite tl_cons. unfold test_token at 1. cbn [ty cl bind]. rewrite tl_cons. unfold test_token. cbn [ty cl]. rewrite Nat2Z.id, <- Ek.
        destruct (Nat.ltb_spec (length (rev (map letter ks) ++ s)) (length ks)) as [Q|_]; [lia|]. rewrite T1, T2. destruct (check_cmd (map letter ks) (format_of func_format c)) eqn:Q; [|reflexivity].
        rewrite tpush_ok by lia. cbn [bind]. rewrite (ret_of c _ Q). reflexivity. }
      destruct (check_cmd (map letter ks) (format_of func_format c)); cbn [okind sim_at]; [exact Q|exists ERR_TEST_FUNCTION; exact Q].
    + destruct (Hf eq_refl) as (Ha & C1 & C2).
      assert (Q : forall q, test_loop s 0 ((concat (map (rpn (n + 8)) args) ++ [mk arg_count (Z.of_nat (length args)) (n + 8) []; mk array_name c (n + 7) w]) ++ q) =
         if subs_ok ks then test_loop (letter (var_of w) :: s) 0 q else Ok (Some ERR_TEST_ARRAY)).
      { intros q. rewrite <- app_assoc, A. cbn [app]. rewrite tl_cons. unfold test_token at 1. cbn [ty cl bind]. rewrite tl_cons. unfold test_token. cbn [ty cl]. unfold test_array.
        assert (E0 : (Z.of_nat (length args) =? 0) = false) by (apply Z.eqb_neq; destruct args; [congruence|cbn [length]; lia]). rewrite E0, Nat2Z.id, <- Ek.
        destruct (Nat.ltb_spec (length (rev (map letter ks) ++ s)) (length ks)) as [Q|_]; [lia|]. rewrite T1, T2, subs_check. destruct (subs_ok ks); [|reflexivity].
        cbn [bind]. rewrite tpush_ok by lia. cbn [bind]. rewrite var_kind_of by assumption. reflexivity. }
      destruct (subs_ok ks); cbn [okind sim_at]; [exact Q|exists ERR_TEST_ARRAY; exact Q].
Qed.

(** ** statements: either the check goes on with [s'] on its stack, or it reports an error *)
Definition verdict (P : Prop) (s s' : list Z) (code : list token) : Prop :=
  (P /\ forall r, test_loop s 0 (code ++ r) = test_loop s' 0 r) \/ (~ P /\ exists er, forall r, test_loop s 0 (code ++ r) = Ok (Some er)).
Lemma verdict_app P Q s s' s'' a b : verdict P s s' a -> verdict Q s' s'' b -> verdict (P /\ Q) s s'' (a ++ b).
Proof.
  intros [[HP A]|[HP [er A]]].
  - intros [[HQ B]|[HQ [er B]]].
    + left. split; [auto|]. intros r. rewrite <- app_assoc, A. apply B.
    + right. split; [tauto|]. exists er. intros r. rewrite <- app_assoc, A. apply B.
  - intros _. right. split; [tauto|]. exists er. intros r. rewrite <- app_assoc. apply A.
Qed.
Lemma verdict_iff P Q s s' a : (P <-> Q) -> verdict P s s' a -> verdict Q s s' a.
Proof. intros H [[HP A]|[HP A]]; [left|right]; (split; [tauto|exact A]). Qed.
Lemma letters_csemi ks : ~ In csemi (map letter ks).
Proof. rewrite in_map_iff. intros (k & E & _). destruct k; discriminate. Qed.
Lemma sim_type e s : fine e -> subscripted e -> (length s + width e <= 40)%nat ->
  (exists k, has_type e k /\ forall r, test_loop s 0 (rpn 0 e ++ r) = test_loop (letter k :: s) 0 r) \/
  ((forall k, ~ has_type e k) /\ exists er, forall r, test_loop s 0 (rpn 0 e ++ r) = Ok (Some er)).
Proof.
  intros [Hw _] Hs W. pose proof (sim e Hw Hs 0 s eq_refl W) as Q. destruct (etype e) as [k|] eqn:E; cbn [okind sim_at] in Q.
  - left. exists k. split; [apply etype_iff; exact E|exact Q].
  - right. split; [|exact Q]. intros k H. apply etype_iff in H. congruence.
Qed.
Lemma sim_num e first c s : fine e -> subscripted e -> (length s + width e <= 40)%nat -> s = [] -> c = CMD_IF \/ c = CMD_ON ->
  verdict (exists k, has_type e k /\ numeric k = true) s [] (rpn 0 e ++ [cmd_code first c]).
Proof.
  intros F S0 W -> C. destruct (sim_type e [] F S0 W) as [(k & Hk & E)|(Hk & er & E)].
  - pose proof (kinds_all _ num_table k) as Nk. apply eqb_prop in Nk.
    assert (Q : forall r, test_loop [] 0 ((rpn 0 e ++ [cmd_code first c]) ++ r) = if numeric k then test_loop [] 0 r else Ok (Some ERR_TEST_COMMAND)).
    { intros r. rewrite <- app_assoc, E. cbn [app]. rewrite tl_cons. rewrite <- Nk.
      destruct C as [-> | ->]; unfold cmd_code, test_token; destruct first; cbn [ty cl];
      (change (_ =? CMD_DATA) with false || idtac); cbv iota;
      match goal with |- context [check_cmd (rev [letter k]) ?f] => change (check_cmd (rev [letter k]) f) with (check_cmd [letter k] (chars "N"%string)) end;
      destruct (check_cmd [letter k] (chars "N"%string)); reflexivity. }
    destruct (numeric k) eqn:Nu.
    + left. split; [exists k; auto|exact Q].
    + right. split; [|exists ERR_TEST_COMMAND; exact Q]. intros (k' & H1 & H2). rewrite (has_type_fun e k k' Hk H1) in Nu. congruence.
  - right. split; [intros (k & H & _); exact (Hk k H)|]. exists er. intros r. rewrite <- app_assoc. apply E.
Qed.
(** arguments of a command *)
Lemma sim_arg a s : afine a -> asub a -> (length s + awidth a <= 40)%nat ->
  (exists z, arg_type a z /\ z <> clt /\ z <> csemi /\ forall r, test_loop s 0 (acode a ++ r) = test_loop (z :: s) 0 r) \/
  ((forall z, ~ arg_type a z) /\ exists er, forall r, test_loop s 0 (acode a ++ r) = Ok (Some er)).
Proof.
  destruct a as [e|w]; cbn [afine asub awidth acode arg_type]; intros F S0 W.
  - destruct (sim_type e s F S0 W) as [(k & Hk & E)|(Hk & er & E)].
    + left. exists (letter k). split; [exists k; auto|]. split; [destruct k; discriminate|]. split; [destruct k; discriminate|exact E].
    + right. split; [|exists er; exact E]. intros z (k & H & _). exact (Hk k H).
  - left. exists cL. split; [reflexivity|]. split; [discriminate|]. split; [discriminate|]. intros r. cbn [app]. rewrite tl_cons. unfold test_token. cbn [ty]. rewrite tpush_ok by lia. reflexivity.
Qed.
Lemma arg_type_fun a z z' : arg_type a z -> arg_type a z' -> z = z'.
Proof. destruct a as [e|w]; cbn [arg_type]; [|congruence]. intros (k & H & ->) (k' & H' & ->). rewrite (has_type_fun e k k' H H'). reflexivity. Qed.
Lemma arg_types_fun args : forall ks ks', Forall2 arg_type args ks -> Forall2 arg_type args ks' -> ks = ks'.
Proof. induction args as [|a r IH]; intros ks ks' H H'; inversion H; inversion H'; subst; [reflexivity|]. f_equal; [eapply arg_type_fun; eassumption|apply IH; assumption]. Qed.
Lemma sim_list args : Forall afine args -> Forall asub args -> forall s, (length s + lwidth args <= 40)%nat ->
  (exists ks, Forall2 arg_type args ks /\ ~ In clt ks /\ ~ In csemi ks /\ forall r, test_loop s 0 (concat (map acode args) ++ r) = test_loop (rev ks ++ s) 0 r) \/
  ((forall ks, ~ Forall2 arg_type args ks) /\ exists er, forall r, test_loop s 0 (concat (map acode args) ++ r) = Ok (Some er)).
Proof.
  induction args as [|a r IH]; intros F S0 s W; unfold lwidth in *; cbn [map concat fold_right] in *.
  - left. exists []. split; [constructor|]. split; [intros []|]. split; [intros []|]. reflexivity.
  - inversion F; inversion S0; subst. destruct (sim_arg a s ltac:(assumption) ltac:(assumption) ltac:(lia)) as [(z & Hz & N1 & N2 & E)|(Hz & er & E)].
    + destruct (IH ltac:(assumption) ltac:(assumption) (z :: s) ltac:(cbn [length]; lia)) as [(ks & Hk & M1 & M2 & Er)|(Hk & er & Er)].
      * left. exists (z :: ks). split; [constructor; assumption|]. split; [intros [Q|Q]; tauto|]. split; [intros [Q|Q]; tauto|]. intros q. rewrite <- app_assoc, E, Er. cbn [rev]. rewrite <- app_assoc. reflexivity.
      * right. split; [intros ks Q; inversion Q; subst; eapply Hk; eassumption|]. exists er. intros q. rewrite <- app_assoc, E. apply Er.
    + right. split; [intros ks Q; inversion Q; subst; eapply Hz; eassumption|]. exists er. intros q. rewrite <- app_assoc. apply E.
Qed.
Lemma test_cmd first c s r : c <> CMD_DATA -> c <> CMD_FOR -> c <> CMD_TO ->
  test_loop s 0 (cmd_code first c :: r) = if check_cmd (rev s) (format_of cmd_format c) then test_loop [] 0 r else Ok (Some ERR_TEST_COMMAND).
Proof.
  intros N1 N2 N3. apply Z.eqb_neq in N1. apply Z.eqb_neq in N2. apply Z.eqb_neq in N3. rewrite tl_cons. unfold cmd_code, test_token. destruct first; cbn [ty cl]; rewrite N1, N2, N3;
  cbn [orb]; destruct (check_cmd (rev s) (format_of cmd_format c)); reflexivity.
Qed.
Lemma sim_cmd first c args : ordinary c -> Forall afine args -> Forall asub args -> (lwidth args <= 40)%nat ->
  verdict (cmd_typed c args) [] [] (concat (map acode args) ++ [cmd_code first c]).
Proof.
  intros O F S0 W. assert (Nc : c <> CMD_DATA /\ c <> CMD_FOR /\ c <> CMD_TO /\ c <> CMD_SORT /\ c <> CMD_RSORT) by (unfold ordinary in O; cbn [In] in O; repeat split; intros ->; apply O; tauto).
  destruct Nc as (N1 & N2 & N3 & N4 & N5). destruct (sim_list args F S0 [] ltac:(cbn [length]; lia)) as [(ks & Hk & M1 & M2 & E)|(Hk & er & E)].
  - assert (Q : forall r, test_loop [] 0 ((concat (map acode args) ++ [cmd_code first c]) ++ r) = if check_cmd ks (format_of cmd_format c) then test_loop [] 0 r else Ok (Some ERR_TEST_COMMAND)).
    { intros r. rewrite <- app_assoc, E. cbn [app]. rewrite test_cmd by assumption. rewrite app_nil_r, rev_involutive. reflexivity. }
    destruct (check_cmd ks (format_of cmd_format c)) eqn:Ck.
    + left. split; [|exact Q]. exists ks. split; [exact Hk|]. apply cmd_check; assumption.
    + right. split; [|exists ERR_TEST_COMMAND; exact Q]. intros (ks' & H1 & H2). rewrite <- (arg_types_fun args ks ks' Hk H1) in H2. apply cmd_check in H2; congruence.
  - right. split; [intros (ks & H & _); exact (Hk ks H)|]. exists er. intros r. rewrite <- app_assoc. apply E.
Qed.
(** assignment *)
Lemma lv_kind lv k : is_lv lv -> has_type lv k -> k = NumVar \/ k = StrVar.
Proof. destruct lv as [[] ? ?| | | |[] ? ? ? ?]; cbn [is_lv]; try tauto; intros _ H; inversion H; subst; unfold var_of; destruct (dollar _); auto. Qed.
Lemma sim_assign lv e mid s : is_lv lv -> fine lv -> fine e -> subscripted lv -> subscripted e -> (length s + Nat.max (width lv) (1 + width e) <= 40)%nat ->
  (forall s r, test_loop s 0 (mid ++ r) = test_loop s 0 r) ->
  verdict (assignable lv e) s s (rpn 0 lv ++ mid ++ rpn 0 e ++ [op_tok OP_ASSIGN 0]).
Proof.
  intros Lv F1 F2 S1 S2 W Mid. destruct (sim_type lv s F1 S1 ltac:(lia)) as [(k & Hk & E)|(Hk & er & E)];
    [|right; split; [intros (k & k' & H & _); exact (Hk k H)|]; exists er; intros r; rewrite <- app_assoc; apply E].
  destruct (sim_type e (letter k :: s) F2 S2 ltac:(cbn [length]; lia)) as [(k' & Hk' & E')|(Hk' & er & E')];
    [|right; split; [intros (j & j' & _ & H & _); exact (Hk' j' H)|]; exists er; intros r; rewrite <- !app_assoc, E, Mid; apply E'].
  pose proof (kinds_all _ (kinds_all _ assign_table k) k') as T. cbn beta in T. apply eqb_prop in T.
  assert (T' : check_cmd [letter k; letter k'] (format_of op_format OP_ASSIGN) = Bool.eqb (numeric k) (numeric k')).
  { rewrite T. destruct (lv_kind lv k Lv Hk) as [-> | ->]; cbn [numeric]; destruct (numeric k'); reflexivity. }
  assert (Q : forall r, test_loop s 0 ((rpn 0 lv ++ mid ++ rpn 0 e ++ [op_tok OP_ASSIGN 0]) ++ r) = if Bool.eqb (numeric k) (numeric k') then test_loop s 0 r else Ok (Some ERR_TEST_OPERATION)).
  { intros r. rewrite <- !app_assoc, E, Mid, E'. cbn [app]. rewrite tl_cons. unfold op_tok, test_token. cbn [ty cl]. change (OP_ASSIGN =? OP_COMMA) with false. change (OP_ASSIGN =? OP_SEMICOLON) with false.
    change (negb (level (mk operation OP_ASSIGN 0 []) =? 6)) with true. cbv iota. change (Nat.ltb (length (letter k' :: letter k :: s)) 2) with false. cbv iota.
    change (top 2 (letter k' :: letter k :: s)) with [letter k; letter k']. rewrite T'. destruct (Bool.eqb (numeric k) (numeric k')); [|reflexivity]. reflexivity. }
  destruct (Bool.eqb (numeric k) (numeric k')) eqn:B.
  - apply eqb_prop in B. left. split; [exists k, k'; auto|exact Q].
  - right. split; [|exists ERR_TEST_OPERATION; exact Q]. intros (j & j' & H1 & H2 & H3). rewrite <- (has_type_fun lv k j Hk H1), <- (has_type_fun e k' j' Hk' H2) in H3. rewrite H3, eqb_reflx in B. discriminate.
Qed.
(** PRINT: whatever is on the stack is accepted *)
Lemma sim_opt o s : match o with Some e => fine e | None => True end -> osub o -> (length s + owidth o <= 40)%nat ->
  (otypable o /\ exists z, length z = ocount o /\ forall r, test_loop s 0 (ocode o ++ r) = test_loop (z ++ s) 0 r) \/
  (~ otypable o /\ exists er, forall r, test_loop s 0 (ocode o ++ r) = Ok (Some er)).
Proof.
  destruct o as [e|]; cbn [osub owidth ocode otypable ocount].
  - intros F S0 W. destruct (sim_type e s F S0 W) as [(k & Hk & E)|(Hk & er & E)].
    + left. split; [exists k; exact Hk|]. exists [letter k]. split; [reflexivity|exact E].
    + right. split; [intros [k H]; exact (Hk k H)|]. exists er. exact E.
  - intros _ _ _. left. split; [exact I|]. exists []. split; [reflexivity|]. reflexivity.
Qed.
Lemma sim_items items last : Forall (fun it => (snd it = OP_COMMA \/ snd it = OP_SEMICOLON) /\ match fst it with Some e => fine e | None => True end) items ->
  match last with Some e => fine e | None => True end -> Forall (fun it => osub (fst it)) items -> osub last -> forall s, (length s + swidth_items items last <= 40)%nat ->
  ((Forall (fun it => otypable (fst it)) items /\ otypable last) /\ exists z, forall r, test_loop s 0 ((concat (map (fun it => ocode (fst it) ++ [op_tok (snd it) 1]) items) ++ ocode last) ++ r) = test_loop z 0 r) \/
  (~ (Forall (fun it => otypable (fst it)) items /\ otypable last) /\ exists er, forall r, test_loop s 0 ((concat (map (fun it => ocode (fst it) ++ [op_tok (snd it) 1]) items) ++ ocode last) ++ r) = Ok (Some er)).
Proof.
  intros F Fl S0 Sl. induction items as [|[o q] r IH]; intros s W; cbn [map concat swidth_items fst snd] in *.
  - cbn [app]. destruct (sim_opt last s Fl Sl W) as [(H & z & _ & E)|(H & er & E)]; [left; split; [split; [constructor|exact H]|exists (z ++ s); exact E]|right; split; [tauto|exists er; exact E]].
  - inversion F as [|? ? [Fq Fo] Fr]; inversion S0 as [|? ? So Sr]; subst; cbn [fst snd] in *.
    destruct (sim_opt o s Fo So ltac:(lia)) as [(H & z & Lz & E)|(H & er & E)];
      [|right; split; [intros [G _]; inversion G; subst; cbn [fst] in *; tauto|]; exists er; intros p; rewrite <- !app_assoc; apply E].
    assert (Esep : exists y, forall p, test_loop (z ++ s) 0 (op_tok q 1 :: p) = test_loop (y :: z ++ s) 0 p).
    { assert (L : (length (z ++ s) < 40)%nat) by (rewrite app_length; lia). destruct Fq as [-> | ->]; [exists clt|exists csemi]; intros p; rewrite tl_cons; unfold op_tok, test_token; cbn [ty cl].
      - change (OP_COMMA =? OP_COMMA) with true. cbv iota. rewrite tpush_ok by exact L. reflexivity.
      - change (OP_SEMICOLON =? OP_COMMA) with false. change (OP_SEMICOLON =? OP_SEMICOLON) with true. cbv iota. rewrite tpush_ok by exact L. reflexivity. }
    destruct Esep as [y Esep].
    destruct (IH Fr Sr (y :: z ++ s) ltac:(cbn [length]; rewrite app_length; lia)) as [([H1 H2] & z2 & E2)|(H2 & er & E2)].
    + left. split; [split; [constructor; [exact H|exact H1]|exact H2]|]. exists z2. intros p. rewrite <- !app_assoc. rewrite E. cbn [app]. rewrite Esep, app_assoc. apply E2.
    + right. split; [intros [G1 G2]; inversion G1; subst; tauto|]. exists er. intros p. rewrite <- !app_assoc. rewrite E. cbn [app]. rewrite Esep, app_assoc. apply E2.
Qed.
Lemma any_ok s : check_cmd s (chars "*"%string) = true.
Proof. unfold check_cmd. destruct s; reflexivity. Qed.
Lemma sim_dim e : is_elem e -> wfe e -> subscripted e -> (width e <= 40)%nat -> verdict (typable e) [] [] (dcode e).
Proof.
  destruct e as [| | | |[] c w b args]; try contradiction. intros _ (Hw & _ & _) [Hf Hs] W. apply wfe_args in Hw. apply sub_args in Hs. cbn [dcode width] in *. destruct (Hf eq_refl) as (Ha & _).
  assert (A : args_at (opt_all (map etype args)) [] (concat (map (rpn 8) args))).
  { apply sim_args; [|cbn [length]; lia]. intros e I s' W'. rewrite Forall_forall in Hw, Hs. apply sim; [apply Hw; exact I|apply Hs; exact I|reflexivity|exact W']. }
  assert (Ty : typable (Call false c w b args) <-> exists k, etype (Call false c w b args) = Some k) by (unfold typable; split; intros [k Q]; exists k; apply etype_iff; exact Q).
  cbn [etype] in Ty. destruct (opt_all (map etype args)) as [ks|] eqn:Ek; cbn [args_at] in A; [|right; split; [rewrite Ty; intros [k Q]; discriminate Q|]; destruct A as [er A]; exists er; intros q; rewrite <- app_assoc; apply A].
  apply opt_all_length in Ek. rewrite map_length in Ek. destruct (top_rev (map letter ks) []) as [T1 T2]. rewrite map_length in T1, T2.
  assert (L : length (rev (map letter ks) ++ []) = length ks) by (rewrite app_nil_r, rev_length, map_length; reflexivity).
  assert (Q : forall q, test_loop [] 0 ((concat (map (rpn 8) args) ++ [mk arg_count (Z.of_nat (length args)) 8 []; mk dim_arr c 7 w]) ++ q) = if subs_ok ks then test_loop [] 0 q else Ok (Some ERR_TEST_ARRAY)).
  { intros q. rewrite <- app_assoc, A. cbn [app]. rewrite tl_cons. unfold test_token at 1. cbn [ty cl bind]. rewrite tl_cons. unfold test_token. cbn [ty cl]. unfold test_array.
    assert (E0 : (Z.of_nat (length args) =? 0) = false) by (apply Z.eqb_neq; destruct args; [congruence|cbn [length]; lia]). rewrite E0, Nat2Z.id, <- Ek.
    destruct (Nat.ltb_spec (length (rev (map letter ks) ++ [])) (length ks)) as [Q|_]; [lia|]. rewrite T1, T2, subs_check. destruct (subs_ok ks); reflexivity. }
  destruct (subs_ok ks); [left|right]; (split; [rewrite Ty|]); [eauto|exact Q|intros [k Qk]; discriminate Qk|exists ERR_TEST_ARRAY; exact Q].
Qed.
Lemma sim_dims items : Forall (fun e => is_elem e /\ fine e) items -> Forall subscripted items -> (fold_right (fun e m => Nat.max (width e) m) 0%nat items <= 40)%nat ->
  verdict (Forall typable items) [] [] (concat (map dcode items)).
Proof.
  induction items as [|e items IH]; intros F S0 W; cbn [map concat fold_right] in *.
  - left. split; [constructor|]. reflexivity.
  - destruct (Forall_inv F) as [Ie [We _]]. apply verdict_iff with (P := typable e /\ Forall typable items).
    + split; [intros [A B]; constructor; assumption|intros A; split; [apply (Forall_inv A)|apply (Forall_inv_tail A)]].
    + apply verdict_app with (s' := []); [apply sim_dim; [exact Ie|exact We|apply (Forall_inv S0)|lia]|apply IH; [apply (Forall_inv_tail F)|apply (Forall_inv_tail S0)|lia]].
Qed.
Lemma sim_stmt first s : wfs s -> ssub s -> (stmt_width s <= 40)%nat ->
  verdict (well_typed_stmt s) [] (match s with SGo _ => [cL] | _ => [] end) (scode first s).
Proof.
  intros Hw Hs W. destruct s as [lv e|c args|e c args|items last|lv a b st|w|items]; cbn [wfs ssub stmt_width scode well_typed_stmt] in *.
  - destruct Hw as (H1 & H2 & H3). destruct Hs. apply (sim_assign lv e [] []); try assumption; try reflexivity; try (cbn [length]; lia).
  - destruct Hw. apply sim_cmd; assumption.
  - destruct Hw as (H1 & H2 & H3). destruct Hs. 
    assert (V : verdict ((exists k, has_type e k /\ numeric k = true) /\ cmd_typed c args) [] [] ((rpn 0 e ++ [cmd_code first CMD_ON]) ++ concat (map acode args) ++ [cmd_code false c])).
    { apply verdict_app with (s' := []); [apply sim_num; try assumption; auto; cbn [length]; lia|apply sim_cmd; try assumption; lia]. }
    rewrite <- app_assoc in V. exact V.
  - destruct Hw as [H1 H2]. destruct Hs as [S1 S2]. destruct (sim_items items last H1 H2 S1 S2 [] ltac:(cbn [length]; lia)) as [(H & z & E)|(H & er & E)].
    + left. split; [exact H|]. intros r. rewrite app_assoc, <- app_assoc, E. cbn [app]. rewrite test_cmd by discriminate. change (format_of cmd_format CMD_PRINT) with (chars "*"%string). rewrite any_ok. reflexivity.
    + right. split; [exact H|]. exists er. intros r. rewrite app_assoc, <- app_assoc. apply E.
  - destruct Hw as (H1 & H2 & H3 & H4 & H5). destruct Hs as (S1 & S2 & S3 & S4).
    assert (A : verdict (assignable lv a) [] [] (rpn 0 lv ++ [cmd_code first CMD_FOR] ++ rpn 0 a ++ [op_tok OP_ASSIGN 0])).
    { apply (sim_assign lv a [cmd_code first CMD_FOR] []); try assumption; [cbn [length]; lia|]. intros s r. cbn [app]. rewrite tl_cons. unfold cmd_code, test_token. destruct first; cbn [ty cl];
      change (CMD_FOR =? CMD_DATA) with false; cbv iota; change (format_of cmd_format CMD_FOR) with (chars "*"%string); rewrite any_ok; reflexivity. }
    assert (B : verdict (typable b /\ otypable st) [] [] ((rpn 0 b ++ [cmd_code false CMD_TO]) ++ (match st with Some s => rpn 0 s ++ [cmd_code false CMD_STEP] | None => [] end) ++ [loop_token])).
    { assert (To : forall s r, test_loop s 0 (cmd_code false CMD_TO :: r) = test_loop s 0 r).
      { intros s r. rewrite tl_cons. unfold cmd_code, test_token. cbn [ty cl]. change (CMD_TO =? CMD_DATA) with false. cbv iota. change (format_of cmd_format CMD_TO) with (chars "*"%string). rewrite any_ok. reflexivity. }
      assert (Lp : forall s r, test_loop s 0 (loop_token :: r) = test_loop [] 0 r) by reflexivity.
      destruct (sim_type b [] H4 S3 ltac:(cbn [length]; lia)) as [(k & Hk & E)|(Hk & er & E)];
        [|right; split; [intros [[k Q] _]; exact (Hk k Q)|]; exists er; intros r; rewrite <- !app_assoc; apply E].
      destruct st as [st|]; cbn [osub otypable owidth] in *.
      - destruct (sim_type st [letter k] H5 S4 ltac:(cbn [length]; lia)) as [(k' & Hk' & E')|(Hk' & er & E')].
        + left. split; [split; [exists k; exact Hk|exists k'; exact Hk']|]. intros r. rewrite <- !app_assoc, E. cbn [app]. rewrite To, E'. rewrite test_cmd by discriminate.
          change (format_of cmd_format CMD_STEP) with (chars "*"%string). rewrite any_ok. apply Lp.
        + right. split; [intros [_ [k2 Q]]; exact (Hk' k2 Q)|]. exists er. intros r. rewrite <- !app_assoc, E. cbn [app]. rewrite To. apply E'.
      - left. split; [split; [exists k; exact Hk|exact I]|]. intros r. rewrite <- !app_assoc, E. cbn [app]. rewrite To. apply Lp. }
    pose proof (verdict_app _ _ _ _ _ _ _ A B) as V. rewrite <- !app_assoc in V. exact V.
  - left. split; [exact I|]. intros r. cbn [app]. rewrite tl_cons. unfold test_token. cbn [ty]. reflexivity.
  - destruct Hw as [_ F]. apply sim_dims; assumption.
Qed.
(** ** lines *)
Section LinInd.
  Variable P : lin -> Prop.
  Hypothesis H1 : forall s, P (LOne s).
  Hypothesis H2 : forall s l, P l -> P (LSeq s l).
  Hypothesis H3 : forall e t el, P t -> (forall l, el = Some l -> P l) -> P (LIf e t el).
  Fixpoint lin_ind2 (l : lin) : P l :=
    match l with
    | LOne s => H1 s
    | LSeq s l => H2 s l (lin_ind2 l)
    | LIf e t None => H3 e t None (lin_ind2 t) (fun l E => match E with eq_refl => I end)
    | LIf e t (Some el) => H3 e t (Some el) (lin_ind2 t) (fun l E => match E in _ = x return match x with Some l => P l | None => True end with eq_refl => lin_ind2 el end)
    end.
End LinInd.
Definition left_over (s : stmt) : list Z := match s with SGo _ => [cL] | _ => [] end.
Lemma sim_clear c s r : c = CMD_ELSE \/ c = CMD_ENDIF -> test_loop s 0 (cmd_tok c :: r) = test_loop [] 0 r.
Proof. intros C. change (cmd_tok c) with (cmd_code false c). rewrite test_cmd by (destruct C as [-> | ->]; discriminate). destruct C as [-> | ->]; [change (format_of cmd_format CMD_ELSE) with (chars "*"%string)|change (format_of cmd_format CMD_ENDIF) with (chars "*"%string)]; rewrite any_ok; reflexivity. Qed.
Lemma sim_lin l : forall first after tidy, wfl after tidy l -> checkable l -> (line_width l <= 40)%nat -> verdict (well_typed l) [] (left_over (last_stmt l)) (lcode first l).
Proof.
  induction l as [s|s l IH|e t el IHt IHel] using lin_ind2; intros first after tidy Hw Hc W; cbn [wfl checkable line_width last_stmt lcode well_typed] in *.
  - destruct Hw as [Hw _]. apply sim_stmt; assumption.
  - destruct Hw as (Hw & _ & _ & Hl). destruct Hc as (Hs & Hg & Hc). apply verdict_app with (s' := []); [|eapply IH; try eassumption; lia].
    pose proof (sim_stmt first s Hw Hs ltac:(lia)) as V. destruct s; try exact V. destruct Hg.
  - destruct Hw as (Hf & Ht & He). destruct Hc as (Se & St & Sel). rewrite app_assoc.
    apply verdict_app with (s' := []); [apply sim_num; try assumption; auto; cbn [length]; lia|].
    pose proof (IHt false _ _ Ht St ltac:(lia)) as Vt. destruct el as [el|].
    + destruct He as [He _]. pose proof (IHel el eq_refl false _ _ He Sel ltac:(lia)) as Ve. apply verdict_app with (s' := left_over (last_stmt t)); [exact Vt|].
      destruct Ve as [[H E]|[H [er E]]]; [left|right]; (split; [exact H|]); [|exists er]; intros r; cbn [app]; rewrite sim_clear by auto; apply E.
    + rewrite app_nil_r. apply verdict_iff with (P := well_typed t); [tauto|exact Vt].
Qed.
Lemma no_if_go l : forall tidy, wfl false tidy l -> has_if l = false -> not_go (last_stmt l).
Proof. induction l as [s|s l IH|e t el IHt IHel] using lin_ind2; intros tidy Hw H; cbn [wfl has_if last_stmt] in *; [apply Hw; reflexivity|destruct Hw as (_ & _ & _ & Hw); eapply IH; eassumption|discriminate]. Qed.
Theorem line_checked l : wfl false true l -> checkable l -> (line_width l <= 40)%nat ->
  (well_typed l /\ tok_test (line_code l) = Ok None) \/ (~ well_typed l /\ exists er, tok_test (line_code l) = Ok (Some er)).
Proof.
  intros Hw Hc W. unfold tok_test, line_code. destruct (sim_lin l true false true Hw Hc W) as [[H E]|[H [er E]]].
  - left. split; [exact H|]. rewrite E. destruct (has_if l) eqn:Hi.
    + rewrite sim_clear by auto. reflexivity.
    + pose proof (no_if_go l true Hw Hi) as G. destruct (last_stmt l); try reflexivity. destruct G.
  - right. split; [exact H|]. exists er. apply E.
Qed.
