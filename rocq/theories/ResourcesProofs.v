From Coq Require Import String Ascii.
From Verif Require Import Base BaseLemmas Strs StrProofs Resources ResourcesSpec.
Ltac Zify.zify_post_hook ::= Z.div_mod_to_equations.
Open Scope Z_scope.

Lemma is_name_spec c : is_name c = true <-> name_char c.
Proof. unfold is_name, name_char. lia. Qed.
Lemma forallb_name n : forallb is_name n = true <-> Forall name_char n.
Proof.
  rewrite forallb_forall, Forall_forall. split; intros F x I; apply is_name_spec; auto.
Qed.
Lemma name_part_spec n : verify_name_part n = true <-> file_name n.
Proof.
  unfold verify_name_part, file_name.
  destruct (Nat.eqb_spec (length n) 0); cbn [orb]; [split; [intro W; discriminate W|lia]|].
  destruct (Nat.ltb_spec 8 (length n)); [split; [intro W; discriminate W|lia]|].
  rewrite forallb_name. split; [intro F; split; [lia|exact F]|tauto].
Qed.
Lemma strchr_none s : strchr s = None <-> ~ In 58 s.
Proof.
  induction s as [|c s IH]; cbn [strchr]; [split; [intros _ []|reflexivity]|].
  unfold SEP. destruct (Z.eqb_spec c 58) as [->|N].
  - split; [intro W; discriminate W|intro X; exfalso; apply X; left; reflexivity].
  - destruct (strchr s) as [k|]; cbn [option_map].
    + split; [intro W; discriminate W|]. intro X. assert (~ In 58 s) as Y by (intro I; apply X; right; exact I).
      apply IH in Y. discriminate Y.
    + split; [|reflexivity]. intros _ [E|I]; [congruence|]. revert I. apply IH. reflexivity.
Qed.
Lemma strchr_app t n : ~ In 58 t -> strchr (t ++ [58] ++ n) = Some (length t).
Proof.
  induction t as [|c t IH]; intro X; [reflexivity|]. change ((c :: t) ++ [58] ++ n) with (c :: (t ++ [58] ++ n)). cbn [strchr length].
  unfold SEP. destruct (Z.eqb_spec c 58) as [->|N]; [exfalso; apply X; left; reflexivity|].
  rewrite IH; [reflexivity|]. intro I. apply X. right. exact I.
Qed.
Lemma strchr_some : forall s k, strchr s = Some k -> exists t n, s = t ++ [58] ++ n /\ length t = k /\ ~ In 58 t.
Proof.
  induction s as [|c s IH]; intros k E; cbn [strchr] in E; [discriminate E|].
  unfold SEP in E. destruct (Z.eqb_spec c 58) as [->|N].
  - injection E as <-. exists [], s. split; [reflexivity|]. split; [reflexivity|]. intros [].
  - destruct (strchr s) as [j|] eqn:Ej; [|discriminate E]. injection E as <-.
    destruct (IH j eq_refl) as (t & n & -> & L & X). exists (c :: t), n. split; [reflexivity|].
    split; [cbn; congruence|]. intros [F|I]; [congruence|contradiction].
Qed.

(** what one entry of the table accepts, for a type of at most five characters *)
Definition entry_accepts (v : list Z) (t : list Z) : Prop :=
  exists b0 b1 b2 r, t = b0 :: b1 :: b2 :: r /\ b0 = at_ v 0 /\ b1 = at_ v 1 /\ b2 = at_ v 2 /\
  (at_ v 3 = 0 \/ r = [] \/ (exists i, r = [i] /\ 48 <= i <= at_ v 3) \/
   (exists i p, r = [i; p] /\ 48 <= i <= at_ v 3 /\ (at_ v 4 = 0 \/ (at_ v 4 = 80 /\ (p = 76 \/ p = 85)) \/ (at_ v 4 <> 80 /\ at_ v 4 = p)))).
Definition entry_ok (v : list Z) : Prop :=
  at_ v 0 <> 58 /\ at_ v 1 <> 58 /\ at_ v 2 <> 58 /\ at_ v 0 <> 0 /\ at_ v 1 <> 0 /\ at_ v 2 <> 0.

Lemma type_match_spec v t n : entry_ok v -> (length t <= 5)%nat -> ~ In 58 t -> ~ In 0 t ->
  type_match v (t ++ [58] ++ n) = true <-> entry_accepts v t.
Proof.
  intros (A0 & A1 & A2 & B0 & B1 & B2) L X Z0.
  assert (SM : forall s, same3 v s = false -> type_match v s = false) by (intros s E; unfold type_match; rewrite E; reflexivity).
  destruct t as [|b0 t]; [split|].
  { rewrite SM; [intro W; discriminate W|]. unfold same3. change (at_ ([] ++ [58] ++ n) 0) with 58.
    destruct (Z.eqb_spec (at_ v 0) 58); [contradiction|reflexivity]. }
  { intros (? & ? & ? & ? & W & _). discriminate W. }
  destruct t as [|b1 t]; [split|].
  { rewrite SM; [intro W; discriminate W|]. unfold same3. change (at_ ([b0] ++ [58] ++ n) 1) with 58.
    destruct (Z.eqb_spec (at_ v 1) 58); [contradiction|rewrite andb_false_r; reflexivity]. }
  { intros (? & ? & ? & ? & W & _). discriminate W. }
  destruct t as [|b2 t]; [split|].
  { rewrite SM; [intro W; discriminate W|]. unfold same3. change (at_ ([b0; b1] ++ [58] ++ n) 2) with 58.
    destruct (Z.eqb_spec (at_ v 2) 58); [contradiction|rewrite andb_false_r; reflexivity]. }
  { intros (? & ? & ? & ? & W & _). discriminate W. }
  clear SM.
  unfold type_match, same3. 
  change (at_ ((b0 :: b1 :: b2 :: t) ++ [58] ++ n) 0) with b0.
  change (at_ ((b0 :: b1 :: b2 :: t) ++ [58] ++ n) 1) with b1.
  change (at_ ((b0 :: b1 :: b2 :: t) ++ [58] ++ n) 2) with b2.
  change (at_ ((b0 :: b1 :: b2 :: t) ++ [58] ++ n) 3) with (at_ (t ++ [58] ++ n) 0).
  change (at_ ((b0 :: b1 :: b2 :: t) ++ [58] ++ n) 4) with (at_ (t ++ [58] ++ n) 1).
  assert (R : forall r, t = r -> entry_accepts v (b0 :: b1 :: b2 :: t) <->
     (b0 = at_ v 0 /\ b1 = at_ v 1 /\ b2 = at_ v 2) /\
     (at_ v 3 = 0 \/ r = [] \/ (exists i, r = [i] /\ 48 <= i <= at_ v 3) \/
   (exists i p, r = [i; p] /\ 48 <= i <= at_ v 3 /\ (at_ v 4 = 0 \/ (at_ v 4 = 80 /\ (p = 76 \/ p = 85)) \/ (at_ v 4 <> 80 /\ at_ v 4 = p))))).
  { intros r <-. split.
    - intros (x0 & x1 & x2 & r & E & E0 & E1 & E2 & Q). injection E as <- <- <- <-. split; [auto|exact Q].
    - intros ((E0 & E1 & E2) & Q). exists b0, b1, b2, t. auto 10. }
  cbv zeta. unfold SEP.
  destruct t as [|i t].
  { rewrite (R [] eq_refl). change (at_ ([] ++ [58] ++ n) 0) with 58. change (58 =? 58) with true. cbn [orb].
    destruct (Z.eqb_spec (at_ v 0) b0); destruct (Z.eqb_spec (at_ v 1) b1); destruct (Z.eqb_spec (at_ v 2) b2); cbn [andb negb];
      try (split; [intro W; discriminate W|intros ((E0 & E1 & E2) & _); congruence]).
    split; [|destruct (at_ v 3 =? 0); reflexivity]. intros _. split; [auto|right; left; reflexivity]. }
  assert (i <> 58) by (intros ->; apply X; cbn; auto 10). assert (i <> 0) by (intros ->; apply Z0; cbn; auto 10).
  destruct t as [|p t].
  { rewrite (R [i] eq_refl). change (at_ ([i] ++ [58] ++ n) 0) with i. change (at_ ([i] ++ [58] ++ n) 1) with 58. change (58 =? 58) with true. cbn [orb].
    destruct (Z.eqb_spec (at_ v 0) b0); destruct (Z.eqb_spec (at_ v 1) b1); destruct (Z.eqb_spec (at_ v 2) b2); cbn [andb negb];
      try (split; [intro W; discriminate W|intros ((E0 & E1 & E2) & _); congruence]).
    destruct (Z.eqb_spec (at_ v 3) 0) as [V|V]; [split; [intros _; split; auto|reflexivity]|].
    destruct (Z.eqb_spec i 58); [contradiction|]. destruct (Z.eqb_spec i 0); [contradiction|]. cbn [orb].
    destruct (Z.gtb_spec 48 i); [split; [intro W; discriminate W|]|].
    { intros (_ & [Q|[Q|[(i' & Q & Q')|(i' & p' & Q & _)]]]); [lia|discriminate Q| |discriminate Q]. injection Q as <-. lia. }
    destruct (Z.gtb_spec i (at_ v 3)); cbn [orb]; [split; [intro W; discriminate W|]|].
    { intros (_ & [Q|[Q|[(i' & Q & Q')|(i' & p' & Q & _)]]]); [lia|discriminate Q| |discriminate Q]. injection Q as <-. lia. }
    split; [intros _|reflexivity]. split; [auto|]. right. right. left. exists i. split; [reflexivity|lia]. }
  assert (p <> 58) by (intros ->; apply X; cbn; auto 10). assert (p <> 0) by (intros ->; apply Z0; cbn; auto 10).
  destruct t as [|q t]; [|cbn in L; lia].
  rewrite (R [i; p] eq_refl). change (at_ ([i; p] ++ [58] ++ n) 0) with i. change (at_ ([i; p] ++ [58] ++ n) 1) with p.
  destruct (Z.eqb_spec (at_ v 0) b0); destruct (Z.eqb_spec (at_ v 1) b1); destruct (Z.eqb_spec (at_ v 2) b2); cbn [andb negb];
      try (split; [intro W; discriminate W|intros ((E0 & E1 & E2) & _); congruence]).
  destruct (Z.eqb_spec (at_ v 3) 0) as [V|V]; [split; [intros _; split; auto|reflexivity]|].
  destruct (Z.eqb_spec i 58); [contradiction|]. destruct (Z.eqb_spec i 0); [contradiction|]. cbn [orb].
  destruct (Z.gtb_spec 48 i); [split; [intro W; discriminate W|]|].
  { intros (_ & [Q|[Q|[(i' & Q & Q')|(i' & p' & Q & Q' & _)]]]); [lia|discriminate Q|discriminate Q|]. injection Q as <- <-. lia. }
  destruct (Z.gtb_spec i (at_ v 3)); cbn [orb]; [split; [intro W; discriminate W|]|].
  { intros (_ & [Q|[Q|[(i' & Q & Q')|(i' & p' & Q & Q' & _)]]]); [lia|discriminate Q|discriminate Q|]. injection Q as <- <-. lia. }
  destruct (Z.eqb_spec p 58); [contradiction|]. destruct (Z.eqb_spec p 0); [contradiction|]. cbn [orb].
  destruct (Z.eqb_spec (at_ v 4) 0) as [V4|V4].
  { split; [intros _|reflexivity]. split; [auto|]. right. right. right. exists i, p. split; [reflexivity|]. split; [lia|auto]. }
  assert (K : forall b : bool, (b = true <-> (at_ v 4 = 80 /\ (p = 76 \/ p = 85)) \/ (at_ v 4 <> 80 /\ at_ v 4 = p)) ->
     b = true <-> (b0 = at_ v 0 /\ b1 = at_ v 1 /\ b2 = at_ v 2) /\
      (at_ v 3 = 0 \/ [i; p] = [] \/ (exists i0, [i; p] = [i0] /\ 48 <= i0 <= at_ v 3) \/
       (exists i0 p0, [i; p] = [i0; p0] /\ 48 <= i0 <= at_ v 3 /\ (at_ v 4 = 0 \/ at_ v 4 = 80 /\ (p0 = 76 \/ p0 = 85) \/ at_ v 4 <> 80 /\ at_ v 4 = p0)))).
  { intros b Hb. rewrite Hb. split.
    - intro Q. split; [auto|]. right. right. right. exists i, p. split; [reflexivity|]. split; [lia|]. right. exact Q.
    - intros (_ & [Q|[Q|[(i' & Q & Q')|(i' & p' & Q & _ & Q')]]]); [lia|discriminate Q|discriminate Q|].
      injection Q as <- <-. destruct Q' as [Q'|Q']; [lia|exact Q']. }
  apply K. clear K R X Z0.
  destruct (Z.eqb_spec (at_ v 4) 80) as [P|P].
  - destruct (Z.eqb_spec p 76); destruct (Z.eqb_spec p 85); cbn [negb andb]; (split; [intro W; try discriminate W|]); try lia; reflexivity.
  - destruct (Z.eqb_spec (at_ v 4) p); cbn [negb]; (split; [intro W; try discriminate W|]); try lia; reflexivity.
Qed.

Lemma type_loop_spec vs t n : Forall entry_ok vs -> (length t <= 5)%nat -> ~ In 58 t -> ~ In 0 t ->
  type_loop vs (t ++ [58] ++ n) = true <-> exists v, In v vs /\ entry_accepts v t.
Proof.
  intros F L X Z0. induction F as [|v vs Hv F IH]; cbn [type_loop].
  - split; [intro W; discriminate W|]. intros (? & [] & _).
  - destruct (type_match v (t ++ [58] ++ n)) eqn:E.
    + split; [intros _|reflexivity]. exists v. split; [left; reflexivity|]. apply type_match_spec in E; auto.
    + rewrite IH. split; intros (v' & I & A).
      * exists v'. split; [right; exact I|exact A].
      * destruct I as [->|I]; [|exists v'; auto]. apply (type_match_spec v' t n) in A; auto. rewrite A in E. discriminate E.
Qed.
Lemma valid_types_ok : Forall entry_ok valid_resource_types.
Proof. unfold valid_resource_types. cbn [map]. repeat constructor; intro W; discriminate W. Qed.

Lemma type_name_noSep t : type_name t \/ lax_type_name t -> ~ In 58 t.
Proof.
  intros [T|T].
  - assert (K : forall base n pgs, In (base, n, pgs) kinds -> ~ In 58 base /\ 0 < n < 10 /\ forall l, pgs = Some l -> ~ In 58 l).
    { intros base n pgs I. unfold kinds in I.
      repeat (destruct I as [I|I]; [injection I as <- <- <-; split; [cbn; lia|]; split; [lia|]; intros l E; injection E as <-; cbn; lia|]).
      destruct I as [I|[]]. injection I as <- <- <-. split; [cbn; lia|]. split; [lia|]. intros l E. discriminate E. }
    destruct T as [base n pgs I|base n pgs b I B|base n pgs b pg I B P].
    + apply K in I. tauto.
    + apply K in I. intro X. apply in_app_or in X. destruct X as [X|[X|[]]]; [tauto|lia].
    + apply K in I. destruct I as (I & N & Q). intro X. apply in_app_or in X. destruct X as [X|[X|[X|[]]]]; [tauto|lia|].
      subst pg. exact (Q pgs eq_refl P).
  - destruct T as [base rest I L X|b pg B P]; intro Y; apply in_app_or in Y.
    + destruct Y as [Y|Y]; [|contradiction]. unfold unbanked in I.
      destruct I as [<-|[<-|[]]]; cbn in Y; lia.
    + destruct Y as [Y|[Y|[Y|[]]]]; [cbn in Y; lia|lia|congruence].
Qed.

Lemma accepts_types t : ~ In 58 t -> (length t <= 5)%nat ->
  (exists v, In v valid_resource_types /\ entry_accepts v t) <-> type_name t \/ lax_type_name t.
Proof.
  intros X L. split.
  - intros (v & I & (b0 & b1 & b2 & r & -> & E0 & E1 & E2 & Q)). unfold valid_resource_types in I. cbn [map] in I.
    assert (U : forall base, In base unbanked -> [b0; b1; b2] = base -> lax_type_name (b0 :: b1 :: b2 :: r)).
    { intros base Ib E. change (b0 :: b1 :: b2 :: r) with ([b0; b1; b2] ++ r). rewrite E. apply lax_any; [exact Ib|cbn in L; lia|].
      intro Y. apply X. right. right. right. exact Y. }
    assert (G : forall base n pgs, In (base, n, Some pgs) kinds -> [b0; b1; b2] = base -> at_ v 3 = 48 + n - 1 -> 0 < n -> at_ v 4 <> 0 ->
       (forall p, (at_ v 4 = 80 /\ (p = 76 \/ p = 85)) \/ (at_ v 4 <> 80 /\ at_ v 4 = p) -> In p pgs) -> type_name (b0 :: b1 :: b2 :: r)).
    { intros base n pgs Ik Eb V3 Hn V4 Hp. destruct Q as [Q|[->|[(i & -> & Hi)|(i & p & -> & Hi & Hq)]]].
      - lia.
      - rewrite Eb. eapply type_only. exact Ik.
      - change ([b0; b1; b2] ++ [i]) with (b0 :: b1 :: b2 :: [i]). change (b0 :: b1 :: b2 :: [i]) with ([b0; b1; b2] ++ [i]). rewrite Eb.
        replace i with (48 + (i - 48)) by lia. eapply type_bank; [exact Ik|lia].
      - change (b0 :: b1 :: b2 :: [i; p]) with ([b0; b1; b2] ++ [i; p]). rewrite Eb.
        replace i with (48 + (i - 48)) by lia. eapply type_page; [exact Ik|lia|]. apply Hp. destruct Hq as [Hq|Hq]; [lia|exact Hq]. }
    destruct I as [<-|I]; [right; apply (U (text "PRG")); [cbn; auto|rewrite E0, E1, E2; reflexivity]|].
    destruct I as [<-|I]; [right; apply (U (text "MEM")); [cbn; auto|rewrite E0, E1, E2; reflexivity]|].
    destruct I as [<-|I]; [left; apply (G (text "BGU") 4 [85; 76]); [cbn; auto 20|rewrite E0, E1, E2; reflexivity|reflexivity|lia|intro W; discriminate W|]|].
    { intros p [(_ & [->| ->])|(W & _)]; [cbn; auto|cbn; auto|exfalso; apply W; reflexivity]. }
    destruct I as [<-|I]; [left; apply (G (text "BGD") 2 [85; 76]); [cbn; auto 20|rewrite E0, E1, E2; reflexivity|reflexivity|lia|intro W; discriminate W|]|].
    { intros p [(_ & [->| ->])|(W & _)]; [cbn; auto|cbn; auto|exfalso; apply W; reflexivity]. }
    destruct I as [<-|I]; [left; apply (G (text "BGF") 1 [85; 76]); [cbn; auto 20|rewrite E0, E1, E2; reflexivity|reflexivity|lia|intro W; discriminate W|]|].
    { intros p [(_ & [->| ->])|(W & _)]; [cbn; auto|cbn; auto|exfalso; apply W; reflexivity]. }
    destruct I as [<-|I]; [left; apply (G (text "SPU") 8 [85]); [cbn; auto 20|rewrite E0, E1, E2; reflexivity|reflexivity|lia|intro W; discriminate W|]|].
    { intros p [(W & _)|(_ & <-)]; [discriminate W|cbn; auto]. }
    destruct I as [<-|I]; [left; apply (G (text "SPS") 2 [85; 76]); [cbn; auto 20|rewrite E0, E1, E2; reflexivity|reflexivity|lia|intro W; discriminate W|]|].
    { intros p [(_ & [->| ->])|(W & _)]; [cbn; auto|cbn; auto|exfalso; apply W; reflexivity]. }
    destruct I as [<-|I]; [left; apply (G (text "SPD") 4 [76]); [cbn; auto 20|rewrite E0, E1, E2; reflexivity|reflexivity|lia|intro W; discriminate W|]|].
    { intros p [(W & _)|(_ & <-)]; [discriminate W|cbn; auto]. }
    destruct I as [<-|I]; [left; apply (G (text "COL") 3 [85; 76]); [cbn; auto 20|rewrite E0, E1, E2; reflexivity|reflexivity|lia|intro W; discriminate W|]|].
    { intros p [(_ & [->| ->])|(W & _)]; [cbn; auto|cbn; auto|exfalso; apply W; reflexivity]. }
    destruct I as [<-|I]; [left; apply (G (text "SCU") 2 [85; 76]); [cbn; auto 20|rewrite E0, E1, E2; reflexivity|reflexivity|lia|intro W; discriminate W|]|].
    { intros p [(_ & [->| ->])|(W & _)]; [cbn; auto|cbn; auto|exfalso; apply W; reflexivity]. }
    destruct I as [<-|[]]. assert (Eb : [b0; b1; b2] = text "GRP") by (rewrite E0, E1, E2; reflexivity).
    change (at_ (zs "GRP3") 3) with 51 in Q. destruct Q as [Q|[->|[(i & -> & Hi)|(i & p & -> & Hi & _)]]]; [lia| | |].
    + left. rewrite Eb. eapply type_only with (n := 4) (pgs := None). cbn. auto 20.
    + left. change (b0 :: b1 :: b2 :: [i]) with ([b0; b1; b2] ++ [i]). rewrite Eb. replace i with (48 + (i - 48)) by lia.
      eapply type_bank with (n := 4) (pgs := None); [cbn; auto 20|lia].
    + right. change (b0 :: b1 :: b2 :: [i; p]) with ([b0; b1; b2] ++ [i; p]). rewrite Eb. replace i with (48 + (i - 48)) by lia.
      apply lax_grp; [lia|]. intros ->. apply X. cbn. auto 10.
  - intros [T|T].
    + destruct T as [base n pgs I|base n pgs b I B|base n pgs b pg I B P].
      * unfold kinds in I.
        assert (G : forall v, In v valid_resource_types -> base = [at_ v 0; at_ v 1; at_ v 2] -> exists v, In v valid_resource_types /\ entry_accepts v base).
        { intros v Iv ->. exists v. split; [exact Iv|]. do 4 eexists. split; [reflexivity|]. auto 10. }
        destruct I as [I|[I|[I|[I|[I|[I|[I|[I|[I|[]]]]]]]]]]; injection I as <- _ _.
        -- apply (G (zs "BGU3P")); [cbn; auto 20|reflexivity].
        -- apply (G (zs "BGD1P")); [cbn; auto 20|reflexivity].
        -- apply (G (zs "BGF0P")); [cbn; auto 20|reflexivity].
        -- apply (G (zs "SPU7U")); [cbn; auto 20|reflexivity].
        -- apply (G (zs "SPS1P")); [cbn; auto 20|reflexivity].
        -- apply (G (zs "SPD3L")); [cbn; auto 20|reflexivity].
        -- apply (G (zs "COL2P")); [cbn; auto 20|reflexivity].
        -- apply (G (zs "SCU1P")); [cbn; auto 20|reflexivity].
        -- apply (G (zs "GRP3")); [cbn; auto 20|reflexivity].
      * unfold kinds in I.
        assert (G : forall v, In v valid_resource_types -> base = [at_ v 0; at_ v 1; at_ v 2] -> at_ v 3 = 47 + n -> exists v, In v valid_resource_types /\ entry_accepts v (base ++ [48 + b])).
        { intros v Iv -> V3. exists v. split; [exact Iv|]. do 4 eexists. split; [reflexivity|]. split; [auto|]. split; [auto|]. split; [auto|].
          right. right. left. eexists. split; [reflexivity|lia]. }
        destruct I as [I|[I|[I|[I|[I|[I|[I|[I|[I|[]]]]]]]]]]; injection I as <- <- _.
        -- apply (G (zs "BGU3P")); [cbn; auto 20|reflexivity|reflexivity].
        -- apply (G (zs "BGD1P")); [cbn; auto 20|reflexivity|reflexivity].
        -- apply (G (zs "BGF0P")); [cbn; auto 20|reflexivity|reflexivity].
        -- apply (G (zs "SPU7U")); [cbn; auto 20|reflexivity|reflexivity].
        -- apply (G (zs "SPS1P")); [cbn; auto 20|reflexivity|reflexivity].
        -- apply (G (zs "SPD3L")); [cbn; auto 20|reflexivity|reflexivity].
        -- apply (G (zs "COL2P")); [cbn; auto 20|reflexivity|reflexivity].
        -- apply (G (zs "SCU1P")); [cbn; auto 20|reflexivity|reflexivity].
        -- apply (G (zs "GRP3")); [cbn; auto 20|reflexivity|reflexivity].
      * unfold kinds in I.
        assert (G : forall v, In v valid_resource_types -> base = [at_ v 0; at_ v 1; at_ v 2] -> at_ v 3 = 47 + n ->
           (at_ v 4 = 80 /\ (pg = 76 \/ pg = 85) \/ at_ v 4 <> 80 /\ at_ v 4 = pg) ->
           exists v, In v valid_resource_types /\ entry_accepts v (base ++ [48 + b; pg])).
        { intros v Iv -> V3 V4. exists v. split; [exact Iv|]. do 4 eexists. split; [reflexivity|]. split; [auto|]. split; [auto|]. split; [auto|].
          right. right. right. do 2 eexists. split; [reflexivity|]. split; [lia|]. right. exact V4. }
        assert (UL : In pg [85; 76] -> 80 = 80 /\ (pg = 76 \/ pg = 85) \/ 80 <> 80 /\ 80 = pg) by (intros [<-|[<-|[]]]; auto).
        assert (Uu : In pg [85] -> 85 = 80 /\ (pg = 76 \/ pg = 85) \/ 85 <> 80 /\ 85 = pg) by (intros [<-|[]]; right; lia).
        assert (Ll : In pg [76] -> 76 = 80 /\ (pg = 76 \/ pg = 85) \/ 76 <> 80 /\ 76 = pg) by (intros [<-|[]]; right; lia).
        destruct I as [I|[I|[I|[I|[I|[I|[I|[I|[I|[]]]]]]]]]]; try discriminate I; injection I as <- <- <-.
        -- apply (G (zs "BGU3P")); [cbn; auto 20|reflexivity|reflexivity|exact (UL P)].
        -- apply (G (zs "BGD1P")); [cbn; auto 20|reflexivity|reflexivity|exact (UL P)].
        -- apply (G (zs "BGF0P")); [cbn; auto 20|reflexivity|reflexivity|exact (UL P)].
        -- apply (G (zs "SPU7U")); [cbn; auto 20|reflexivity|reflexivity|exact (Uu P)].
        -- apply (G (zs "SPS1P")); [cbn; auto 20|reflexivity|reflexivity|exact (UL P)].
        -- apply (G (zs "SPD3L")); [cbn; auto 20|reflexivity|reflexivity|exact (Ll P)].
        -- apply (G (zs "COL2P")); [cbn; auto 20|reflexivity|reflexivity|exact (UL P)].
        -- apply (G (zs "SCU1P")); [cbn; auto 20|reflexivity|reflexivity|exact (UL P)].
    + destruct T as [base rest I L' X'|b pg B P].
      * assert (G : forall v, In v valid_resource_types -> base = [at_ v 0; at_ v 1; at_ v 2] -> at_ v 3 = 0 -> exists v, In v valid_resource_types /\ entry_accepts v (base ++ rest)).
        { intros v Iv -> V3. exists v. split; [exact Iv|]. do 4 eexists. split; [reflexivity|]. auto 10. }
        destruct I as [<-|[<-|[]]]; [apply (G (zs "PRG"))|apply (G (zs "MEM"))]; cbn; auto 20.
      * exists (zs "GRP3"). split; [cbn; auto 20|]. do 4 eexists. split; [reflexivity|]. split; [auto|]. split; [auto|]. split; [auto|].
        right. right. right. do 2 eexists. split; [reflexivity|]. split; [change (at_ (zs "GRP3") 3) with 51; lia|]. left. reflexivity.
Qed.
Lemma type_name_len t : type_name t \/ lax_type_name t -> (length t <= 5)%nat.
Proof.
  assert (K : forall base n pgs, In (base, n, pgs) kinds -> length base = 3%nat).
  { intros base n pgs I. unfold kinds in I. repeat (destruct I as [I|I]; [injection I as <- _ _; reflexivity|]). destruct I. }
  intros [T|T].
  - destruct T as [base n pgs I|base n pgs b I B|base n pgs b pg I B P]; apply K in I; rewrite ?app_length, I; cbn; lia.
  - destruct T as [base rest I L X|b pg B P]; rewrite app_length; [|cbn; lia].
    destruct I as [<-|[<-|[]]]; cbn in *; lia.
Qed.

Theorem accepts_spec s : ~ In 0 s ->
  verify_resource_name s = true <-> resource_name (fun t => type_name t \/ lax_type_name t) s.
Proof.
  intro Z0. unfold verify_resource_name, resource_name. destruct (strchr s) as [k|] eqn:E.
  - destruct (strchr_some s k E) as (t & n & -> & L & X).
    assert (Sk : skipn (S k) (t ++ [58] ++ n) = n).
    { subst k. replace (S (length t)) with (length (t ++ [58])) by (rewrite app_length; cbn; lia).
      rewrite app_assoc, skipn_app, skipn_all, Nat.sub_diag. reflexivity. }
    rewrite Sk. unfold verify_resource_type. rewrite E. clear Sk.
    assert (T0 : ~ In 0 t) by (intro I; apply Z0; apply in_or_app; left; exact I).
    assert (NF : ~ file_name (t ++ [58] ++ n)).
    { intros (_ & F). rewrite Forall_forall in F. specialize (F 58). assert (name_char 58) as Y by (apply F; apply in_or_app; right; left; reflexivity).
      unfold name_char in Y. lia. }
    split.
    + intro V. destruct (Nat.ltb_spec 5 k); [discriminate V|].
      destruct (type_loop valid_resource_types (t ++ [58] ++ n)) eqn:TL; [|discriminate V].
      right. exists t, n. split; [reflexivity|]. split; [|apply name_part_spec; exact V].
      apply (type_loop_spec _ t n valid_types_ok) in TL; auto; [|lia]. apply accepts_types in TL; auto. lia.
    + intros [F|(t' & n' & Eq & T & F)]; [contradiction|].
      assert (X' : ~ In 58 t') by (apply type_name_noSep; exact T).
      assert (t' = t /\ n' = n) as [-> ->].
      { assert (strchr (t' ++ [58] ++ n') = Some (length t')) as E' by (apply strchr_app; exact X').
        rewrite <- Eq, E in E'. injection E' as E'. rewrite <- L in E'.
        assert (firstn (length t) (t ++ [58] ++ n) = firstn (length t') (t' ++ [58] ++ n')) as Q by (rewrite Eq, E'; reflexivity).
        rewrite !firstn_app, !firstn_all, !Nat.sub_diag in Q. cbn [firstn] in Q. rewrite !app_nil_r in Q. subst t'.
        split; [reflexivity|]. apply app_inv_head in Eq. cbn in Eq. injection Eq as ->. reflexivity. }
      assert (L5 := type_name_len t T).
      destruct (Nat.ltb_spec 5 k); [lia|].
      assert (type_loop valid_resource_types (t ++ [58] ++ n) = true) as ->.
      { apply type_loop_spec; auto using valid_types_ok. apply accepts_types; auto. }
      apply name_part_spec. exact F.
  - apply strchr_none in E. rewrite name_part_spec. split; [auto|].
    intros [F|(t & n & -> & _)]; [exact F|]. exfalso. apply E. apply in_or_app. right. left. reflexivity.
Qed.
