(** The lexer reads a spelled line as its tokens. *)
From Coq Require Import String Ascii.
From Verif Require Import Base BaseLemmas Tokens Bytecode Lexer LexSpec.
From Coq Require Import Lia ZArith List Bool Arith.
Import ListNotations.
Open Scope Z_scope.

(** * Characters *)
Lemma upper_upcase c : to_upper c = upcase c.
Proof. reflexivity. Qed.
Lemma name_start_letter c : is_name_start c = letter c.
Proof. reflexivity. Qed.
Lemma name_char c : is_name_char c = letter c || digit c.
Proof. unfold is_name_char, letter, is_alpha, is_upper, is_lower, digit, is_digit. repeat match goal with |- context [?a && ?b] => destruct (a && b) end; destruct (c =? 95); reflexivity. Qed.
Lemma varname_char c : is_varname c = letter c || digit c || (c =? 36).
Proof. unfold is_varname. now rewrite name_char. Qed.

(** * Tables *)
Definition pad8 (n : list Z) : list Z := n ++ repeat 32 (8 - length n).
Definition clean_name (n : list Z) : bool := negb (Nat.eqb (length n) 0) && (length n <=? 8)%nat && forallb (fun c => negb (c =? 32) && negb (c =? 0)) n.
Fixpoint pos (w : list Z) (l : list (list Z)) : option nat :=
  match l with [] => None | n :: r => if list_eq_dec Z.eq_dec w n then Some 0%nat else option_map S (pos w r) end.
Lemma same_chars_spec s str : same_chars s str = true <-> map to_upper s = firstn (length s) str /\ (length s <= length str)%nat.
Proof.
  revert str; induction s as [|c s IH]; intros [|d str]; cbn; try (split; [intros; split; [reflexivity|lia]|reflexivity]).
  - split; [discriminate|]. intros (A & _); discriminate.
  - rewrite andb_true_iff, Z.eqb_eq, IH. split; [intros (-> & A & B); split; [now rewrite A|lia]|intros (A & B); injection A as -> A; split; [reflexivity|split; [exact A|lia]]].
Qed.
Lemma pad8_length n : (length n <= 8)%nat -> length (pad8 n) = 8%nat.
Proof. intros L. unfold pad8. rewrite app_length, repeat_length. lia. Qed.
Definition no_blank (s : list Z) : Prop := Forall (fun c => c <> 32 /\ c <> 0) (map to_upper s).

Lemma clean_spec n : clean_name n = true -> n <> [] /\ (length n <= 8)%nat /\ Forall (fun c => c <> 32 /\ c <> 0) n.
Proof.
  unfold clean_name. rewrite !andb_true_iff, negb_true_iff, Nat.eqb_neq, Nat.leb_le, forallb_forall. intros ((A & B) & C). split; [|split; [exact B|]].
  - intros ->. now apply A.
  - apply Forall_forall. intros c J. specialize (C c J). rewrite andb_true_iff, !negb_true_iff, !Z.eqb_neq in C. exact C.
Qed.
Lemma match_short s n rest : clean_name n = true -> no_blank s -> s <> [] -> (length s <= 8)%nat ->
  match_here s (pad8 n ++ rest) = if list_eq_dec Z.eq_dec (map to_upper s) n then true else false.
Proof.
  intros C B NE L. destruct (clean_spec _ C) as (N1 & N2 & N3). pose proof (pad8_length n N2) as PL.
  assert (EQ : match_here s (pad8 n ++ rest) = true <-> map to_upper s = n).
  { unfold match_here. rewrite andb_true_iff, same_chars_spec, app_length, PL.
    split.
    - intros ((A & _) & D). rewrite firstn_app in A. replace (length s - length (pad8 n))%nat with 0%nat in A by lia. rewrite firstn_O, app_nil_r in A.
      unfold pad8 in A, D.
      assert (Ls : length (map to_upper s) = length s) by apply map_length.
      destruct (Nat.lt_trichotomy (length s) (length n)) as [X|[X|X]].
      + exfalso. cbv zeta in D. rewrite (proj2 (Nat.ltb_lt _ _)) in D by lia. cbn [andb] in D.
        rewrite <- app_assoc, app_nth1 in D by lia. rewrite Forall_forall in N3.
        specialize (N3 (nth (length s) n 0) (nth_In _ _ X)). destruct (Z.eqb_spec (nth (length s) n 0) 32), (Z.eqb_spec (nth (length s) n 0) 0); cbn in D; try discriminate; lia.
      + rewrite X, firstn_app, Nat.sub_diag, firstn_O, app_nil_r, firstn_all in A. exact A.
      + exfalso. unfold no_blank in B. rewrite A, Forall_forall in B. specialize (B 32). destruct B as (B & _); [|congruence].
        rewrite firstn_app. apply in_or_app. right. destruct (length s - length n)%nat eqn:Z1; [lia|]. destruct (8 - length n)%nat eqn:Z2; [lia|]. now left.
    - intros E. assert (X : length s = length n) by (rewrite <- E; symmetry; apply map_length). split; [split; [|lia]|].
      + rewrite E, X. unfold pad8. rewrite <- app_assoc, firstn_app, Nat.sub_diag, firstn_O, app_nil_r, firstn_all. reflexivity.
      + cbv zeta. destruct (Nat.ltb_spec (length s) 8); [|reflexivity]. cbn [andb]. unfold pad8. rewrite <- app_assoc, app_nth2 by lia. rewrite X, Nat.sub_diag.
        destruct (8 - length n)%nat eqn:Z2; [lia|]. reflexivity. }
  destruct (list_eq_dec Z.eq_dec (map to_upper s) n) as [E|E]; [now apply EQ|]. destruct (match_here s (pad8 n ++ rest)); [|reflexivity]. exfalso. apply E, EQ, eq_refl.
Qed.
Lemma match_long s n rest : clean_name n = true -> no_blank s -> (8 < length s)%nat -> match_here s (pad8 n ++ rest) = true -> firstn 8 (map to_upper s) = n.
Proof.
  intros C B L M. destruct (clean_spec _ C) as (N1 & N2 & N3). pose proof (pad8_length n N2) as PL.
  unfold match_here in M. apply andb_true_iff in M as (M & _). apply same_chars_spec in M as (M & _).
  assert (F : firstn 8 (map to_upper s) = pad8 n).
  { rewrite M, firstn_firstn. replace (Nat.min 8 (length s)) with 8%nat by lia. rewrite firstn_app, PL, Nat.sub_diag, firstn_O, app_nil_r. rewrite <- PL at 1. apply firstn_all. }
  assert (Fb : Forall (fun c => c <> 32 /\ c <> 0) (pad8 n)).
  { rewrite <- F. apply Forall_forall. intros c J. unfold no_blank in B. rewrite Forall_forall in B. apply B. rewrite <- (firstn_skipn 8 (map to_upper s)). apply in_or_app. now left. }
  rewrite F. unfold pad8 in *. apply Forall_app in Fb as (_ & Fb). destruct (8 - length n)%nat; [apply app_nil_r|]. inversion Fb; subst. destruct H1; congruence.
Qed.

Lemma skip8 n rest : (length n <= 8)%nat -> skipn 8 (pad8 n ++ rest) = rest.
Proof. intros L. rewrite skipn_app, pad8_length by exact L. rewrite Nat.sub_diag. rewrite skipn_all2 by (rewrite pad8_length; lia). reflexivity. Qed.
Lemma find_short names s : forallb clean_name names = true -> no_blank s -> s <> [] -> (length s <= 8)%nat ->
  forall fuel i, (length names <= fuel)%nat -> names <> [] -> find_index fuel s (concat (map pad8 names)) i = option_map (fun k => i + Z.of_nat k) (pos (map to_upper s) names).
Proof.
  intros C B NE L. induction names as [|n names IH]; intros fuel i F N; [congruence|]. cbn [forallb] in C. apply andb_true_iff in C as (C1 & C2).
  destruct fuel as [|fuel]; [cbn in F; lia|]. cbn [find_index map concat pos]. rewrite (match_short _ _ _ C1 B NE L).
  destruct (list_eq_dec Z.eq_dec (map to_upper s) n); [cbn; now rewrite Z.add_0_r|].
  destruct (clean_spec _ C1) as (_ & N2 & _). rewrite skip8 by exact N2.
  destruct names as [|n2 names].
  - cbn. reflexivity.
  - cbn in F. destruct (concat (map pad8 (n2 :: names))) eqn:E.
    + exfalso. apply (f_equal (@length Z)) in E. cbn [map concat] in E. rewrite app_length in E. cbn [forallb] in C2. apply andb_true_iff in C2 as (C3 & _).
      destruct (clean_spec _ C3) as (_ & N3 & _). rewrite pad8_length in E by exact N3. cbn in E. lia.
    + rewrite IH; [|exact C2|cbn; lia|discriminate]. destruct (pos (map to_upper s) (n2 :: names)); cbn [option_map]; [|reflexivity]. f_equal. lia.
Qed.
Lemma find_none names s : forallb clean_name names = true -> no_blank s -> s <> [] -> ~ In (firstn 8 (map to_upper s)) names ->
  forall fuel i, find_index fuel s (concat (map pad8 names)) i = None.
Proof.
  intros C B NE NI. induction names as [|n names IH]; intros fuel i.
  - destruct fuel; [reflexivity|]. cbn. unfold match_here. destruct s; [congruence|]. reflexivity.
  - destruct fuel; [reflexivity|]. cbn [forallb] in C. apply andb_true_iff in C as (C1 & C2). cbn [find_index map concat].
    assert (M : match_here s (pad8 n ++ concat (map pad8 names)) = false).
    { destruct (match_here s (pad8 n ++ concat (map pad8 names))) eqn:M; [|reflexivity]. exfalso. apply NI. left.
      destruct (Nat.le_gt_cases (length s) 8) as [L|L].
      - rewrite match_short in M by assumption. destruct (list_eq_dec Z.eq_dec (map to_upper s) n) as [<-|]; [|discriminate].
        symmetry. apply firstn_all2. now rewrite map_length.
      - symmetry. eapply match_long; eassumption. }
    rewrite M. destruct (clean_spec _ C1) as (_ & N2 & _). rewrite skip8 by exact N2.
    destruct (concat (map pad8 names)) eqn:E; [reflexivity|]. apply IH; [exact C2|]. intros J. apply NI. now right.
Qed.

Lemma tables : commands = concat (map pad8 command_names) /\ functions = concat (map pad8 function_names) /\ bc_conv_operations = concat (map pad8 operator_names)
  /\ labels = concat (map pad8 [letters "LABEL"]) /\ comments = concat (map pad8 [letters "REM"]) /\ sysvars = concat (map pad8 sysvar_names).
Proof. repeat split; vm_compute; reflexivity. Qed.
Lemma all_clean : forallb clean_name reserved = true.
Proof. vm_compute. reflexivity. Qed.
Fixpoint nodupb (l : list (list Z)) : bool := match l with [] => true | n :: r => negb (existsb (fun m => if list_eq_dec Z.eq_dec n m then true else false) r) && nodupb r end.
Lemma reserved_nodup : NoDup reserved.
Proof.
  assert (G : nodupb reserved = true) by (vm_compute; reflexivity). revert G. induction reserved as [|n l IH]; intros G; [constructor|].
  cbn in G. apply andb_true_iff in G as (G1 & G2). constructor; [|now apply IH].
  intros J. apply negb_true_iff in G1. rewrite <- not_true_iff_false in G1. apply G1. apply existsb_exists. exists n. split; [exact J|]. destruct (list_eq_dec Z.eq_dec n n); congruence.
Qed.
Lemma pos_none w l : ~ In w l -> pos w l = None.
Proof. induction l as [|n l IH]; cbn; intros N; [reflexivity|]. destruct (list_eq_dec Z.eq_dec w n); [exfalso; apply N; left; congruence|]. rewrite IH; auto. Qed.
Lemma pos_nth w l i : NoDup l -> nth_error l i = Some w -> pos w l = Some i.
Proof.
  intros D; revert i; induction D as [|n l N D IH]; intros [|i] E; cbn in *; try discriminate.
  - injection E as ->. destruct (list_eq_dec Z.eq_dec w w); congruence.
  - destruct (list_eq_dec Z.eq_dec w n) as [->|]; [exfalso; apply N; eapply nth_error_In; eassumption|]. now rewrite (IH i E).
Qed.

(** * Words *)
Lemma upcase_range c : (letter c || digit c || (c =? 36)) = true -> upcase c <> 32 /\ upcase c <> 0 /\ 0 < c < 128.
Proof.
  unfold letter, digit, upcase. intros E. destruct ((97 <=? c) && (c <=? 122)) eqn:X; lia.
Qed.
Lemma wordlike_chars s : wordlike s -> s <> [] /\ forallb (fun c => letter c || digit c || (c =? 36)) s = true /\ no_blank s.
Proof.
  destruct s as [|c r]; cbn [wordlike]; [contradiction|]. intros (A & B). split; [discriminate|].
  assert (F : forallb (fun c => letter c || digit c || (c =? 36)) (c :: r) = true) by (cbn; now rewrite A, B).
  split; [exact F|]. unfold no_blank. apply Forall_forall. intros x J. apply in_map_iff in J as (y & <- & J). rewrite forallb_forall in F. specialize (F y J).
  apply upcase_range in F. rewrite upper_upcase. tauto.
Qed.
(** every reserved word that begins with a letter is a word: so is a text with the same capitals *)
Definition wordb (n : list Z) : bool := match n with c :: r => letter c && forallb (fun c => letter c || digit c || (c =? 36)) r | [] => false end.
Lemma upcase_letter c : letter (upcase c) = letter c.
Proof. unfold letter, upcase. destruct ((97 <=? c) && (c <=? 122)) eqn:X; lia. Qed.
Lemma upcase_word c : letter (upcase c) || digit (upcase c) || (upcase c =? 36) = letter c || digit c || (c =? 36).
Proof. rewrite upcase_letter. unfold letter, digit, upcase. destruct ((97 <=? c) && (c <=? 122)) eqn:X; lia. Qed.
Lemma word_capitals s : wordb (capitals s) = true -> wordlike s.
Proof.
  destruct s as [|c r]; cbn; [discriminate|]. rewrite andb_true_iff, upcase_letter. intros (A & B). split; [exact A|].
  rewrite forallb_forall in *. intros x J. rewrite <- upcase_word. apply B. unfold capitals. now apply in_map.
Qed.

(** * Running over characters *)
Lemma span_app f s l : forallb f s = true -> f (first l) = false -> l <> [] -> span f (s ++ l) = (s, l).
Proof.
  intros A B N. induction s as [|c s IH]; cbn [app span].
  - destruct l as [|d l]; [congruence|]. cbn in B |- *. now rewrite B.
  - cbn in A. apply andb_true_iff in A as (A1 & A2). rewrite A1, IH by exact A2. reflexivity.
Qed.
Lemma take_while_app f c s l : forallb f s = true -> f (first l) = false -> l <> [] -> take_while f ((c :: s) ++ l) = Ok (c :: s, l).
Proof. intros A B N. cbn [take_while app]. rewrite span_app by assumption. destruct l; [congruence|reflexivity]. Qed.
Lemma span_ext f g l : (forall c, f c = g c) -> span f l = span g l.
Proof. intros E. induction l as [|c l IH]; cbn; [reflexivity|]. rewrite E, IH. reflexivity. Qed.
Lemma take_while_ext f g l : (forall c, f c = g c) -> take_while f l = take_while g l.
Proof. intros E. destruct l; cbn; [reflexivity|]. now rewrite (span_ext f g). Qed.
Lemma forallb_ext {A} (f g : A -> bool) l : (forall c, f c = g c) -> forallb f l = forallb g l.
Proof. intros E. induction l; cbn; congruence. Qed.
Lemma len8_small s : (length s <= 255)%nat -> len8 s = len s.
Proof. intros L. unfold len8, len, u8. change (2 ^ 8) with 256. apply Z.mod_small. lia. Qed.
Lemma put_ok ts t : (length ts < 100)%nat -> put ts t = Ok (ts ++ [t]).
Proof. intros L. unfold put, TOKENS_LINE_MAX. destruct (Z.ltb_spec (Z.of_nat (length ts)) 100); [reflexivity|lia]. Qed.
Lemma go_ok ts t com rest : (length ts < 100)%nat -> go ts t com rest = Ok (Go (ts ++ [t]) com rest).
Proof. intros L. unfold go. now rewrite put_ok. Qed.
Lemma spelled_nonempty l ts : spelled l ts -> l <> [].
Proof.
  induction 1; try discriminate; try (intros E; apply app_eq_nil in E as (_ & E); congruence).
  - intros E. apply app_eq_nil in E as (_ & E). discriminate.
  - intros E. apply app_eq_nil in E as (_ & E). destruct r; discriminate.
  - intros E. apply app_eq_nil in E as (_ & E). destruct r; discriminate.
Qed.

Definition keyword_or_name (s : list Z) : list (list Z) -> option Z := fun names => option_map Z.of_nat (pos (capitals s) names).
Lemma index_short table names s : table = concat (map pad8 names) -> forallb clean_name names = true -> names <> [] -> wordlike s -> (length s <= 8)%nat ->
  tok_in_str_index table s = option_map Z.of_nat (pos (capitals s) names).
Proof.
  intros -> C N W L. destruct (wordlike_chars s W) as (NE & _ & B). unfold tok_in_str_index.
  rewrite (find_short names s C B NE L); [|clear - C; induction names as [|n names IH]; [cbn; lia|]|exact N].
  - change (map to_upper s) with (capitals s). destruct (pos (capitals s) names); reflexivity.
  - cbn [forallb] in C. apply andb_true_iff in C as (C1 & C2). cbn [map concat]. rewrite app_length. destruct (clean_spec _ C1) as (_ & L8 & _). rewrite pad8_length by exact L8. specialize (IH C2). cbn [length]. lia.
Qed.
Lemma index_none table names s : table = concat (map pad8 names) -> forallb clean_name names = true -> wordlike s -> ~ In (firstn 8 (capitals s)) names ->
  tok_in_str_index table s = None.
Proof. intros -> C W N. destruct (wordlike_chars s W) as (NE & _ & B). unfold tok_in_str_index. now apply find_none. Qed.

Lemma nodup_split {A} (a b : list A) : NoDup (a ++ b) -> NoDup a /\ NoDup b /\ (forall x, In x a -> ~ In x b) /\ (forall x, In x b -> ~ In x a).
Proof.
  intros N. assert (D : forall x, In x a -> ~ In x b).
  { induction a as [|y a IH]; cbn in *; intros x J K; [contradiction|]. inversion N; subst. destruct J as [->|J]; [apply H1; apply in_or_app; now right|]. eapply IH; eassumption. }
  repeat split; try (intros x J K; eapply D; eassumption).
  - clear D. induction a; [constructor|]. cbn in N. inversion N; subst. constructor; [|auto]. intros J; apply H1; apply in_or_app; now left.
  - clear D. induction a; [exact N|]. cbn in N. inversion N; subst. auto.
Qed.
Lemma clean_split a b : forallb clean_name (a ++ b) = true -> forallb clean_name a = true /\ forallb clean_name b = true.
Proof. rewrite forallb_app, andb_true_iff. auto. Qed.
Definition group (k : nat) : list (list Z) :=
  match k with 0 => command_names | 1 => function_names | 2 => operator_names | 3 => [letters "LABEL"] | 4 => [letters "REM"] | _ => sysvar_names end%nat.
Definition table (k : nat) : list Z := match k with 0 => commands | 1 => functions | 2 => bc_conv_operations | 3 => labels | 4 => comments | _ => sysvars end%nat.
Lemma groups_eq : concat (map group (seq 0 6)) = reserved.
Proof. vm_compute. reflexivity. Qed.
Lemma groups : NoDup (concat (map group (seq 0 6))) /\ forallb clean_name (concat (map group (seq 0 6))) = true.
Proof. rewrite groups_eq. exact (conj reserved_nodup all_clean). Qed.
Lemma in_group k w : (k < 6)%nat -> In w (group k) -> In w reserved.
Proof.
  intros L J. rewrite <- groups_eq. apply in_concat. exists (group k). split; [|exact J]. apply in_map, in_seq. lia.
Qed.
Lemma disjoint_list {A} (g : nat -> list A) s n : NoDup (concat (map g (seq s n))) ->
  (forall k, (s <= k < s + n)%nat -> NoDup (g k)) /\ (forall j k x, (s <= j < s + n)%nat -> (s <= k < s + n)%nat -> In x (g j) -> In x (g k) -> j = k).
Proof.
  revert s; induction n as [|n IH]; intros s N; [split; intros; lia|]. cbn [seq map concat] in N. apply nodup_split in N as (N1 & N2 & D1 & D2).
  destruct (IH (S s) N2) as (HA & HB).
  assert (Q : forall k x, (S s <= k < S s + n)%nat -> In x (g k) -> In x (concat (map g (seq (S s) n)))).
  { intros k x L J. apply in_concat. exists (g k). split; [|exact J]. apply in_map, in_seq. lia. }
  split.
  - intros k L. destruct (Nat.eq_dec k s) as [->|]; [exact N1|]. apply HA. lia.
  - intros j k x Lj Lk Jj Jk. destruct (Nat.eq_dec j s) as [->|], (Nat.eq_dec k s) as [->|]; try reflexivity.
    + exfalso. apply (D1 x Jj). apply (Q k); [lia|exact Jk].
    + exfalso. apply (D1 x Jk). apply (Q j); [lia|exact Jj].
    + apply (HB j k x); auto; lia.
Qed.
Lemma clean_group k : (k < 6)%nat -> forallb clean_name (group k) = true.
Proof. intros L. apply forallb_forall. intros x J. pose proof all_clean as C. rewrite forallb_forall in C. apply C. eapply in_group; eassumption. Qed.
Lemma table_group k : (k < 6)%nat -> table k = concat (map pad8 (group k)).
Proof. intros L. destruct tables as (A & B & C & D & E & F). destruct k as [|[|[|[|[|[|k]]]]]]; cbn [table group]; auto; lia. Qed.
Lemma group_nonempty k : group k <> [].
Proof. destruct k as [|[|[|[|[|[|k]]]]]]; discriminate. Qed.
(** a reserved word is found in its own table only *)
Lemma lookup_here s k i : (k < 6)%nat -> wordlike s -> nth_error (group k) i = Some (capitals s) ->
  (length s <= 8)%nat /\ forall j, (j < 6)%nat -> tok_in_str_index (table j) s = if Nat.eqb j k then Some (Z.of_nat i) else None.
Proof.
  intros L W E. pose proof (nth_error_In _ _ E) as J. pose proof (clean_group k L) as C. rewrite forallb_forall in C. destruct (clean_spec _ (C _ J)) as (_ & L8 & _).
  assert (Ls : (length s <= 8)%nat) by (rewrite <- (map_length upcase); exact L8). split; [exact Ls|].
  intros j Lj. destruct (disjoint_list group 0 6 (proj1 groups)) as (N & D).
  rewrite (index_short (table j) (group j)); [|now apply table_group|now apply clean_group|apply group_nonempty|exact W|exact Ls].
  destruct (Nat.eqb_spec j k) as [->|X].
  - rewrite (pos_nth _ _ i); [reflexivity|apply N; lia|exact E].
  - rewrite pos_none; [reflexivity|]. intros K. apply X. apply (D j k (capitals s)); auto; lia.
Qed.
Lemma lookup_none s : wordlike s -> ~ In (firstn 8 (capitals s)) reserved -> forall j, (j < 6)%nat -> tok_in_str_index (table j) s = None.
Proof.
  intros W N j L. apply (index_none (table j) (group j)); [now apply table_group|now apply clean_group|exact W|]. intros J. apply N. eapply in_group; eassumption.
Qed.

(** * One lexeme *)
Lemma continues_word s l : wordlike s -> continues s (first l) = false -> is_varname (first l) = false.
Proof. destruct s as [|c r]; cbn [wordlike]; [contradiction|]. intros (A & _). cbn [continues]. rewrite A, varname_char. auto. Qed.
Lemma word_taken s l : wordlike s -> l <> [] -> continues s (first l) = false -> take_while is_varname (s ++ l) = Ok (s, l).
Proof.
  intros W N C. pose proof (continues_word _ _ W C) as V. destruct s as [|c r]; [contradiction|]. destruct W as (A & B).
  apply take_while_app; auto. rewrite <- B. apply forallb_ext, varname_char.
Qed.
Lemma s8_id s : (length s <= 255)%nat -> firstn (Z.to_nat (len8 s)) s = s.
Proof. intros L. rewrite len8_small by exact L. unfold len. rewrite Nat2Z.id. apply firstn_all. Qed.
Lemma tok_name_word ts s l : wordlike s -> (length s <= 255)%nat -> l <> [] -> continues s (first l) = false -> (length ts < 100)%nat ->
  tok_name ts (s ++ l) =
  match tok_in_str_index (table 0) s with
  | Some i => if i =? CMD_DATA then go ts (mk command i 0 (line_rest (skipn 4 (s ++ l)))) true l else go ts (coded command i) false l
  | None => match tok_in_str_index (table 1) s with Some i => go ts (coded function i) false l
  | None => match tok_in_str_index (table 2) s with Some i => go ts (coded operation i) false l
  | None => match tok_in_str_index (table 3) s with Some _ => tok_label ts l
  | None => match tok_in_str_index (table 4) s with Some _ => go ts (word comment s) true l
  | None => match tok_in_str_index (table 5) s with Some i => go ts (coded sysvar i) false l
  | None => go ts (word name s) false l end end end end end end.
Proof.
  intros W L N C T. unfold tok_name. rewrite word_taken by assumption. cbn [bind]. rewrite put_ok by exact T. cbn [bind]. rewrite s8_id by exact L. reflexivity.
Qed.
Lemma tok_none_word ts s l : wordlike s -> tok_none ts false (s ++ l) = tok_name ts (s ++ l).
Proof.
  destruct s as [|c r]; [contradiction|]. intros (A & _). unfold tok_none. cbn [app].
  replace (c =? 13) with false by (unfold letter in A; lia). rewrite name_start_letter, A. reflexivity.
Qed.
Lemma words_of_group k i w : (k < 6)%nat -> k <> 2%nat -> nth_error (group k) i = Some w -> (k = 0%nat -> i <> 11%nat) -> wordb w = true.
Proof.
  intros L N E X.
  assert (G : forallb (fun k => forallb (fun i => match nth_error (group k) i with Some w => wordb w || Nat.eqb k 0 && Nat.eqb i 11 | None => true end) (seq 0 200)) [0; 1; 3; 4; 5]%nat = true) by (vm_compute; reflexivity).
  rewrite forallb_forall in G. assert (K : In k [0; 1; 3; 4; 5]%nat) by (cbn; lia). specialize (G k K). rewrite forallb_forall in G.
  assert (I2 : In i (seq 0 200)).
  { apply in_seq. assert (I3 : (i < length (group k))%nat) by (apply nth_error_Some; congruence).
    assert (G2 : forallb (fun k => (length (group k) <=? 200)%nat) (seq 0 6) = true) by (vm_compute; reflexivity). rewrite forallb_forall in G2.
    specialize (G2 k ltac:(apply in_seq; lia)). apply Nat.leb_le in G2. lia. }
  specialize (G i I2). rewrite E in G. apply orb_true_iff in G as [G|G]; [exact G|]. apply andb_true_iff in G as (G1 & G2). apply Nat.eqb_eq in G1, G2. tauto.
Qed.

(** operators written with symbols *)
Definition symbol (i : nat) : Prop := match i with 15 | 16 | 17 | 18 => False | 7 => False | _ => True end%nat.
Lemma capitals_symbol w s : forallb (fun c => negb (letter c)) w = true -> capitals s = w -> s = w.
Proof.
  intros F <-. symmetry. unfold capitals in *. rewrite forallb_forall in F. rewrite <- (map_id s) at 2. apply map_ext_in. intros c J.
  specialize (F (upcase c) (in_map upcase _ _ J)). rewrite upcase_letter in F. unfold upcase. destruct ((97 <=? c) && (c <=? 122)) eqn:E; [|reflexivity]. unfold letter in F. lia.
Qed.
Lemma operator_list : operator_names = [[43]; [44]; [45]; [42]; [47]; [59]; [61]; [40; 45; 41]; [61; 61]; [33; 61]; [60]; [62]; [60; 61]; [62; 61]; [37]; [65; 78; 68]; [79; 82]; [88; 79; 82]; [78; 79; 84]; [33]; [40]; [41]; [91]; [93]].
Proof. vm_compute. reflexivity. Qed.
Lemma sym1 ts c l : In c [44; 59; 43; 45; 42; 47; 37; 40; 41; 91; 93] -> tok_none ts false (c :: l) = go ts (coded operation (op_of [c])) false l.
Proof. cbn [In]. intros J. repeat (destruct J as [<-|J]; [reflexivity|]). contradiction. Qed.
Lemma sym2 ts c d l : In c [60; 61; 62; 33] -> d <> 61 -> tok_none ts false (c :: d :: l) = go ts (coded operation (op_of [c])) false (d :: l).
Proof.
  intros J N. apply Z.eqb_neq in N.
  assert (E : tok_none ts false (c :: d :: l) = if d =? 61 then go ts (coded operation (op_of [c; d])) false l else go ts (coded operation (op_of [c])) false (d :: l)).
  { cbn [In] in J. repeat (destruct J as [<-|J]; [reflexivity|]). contradiction. }
  now rewrite E, N.
Qed.
Lemma sym3 ts c l : In c [60; 61; 62; 33] -> tok_none ts false (c :: 61 :: l) = go ts (coded operation (op_of [c; 61])) false l.
Proof. cbn [In]. intros J. repeat (destruct J as [<-|J]; [reflexivity|]). contradiction. Qed.
Lemma op_codes : forallb (fun i => match nth_error operator_names i with Some w => Nat.eqb i 7 || (op_of w =? Z.of_nat i) | None => true end) (seq 0 24) = true.
Proof. vm_compute. reflexivity. Qed.
Lemma op_code i w : nth_error operator_names i = Some w -> i <> 7%nat -> op_of w = Z.of_nat i.
Proof.
  intros E D. pose proof op_codes as G. rewrite forallb_forall in G. specialize (G i). rewrite E in G.
  assert (I24 : (i < 24)%nat) by (change 24%nat with (length operator_names); apply nth_error_Some; congruence).
  specialize (G ltac:(apply in_seq; lia)). apply orb_true_iff in G as [G|G]; [apply Nat.eqb_eq in G; congruence|lia].
Qed.
Lemma symbol_step s i l ts : nth_error operator_names i = Some s -> forallb (fun c => negb (letter c)) s = true -> i <> 7%nat -> l <> [] -> continues s (first l) = false ->
  tok_none ts false (s ++ l) = go ts (coded operation (op_of s)) false l.
Proof.
  intros E O D N C. apply nth_error_In in E as J. rewrite operator_list in J.
  destruct l as [|d l]; [congruence|].
  assert (X : s <> [40; 45; 41]).
  { intros ->. apply D. destruct (disjoint_list group 0 6 (proj1 groups)) as (HA & _). pose proof (HA 2%nat ltac:(lia)) as ND. cbn [group] in ND.
    assert (E7 : nth_error operator_names 7 = Some [40; 45; 41]) by (rewrite operator_list; reflexivity).
    pose proof (pos_nth _ _ i ND E) as P1. pose proof (pos_nth _ _ 7%nat ND E7) as P2. congruence. }
  cbn [In] in J. repeat (destruct J as [<-|J]; [
    first [ discriminate O | congruence | apply sym1; cbn; tauto | apply sym3; cbn; tauto
          | apply sym2; [cbn; tauto|]; intros ->; discriminate C ] |]). contradiction.
Qed.
Lemma lexeme_step s t l ts : lexeme s t -> l <> [] -> continues s (first l) = false -> (length ts < 100)%nat ->
  tok_none ts false (s ++ l) = Ok (Go (ts ++ [t]) false l).
Proof.
  intros X N C T. destruct X as [s i W E D|s i E|s i E|s i E D| | |s W L R|s NE L F|s b NE L B F|s L Q1 Q2|s (NE & L & F)].
  - destruct (lookup_here s 0 i) as (L8 & K); auto; try lia. rewrite tok_none_word by exact W. rewrite tok_name_word by (auto; lia). rewrite K by lia. cbn [Nat.eqb].
    replace (Z.of_nat i =? CMD_DATA) with false by (unfold CMD_DATA; lia). now apply go_ok.
  - assert (W : wordlike s) by (apply word_capitals; apply (words_of_group 1 i); auto; lia).
    destruct (lookup_here s 1 i) as (L8 & K); auto; try lia. rewrite tok_none_word by exact W. rewrite tok_name_word by (auto; lia). rewrite !K by lia. cbn [Nat.eqb]. now apply go_ok.
  - assert (W : wordlike s) by (apply word_capitals; apply (words_of_group 5 i); auto; lia).
    destruct (lookup_here s 5 i) as (L8 & K); auto; try lia. rewrite tok_none_word by exact W. rewrite tok_name_word by (auto; lia). rewrite !K by lia. cbn [Nat.eqb]. now apply go_ok.
  - assert (O : wordb (capitals s) = true \/ forallb (fun c => negb (letter c)) (capitals s) = true).
    { assert (G : forallb (fun w => wordb w || forallb (fun c => negb (letter c)) w) operator_names = true) by (vm_compute; reflexivity).
      rewrite forallb_forall in G. apply nth_error_In in E. specialize (G _ E). now apply orb_true_iff. }
    destruct O as [O|O].
    + pose proof (word_capitals _ O) as W. destruct (lookup_here s 2 i) as (L8 & K); auto; try lia. rewrite tok_none_word by exact W. rewrite tok_name_word by (auto; lia). rewrite !K by lia. cbn [Nat.eqb]. now apply go_ok.
    + pose proof (capitals_symbol _ s O eq_refl) as S1. rewrite <- S1 in E, O. clear S1.
      rewrite (symbol_step s i) by assumption. rewrite (op_code i s) by assumption. now apply go_ok.
  - change (tok_none ts false (letters "?" ++ l)) with (go ts (coded command 0) false l). now apply go_ok.
  - change (tok_none ts false (letters ":" ++ l)) with (go ts (coded newline 1) false l). now apply go_ok.
  - rewrite tok_none_word by exact W. rewrite tok_name_word by (auto; lia). rewrite !(lookup_none s W R) by lia. rewrite go_ok by exact T. unfold word. now rewrite len8_small.
  - destruct s as [|c s]; [congruence|]. cbn in F. apply andb_true_iff in F as (F1 & F2).
    assert (Nl : letter c = false) by (unfold letter, digit in *; lia).
    cbn [continues] in C. rewrite Nl, F1 in C.
    unfold tok_none. cbn [app]. replace (c =? 13) with false by (unfold digit in F1; lia). rewrite name_start_letter, Nl.
    replace (c =? 63) with false by (unfold digit in F1; lia). replace (c =? 58) with false by (unfold digit in F1; lia). replace (c =? 32) with false by (unfold digit in F1; lia).
    replace (c =? 34) with false by (unfold digit in F1; lia). replace (c =? 38) with false by (unfold digit in F1; lia).
    change (is_digit c) with (digit c). rewrite F1. unfold tok_number.
    change (c :: s ++ l) with ((c :: s) ++ l). rewrite take_while_app by assumption. cbn [bind]. rewrite go_ok by exact T. unfold word. now rewrite len8_small.
  - cbn [continues letter digit] in C. change (letter 38) with false in C. change (digit 38 || (38 =? 46)) with false in C. cbn iota in C. change (38 =? 38) with true in C. cbn iota in C.
    unfold tok_none. cbn [app]. change (38 =? 13) with false. change (is_name_start 38) with false. change (38 =? 63) with false. change (38 =? 58) with false. change (38 =? 32) with false. change (38 =? 34) with false. change (38 =? 38) with true. cbn iota.
    unfold tok_base_number. destruct s as [|c s]; [congruence|]. cbn in F. apply andb_true_iff in F as (F1 & F2).
    change ((c :: s) ++ l) with ((c :: s) ++ l). rewrite (take_while_app _ c s l) by assumption. cbn [bind]. rewrite go_ok by exact T. unfold word. f_equal. f_equal. f_equal. f_equal. f_equal.
    rewrite len8_small by (cbn [length] in *; lia). unfold len. cbn [length]. lia.
  - unfold tok_none. cbn [app]. change (34 =? 13) with false. change (is_name_start 34) with false. change (34 =? 63) with false. change (34 =? 58) with false. change (34 =? 32) with false. change (34 =? 34) with true. cbn iota.
    unfold tok_string. cbn [tl]. rewrite <- app_assoc. rewrite span_app; [| |reflexivity|discriminate].
    + cbn [app]. change (34 =? 34) with true. cbn iota. rewrite go_ok by exact T. unfold word. now rewrite len8_small.
    + apply forallb_forall. intros c J. rewrite andb_true_iff, !negb_true_iff, !Z.eqb_neq. split; intros ->; contradiction.
  - unfold tok_none. cbn [app]. change (64 =? 13) with false. change (is_name_start 64) with false. change (64 =? 63) with false. change (64 =? 58) with false. change (64 =? 32) with false. change (64 =? 34) with false. change (64 =? 38) with false.
    change (is_digit 64 || (64 =? 46)) with false. change (existsb (Z.eqb 64) (zs ",;+-*/%()[]")) with false. change (existsb (Z.eqb 64) (zs "<=>!")) with false. change (64 =? 64) with true. cbn iota.
    cbn [continues] in C. change (letter 64) with false in C. change (digit 64 || (64 =? 46)) with false in C. change (64 =? 38) with false in C. change (64 =? 64) with true in C. cbn iota in C.
    destruct s as [|c s]; [congruence|]. cbn in F. apply andb_true_iff in F as (F1 & F2).
    rewrite (take_while_ext _ (fun c => letter c || digit c)) by apply name_char. rewrite take_while_app by assumption. cbn [bind].
    rewrite len8_small by lia. replace (16 <? len (c :: s)) with false by (unfold len; cbn [length] in *; lia).
    rewrite go_ok by exact T. unfold word. rewrite len8_small by lia. reflexivity.
Qed.

(** * Every step reads something *)
Definition shorter (src : list Z) (x : outcome lexed) : Prop :=
  match x with
  | Ok (Go _ _ r) | Ok (Line _ r) => (length r < length src)%nat
  | Ok (Bad _ r) => (length r <= length src)%nat
  | _ => True
  end.
Lemma span_length f l a b : span f l = (a, b) -> (length b <= length l)%nat.
Proof.
  revert a b; induction l as [|c l IH]; cbn; intros a b E; [injection E as <- <-; reflexivity|].
  destruct (f c); [|injection E as <- <-; reflexivity]. destruct (span f l) as (x & y). injection E as <- <-. specialize (IH _ _ eq_refl). cbn; lia.
Qed.
Lemma take_while_length f l a b : take_while f l = Ok (a, b) -> (length b < length l)%nat.
Proof.
  destruct l as [|c l]; cbn; [discriminate|]. destruct (span f l) as (x & y) eqn:E. destruct y; [discriminate|]. intros [= <- <-]. apply span_length in E. cbn in *. lia.
Qed.
Lemma go_shorter ts t com r src : (length r < length src)%nat -> shorter src (go ts t com r).
Proof. unfold go, put. destruct (_ <? _); cbn; auto. Qed.
Lemma skip_spaces_length l : (length (skip_spaces l) <= length l)%nat.
Proof.
  induction l as [|c l IH]; [cbn; lia|]. cbn [skip_spaces].
  repeat match goal with |- context [match ?x with _ => _ end] => destruct x end; cbn [length]; try lia.
Qed.
Lemma tok_label_shorter ts src rest : (length rest < length src)%nat -> shorter src (tok_label ts rest).
Proof.
  intros L. unfold tok_label. destruct rest as [|c r]; [exact I|]. destruct (negb (c =? 32)); [cbn in *; lia|].
  pose proof (skip_spaces_length r) as K. destruct (skip_spaces r) as [|d r']; [exact I|]. destruct (negb (is_name_char d)); [cbn in *; lia|].
  destruct (take_while is_name_char (d :: r')) as [[s rest]|?|] eqn:E; cbn [bind]; try exact I. apply take_while_length in E.
  destruct (16 <? len8 s); [cbn in *; lia|]. apply go_shorter. cbn in *. lia.
Qed.
Lemma tok_none_shorter ts com src : shorter src (tok_none ts com src).
Proof.
  destruct src as [|c r]; [exact I|]. unfold tok_none.
  assert (B : (length r < length (c :: r))%nat) by (cbn; lia).
  destruct (c =? 13). { unfold put. destruct (_ <? _); cbn; auto. }
  destruct com; [exact B|].
  destruct (is_name_start c).
  { unfold tok_name. destruct (take_while is_varname (c :: r)) as [[s rest]|?|] eqn:E; cbn [bind]; try exact I. apply take_while_length in E.
    destruct (put ts (word name s)); cbn [bind]; try exact I. cbv zeta.
    repeat match goal with |- context [match tok_in_str_index ?t ?s with _ => _ end] => destruct (tok_in_str_index t s) end; try (now apply go_shorter); try (now apply tok_label_shorter).
    destruct (_ =? CMD_DATA); now apply go_shorter. }
  destruct (c =? 63); [now apply go_shorter|]. destruct (c =? 58); [now apply go_shorter|]. destruct (c =? 32); [exact B|].
  destruct (c =? 34).
  { unfold tok_string. cbn [tl]. destruct (span _ r) as (s & rest) eqn:E. apply span_length in E. destruct rest as [|d rest]; [exact I|].
    apply go_shorter. destruct (d =? 34); cbn in *; lia. }
  destruct (c =? 38).
  { unfold tok_base_number. destruct r as [|b r]; [exact I|]. destruct (take_while _ r) as [[s rest]|?|] eqn:E; cbn [bind]; try exact I. apply take_while_length in E. apply go_shorter. cbn in *. lia. }
  destruct (_ || _).
  { unfold tok_number. destruct (take_while _ (c :: r)) as [[s rest]|?|] eqn:E; cbn [bind]; try exact I. apply take_while_length in E. now apply go_shorter. }
  destruct (existsb _ _); [now apply go_shorter|]. destruct (existsb _ _).
  { destruct r as [|d r]; [exact I|]. destruct (d =? 61); apply go_shorter; cbn in *; lia. }
  destruct (c =? 64).
  { destruct (take_while is_name_char r) as [[s rest]|?|] eqn:E; cbn [bind]; try exact I. apply take_while_length in E. destruct (16 <? len8 s); [cbn in *; lia|]. apply go_shorter. cbn in *. lia. }
  destruct (c =? 39); [exact B|]. cbn. lia.
Qed.
Lemma skip_line_length l r : skip_line l = Ok r -> (length r < length l)%nat.
Proof. revert r; induction l as [|c l IH]; cbn; intros r; [discriminate|]. destruct (c =? 13); [intros [= <-]; lia|]. intros E. specialize (IH _ E). lia. Qed.
Lemma lex_fuel f : forall g ts com src, (length src < f)%nat -> (length src < g)%nat -> lex_loop f ts com src = lex_loop g ts com src.
Proof.
  induction f as [|f IH]; intros g ts com src Lf Lg; [lia|]. destruct g as [|g]; [lia|]. cbn [lex_loop]. destruct src as [|c r]; [reflexivity|].
  pose proof (tok_none_shorter ts com (c :: r)) as X. destruct (tok_none ts com (c :: r)) as [[ts' com' rest|ts' rest|e rest]|e|]; cbn [bind shorter] in *; try reflexivity.
  - apply IH; lia.
  - rewrite (IH g [] false rest) by lia. reflexivity.
  - destruct (skip_line rest) as [r2|?|] eqn:E; cbn [bind]; try reflexivity. apply skip_line_length in E. rewrite (IH g [] false r2) by lia. reflexivity.
Qed.
Definition lexes (ts : list token) (com : bool) (src : list Z) : outcome (list line) := lex_loop (S (length src)) ts com src.
Lemma lexes_eq ts com src : src <> [] -> lexes ts com src =
  let* x := tok_none ts com src in
  match x with
  | Go ts com rest => lexes ts com rest
  | Line ts rest => let* ls := lexes [] false rest in Ok (Tokens ts :: ls)
  | Bad e rest => let* rest := skip_line rest in let* ls := lexes [] false rest in Ok (BadLine e :: ls)
  end.
Proof.
  intros N. unfold lexes at 1. cbn [lex_loop]. destruct src as [|c r]; [congruence|]. pose proof (tok_none_shorter ts com (c :: r)) as X.
  destruct (tok_none ts com (c :: r)) as [[ts' com' rest|ts' rest|e rest]|e|]; cbn [bind shorter] in *; try reflexivity.
  - apply lex_fuel; lia.
  - unfold lexes. rewrite (lex_fuel _ (S (length rest))) by lia. reflexivity.
  - destruct (skip_line rest) as [r2|?|] eqn:E; cbn [bind]; try reflexivity. apply skip_line_length in E. unfold lexes. rewrite (lex_fuel _ (S (length r2))) by lia. reflexivity.
Qed.

(** * A line *)
Lemma end_step ts com rest : (length ts < 100)%nat -> lexes ts com (13 :: rest) = let* ls := lexes [] false rest in Ok (Tokens (ts ++ [end_of_statement]) :: ls).
Proof. intros T. rewrite lexes_eq by discriminate. unfold tok_none. change (13 =? 13) with true. cbn iota. rewrite put_ok by exact T. reflexivity. Qed.
Lemma comment_step r ts rest : ~ In 13 r -> (length ts < 100)%nat -> lexes ts true (r ++ 13 :: rest) = let* ls := lexes [] false rest in Ok (Tokens (ts ++ [end_of_statement]) :: ls).
Proof.
  intros N T. induction r as [|c r IH]; cbn [app]; [now apply end_step|]. rewrite lexes_eq by discriminate. unfold tok_none.
  destruct (Z.eqb_spec c 13) as [->|]; [exfalso; apply N; now left|]. cbn [bind]. apply IH. intros J; apply N; now right.
Qed.
Lemma first_app l rest : l <> [] -> first (l ++ rest) = first l.
Proof. destruct l; [congruence|reflexivity]. Qed.
Lemma no13 r : ~ In 13 r -> forallb (fun c => negb (c =? 13)) r = true.
Proof. intros N. apply forallb_forall. intros c J. rewrite negb_true_iff, Z.eqb_neq. intros ->. contradiction. Qed.

Theorem spelled_lexes l ts : spelled l ts -> forall pre rest, (length pre + length ts <= 100)%nat ->
  lexes pre false (l ++ rest) = let* ls := lexes [] false rest in Ok (Tokens (pre ++ ts) :: ls).
Proof.
  induction 1 as [|l ts S1 IH|s t l ts X S1 IH C|s n w l ts E (W1 & W2 & W3) S1 IH C|s L Q1 Q2|s Q|s r E Q C|s r E Q C]; intros pre rest T.
  - cbn [app]. apply end_step. cbn in T. lia.
  - cbn [app]. rewrite lexes_eq by discriminate. change (tok_none pre false (32 :: l ++ rest)) with (@Ok lexed (Go pre false (l ++ rest))). cbn [bind]. now apply IH.
  - pose proof (spelled_nonempty _ _ S1) as N. cbn [length] in T. rewrite <- app_assoc. rewrite lexes_eq.
    + rewrite (lexeme_step s t (l ++ rest) pre X); [|destruct l; discriminate || congruence|now rewrite first_app|lia].
      cbn [bind]. rewrite IH by (rewrite app_length; cbn; lia). now rewrite <- app_assoc.
    + destruct s; [|discriminate]. cbn. destruct l; [congruence|discriminate].
  - pose proof (spelled_nonempty _ _ S1) as N. cbn [length] in T.
    assert (W : wordlike s) by (apply word_capitals; rewrite E; reflexivity).
    destruct (lookup_here s 3 0) as (L8 & K); [lia|exact W|cbn; now rewrite E|].
    rewrite <- !app_assoc. rewrite lexes_eq by (destruct s; [contradiction|discriminate]).
    rewrite tok_none_word by exact W. rewrite tok_name_word; [|exact W|lia|discriminate|cbn [repeat app first hd]; destruct s as [|a r]; [contradiction|]; destruct W as (W & _); cbn [continues]; rewrite W; reflexivity|lia].
    rewrite !K by lia. cbn [Nat.eqb].
    assert (TL : tok_label pre (repeat 32 (S n) ++ w ++ l ++ rest) = Ok (Go (pre ++ [mk label (len w) 0 w]) false (l ++ rest))).
    { unfold tok_label. cbn [repeat app]. change (negb (32 =? 32)) with false. cbn iota. destruct w as [|c w]; [congruence|].
      cbn in W3. apply andb_true_iff in W3 as (W3 & W4).
      assert (C32 : c <> 32) by (intros ->; discriminate).
      assert (SK : skip_spaces (repeat 32 n ++ (c :: w) ++ l ++ rest) = (c :: w) ++ l ++ rest).
      { clear - C32. induction n as [|n IH]; [|exact IH]. cbn [repeat app]. cbn [skip_spaces].
        repeat match goal with |- match ?x with _ => _ end = _ => destruct x; try reflexivity end. congruence. }
      rewrite SK. cbn [app]. rewrite name_char, W3. cbn [negb]. change (c :: w ++ l ++ rest) with ((c :: w) ++ (l ++ rest)).
      rewrite (take_while_ext _ (fun c => letter c || digit c)) by apply name_char. rewrite take_while_app; [|exact W4|rewrite first_app by exact N; exact C|destruct l; [congruence|discriminate]].
      cbn [bind]. rewrite len8_small by lia. replace (16 <? len (c :: w)) with false by (unfold len; cbn [length] in *; lia).
      rewrite go_ok by lia. unfold word. now rewrite len8_small by lia. }
    rewrite TL. cbn [bind]. rewrite IH by (rewrite app_length; cbn; lia). now rewrite <- app_assoc.
  - cbn [app]. rewrite lexes_eq by discriminate. cbn in T.
    assert (TS : tok_none pre false (34 :: (s ++ [13]) ++ rest) = Ok (Go (pre ++ [mk string (len s) 0 s]) false (13 :: rest))).
    { change (tok_none pre false (34 :: (s ++ [13]) ++ rest)) with (tok_string pre (34 :: (s ++ [13]) ++ rest)). unfold tok_string. cbn [tl]. rewrite <- app_assoc. cbn [app].
      rewrite span_app; [| |reflexivity|discriminate].
      - change (13 =? 34) with false. cbn iota. rewrite go_ok by lia. unfold word. now rewrite len8_small.
      - apply forallb_forall. intros c J. rewrite andb_true_iff, !negb_true_iff, !Z.eqb_neq. split; intros ->; contradiction. }
    rewrite TS. cbn [bind]. rewrite end_step by (rewrite app_length; cbn; lia). now rewrite <- app_assoc.
  - cbn [app]. rewrite lexes_eq by discriminate. cbn in T.
    change (tok_none pre false (39 :: (s ++ [13]) ++ rest)) with (@Ok lexed (Go pre true ((s ++ [13]) ++ rest))). cbn [bind]. rewrite <- app_assoc. cbn [app]. now apply comment_step; [|lia].
  - cbn [length] in T. assert (W : wordlike s) by (apply word_capitals; rewrite E; reflexivity).
    destruct (lookup_here s 4 0) as (L8 & K); [lia|exact W|cbn; now rewrite E|].
    assert (L3 : length s = 3%nat) by (rewrite <- (map_length upcase); change (map upcase s) with (capitals s); rewrite E; reflexivity).
    rewrite <- !app_assoc. cbn [app]. rewrite lexes_eq by (destruct s; [contradiction|discriminate]).
    assert (N : r ++ 13 :: rest <> []) by (destruct r; discriminate).
    rewrite tok_none_word by exact W. rewrite tok_name_word; [|exact W|lia|exact N|rewrite <- C; f_equal; destruct r; reflexivity|lia].
    rewrite !K by lia. cbn [Nat.eqb]. rewrite go_ok by lia. cbn [bind]. rewrite comment_step; [|exact Q|rewrite app_length; cbn; lia]. rewrite <- app_assoc. unfold word. rewrite len8_small by lia. unfold len. now rewrite L3.
  - cbn [length] in T. assert (W : wordlike s) by (apply word_capitals; rewrite E; reflexivity).
    destruct (lookup_here s 0 52) as (L8 & K); [lia|exact W|cbn; now rewrite E|].
    assert (L4 : length s = 4%nat) by (rewrite <- (map_length upcase); change (map upcase s) with (capitals s); rewrite E; reflexivity).
    rewrite <- !app_assoc. cbn [app]. rewrite lexes_eq by (destruct s; [contradiction|discriminate]).
    assert (N : r ++ 13 :: rest <> []) by (destruct r; discriminate).
    rewrite tok_none_word by exact W. rewrite tok_name_word; [|exact W|lia|exact N|rewrite <- C; f_equal; destruct r; reflexivity|lia].
    rewrite !K by lia. cbn [Nat.eqb]. change (Z.of_nat 52 =? CMD_DATA) with true. cbn iota. rewrite go_ok by lia. cbn [bind].
    rewrite comment_step; [|exact Q|rewrite app_length; cbn; lia]. rewrite <- app_assoc.
    assert (LR : line_rest (skipn 4 (s ++ r ++ 13 :: rest)) = r ++ [13]).
    { rewrite <- L4. rewrite skipn_app, Nat.sub_diag, skipn_all. cbn [app skipn]. unfold line_rest. rewrite span_app; [reflexivity|now apply no13|reflexivity|discriminate]. }
    rewrite LR. reflexivity.
Qed.
