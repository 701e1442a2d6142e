(** C43: the arguments of the sprite commands.  C64: sprite variables, SPSET, SPCLR, SPREAD. *)
From Verif Require Import Base BaseLemmas Memory Graphics Sprites SpritesSpec SpritesProofs SpritesMove.
Ltac Zify.zify_post_hook ::= Z.div_mod_to_equations.
Open Scope Z_scope.

(** ** Specification *)
Inductive spcmd :=
| SPPAGE (v : Z) | SPCLR (id : option Z) | SPSET (id chr pal h v prio : Z) (wh : option (Z * Z)) | SPOFS (id x y : Z) (t : option Z)
| SPSETV (id ix v : Z) | SPCOL (id x y w h sc : Z) (group : option Z) | SPCOLVEC (id dx dy : Z) | SPHOME (id x y : Z)
| SPSCALE (id sc : Z) (t : option Z) | SPANGLE (id an : Z) (t dir : option Z) | SPCHR (id chr : Z) (more : option (Z * Z * Z * Z)) | SPANIM (id chrs t : Z) (loop : option Z).
Definition run (S : sprites) (c : spcmd) : sprites * fin :=
  match c with
  | SPPAGE v => cmd_sppage S v | SPCLR id => cmd_spclr S id | SPSET id chr pal h v prio wh => cmd_spset S id chr pal h v prio wh
  | SPOFS id x y t => cmd_spofs S id x y t | SPSETV id ix v => cmd_spsetv S id ix v | SPCOL id x y w h sc g => cmd_spcol S id x y w h sc g
  | SPCOLVEC id dx dy => cmd_spcolvec S id dx dy | SPHOME id x y => cmd_sphome S id x y | SPSCALE id sc t => cmd_spscale S id sc t
  | SPANGLE id an t dir => cmd_spangle S id an t dir | SPCHR id chr more => cmd_spchr S id chr more | SPANIM id chrs t loop => cmd_spanim S id chrs t loop
  end.
(** the sprite a command is about *)
Definition number (c : spcmd) : option Z :=
  match c with
  | SPPAGE _ => None | SPCLR id => id | SPSET id _ _ _ _ _ _ => Some id | SPOFS id _ _ _ => Some id | SPSETV id _ _ => Some id | SPCOL id _ _ _ _ _ _ => Some id
  | SPCOLVEC id _ _ => Some id | SPHOME id _ _ => Some id | SPSCALE id _ _ => Some id | SPANGLE id _ _ _ => Some id | SPCHR id _ _ => Some id | SPANIM id _ _ _ => Some id
  end.
Definition is_spclr (c : spcmd) : Prop := match c with SPCLR _ => True | _ => False end.
Definition within (v lo hi : Z) : Prop := lo <= whole v <= hi.
Definition opt (P : Z -> Prop) (v : option Z) : Prop := match v with None => True | Some v => P v end.
(** the arguments, besides the number, that have a range *)
Definition in_ranges (S : sprites) (c : spcmd) : Prop :=
  match c with
  | SPPAGE v => within v 0 1
  | SPCLR _ => True
  | SPSET _ chr pal _ _ prio _ => within chr 0 (if page_ S =? 0 then 511 else 117) /\ within pal 0 15 /\ within prio 0 3
  | SPOFS _ _ _ t => opt (fun t => 0 <= whole t) t
  | SPSETV _ ix _ => within ix 0 7
  | SPCOL _ x y w h sc g => within x (-128) 127 /\ within y (-128) 127 /\ within w 0 255 /\ within h 0 255 /\ within sc 0 1 /\ opt (fun g => within g 0 255) g
  | SPCOLVEC _ dx dy => within dx (-128) 127 /\ within dy (-128) 127
  | SPHOME _ _ _ => True
  | SPSCALE _ sc t => within sc 0 200 /\ opt (fun t => 0 <= whole t) t
  | SPANGLE _ _ t dir => opt (fun t => 0 <= whole t) t /\ (t <> None -> opt (fun d => whole d = 1 \/ whole d = -1) dir)
  | SPCHR _ chr more => within chr 0 (if page_ S =? 0 then 511 else 117) /\
      match more with None => True | Some (pal, h, v, prio) => within pal 0 15 /\ within h 0 1 /\ within v 0 1 /\ within prio 0 3 end
  | SPANIM _ chrs t loop => 0 <= whole chrs /\ 0 <= whole t /\ opt (fun l => 0 <= whole l) loop
  end.
(** the sprites a command changes *)
Definition touched (S : sprites) (c : spcmd) (q j : Z) : Prop :=
  q = page_ S /\ match number c with Some id => j = whole id | None => is_spclr c /\ 0 <= j <= 99 end.

(** ** Proofs *)
Lemma at_least_ok S v lo k : lo <= whole v -> at_least S v lo k = k (whole v).
Proof. intros H. unfold at_least. change (FP_TO_INT v) with (whole v). replace (whole v <? lo) with false by lia. reflexivity. Qed.
Lemma at_least_bad S v lo k : ~ lo <= whole v -> at_least S v lo k = (S, Raised ERR_OUT_OF_RANGE).
Proof. intros H. unfold at_least. change (FP_TO_INT v) with (whole v). replace (whole v <? lo) with true by lia. reflexivity. Qed.
Lemma within_dec v lo hi : {within v lo hi} + {~ within v lo hi}.
Proof. unfold within. destruct (Z_le_dec lo (whole v)); [|right; lia]. destruct (Z_le_dec (whole v) hi); [left|right]; lia. Qed.

(** a control number outside 0..99 raises an error and changes nothing *)
Theorem C43_number_partial : forall S c id, number c = Some id -> ~ is_spclr c -> ~ within id 0 99 -> run S c = (S, Raised ERR_OUT_OF_RANGE).
Proof.
  unfold within. intros S c id N NC H. destruct c; cbn [number is_spclr] in *; try (exfalso; apply NC; exact I); try discriminate N; injection N as ->;
    cbn [run]; unfold cmd_spset, cmd_spofs, cmd_spsetv, cmd_spcol, cmd_spcolvec, cmd_sphome, cmd_spscale, cmd_spangle, cmd_spchr, cmd_spanim; apply range_bad; lia.
Qed.
(** so does any other argument outside its range, for a sprite that exists; SPPAGE, the character of SPSET and the loops of SPANIM apart *)
Theorem C43_arguments_partial : forall S c id, screen_ok S -> number c = Some id -> within id 0 (match c with SPSCALE _ _ _ => 31 | _ => 99 end) -> exists_sprite S (whole id) ->
  ~ in_ranges S c -> (match c with SPSET _ chr _ _ _ _ _ => ~ (page_ S = 0 /\ whole chr = 512) | SPANIM _ _ _ (Some l) => 0 <= whole l | _ => True end) ->
  run S c = (S, Raised ERR_OUT_OF_RANGE).
Proof.
  unfold within. intros S c id P N W A R X. destruct c; cbn [number in_ranges run] in *; try discriminate N; try (injection N as <-); try (exfalso; apply R; exact I).
  - unfold cmd_spset. rewrite range_ok by lia. destruct (within_dec chr 0 (if page_ S =? 0 then 512 else 117)) as [a|a]; unfold within in a; [rewrite range_ok by exact a|apply range_bad; exact a].
    destruct (within_dec pal 0 15) as [b|b]; unfold within in b; [rewrite range_ok by exact b|apply range_bad; exact b]. apply range_bad. intros d. apply R. unfold within.
    split; [destruct (page_ S =? 0) eqn:E; [assert (~ whole chr = 512) by (intros Q; apply X; split; lia); lia|exact a]|]. split; [exact b|exact d].
  - unfold cmd_spofs. rewrite range_ok by lia. cbv zeta. rewrite slot_ok by (exact P || lia). unfold live. unfold exists_sprite in A. rewrite A. destruct t as [t|]; cbn [opt] in R; [|tauto]. apply at_least_bad. lia.
  - unfold cmd_spsetv. rewrite range_ok by lia. apply range_bad. exact R.
  - unfold cmd_spcol. rewrite range_ok by lia. unfold within in R.
    destruct (within_dec x (-128) 127) as [a|a]; unfold within in a; [rewrite range_ok by exact a|apply range_bad; exact a].
    destruct (within_dec y (-128) 127) as [b|b]; unfold within in b; [rewrite range_ok by exact b|apply range_bad; exact b].
    destruct (within_dec w 0 255) as [c|c]; unfold within in c; [rewrite range_ok by exact c|apply range_bad; exact c].
    destruct (within_dec h 0 255) as [d|d]; unfold within in d; [rewrite range_ok by exact d|apply range_bad; exact d].
    destruct (within_dec sc 0 1) as [e|e]; unfold within in e; [rewrite range_ok by exact e|apply range_bad; exact e].
    destruct group as [g|]; cbn [opt] in R; [|tauto]. cbv zeta. apply range_bad. tauto.
  - unfold cmd_spcolvec. rewrite range_ok by lia. unfold within in R.
    destruct (within_dec dx (-128) 127) as [a|a]; unfold within in a; [rewrite range_ok by exact a|apply range_bad; exact a]. apply range_bad. tauto.
  - unfold cmd_spscale. rewrite range_ok by lia. unfold within in R.
    destruct (within_dec sc 0 200) as [a|a]; unfold within in a; [rewrite range_ok by exact a|apply range_bad; exact a].
    destruct t as [t|]; cbn [opt] in R; [|tauto]. replace (t <? 0) with true; [reflexivity|]. symmetry. apply Z.ltb_lt. unfold whole in *. lia.
  - unfold cmd_spangle. rewrite range_ok by lia. rewrite slot_ok by (exact P || lia). unfold live. unfold exists_sprite in A. rewrite A. cbv zeta.
    destruct t as [t|]; cbn [opt] in R; [|exfalso; apply R; split; [exact I|congruence]].
    destruct (Z_le_dec 0 (whole t)) as [a|a]; [rewrite at_least_ok by exact a|apply at_least_bad; exact a].
    destruct dir as [d|]; cbn [opt] in R; [|exfalso; apply R; auto]. change (FP_TO_INT d) with (whole d).
    destruct ((whole d =? 1) || (whole d =? -1)) eqn:E; [|reflexivity]. exfalso. apply R. split; [exact a|]. intros _. lia.
  - unfold cmd_spchr. rewrite range_ok by lia. unfold within in R.
    destruct (within_dec chr 0 (if page_ S =? 0 then 511 else 117)) as [a|a]; unfold within in a; [rewrite range_ok by exact a|apply range_bad; exact a].
    destruct more as [[[[pal h] v] prio]|]; [|exfalso; apply R; auto].
    destruct (within_dec pal 0 15) as [b|b]; unfold within in b; [rewrite range_ok by exact b|apply range_bad; exact b].
    destruct (within_dec h 0 1) as [c|c]; unfold within in c; [rewrite range_ok by exact c|apply range_bad; exact c].
    destruct (within_dec v 0 1) as [d|d]; unfold within in d; [rewrite range_ok by exact d|apply range_bad; exact d].
    apply range_bad. tauto.
  - unfold cmd_spanim. rewrite range_ok by lia.
    destruct (Z_le_dec 0 (whole chrs)) as [a|a]; [rewrite at_least_ok by exact a|apply at_least_bad; exact a].
    apply at_least_bad. intros b. apply R. split; [exact a|]. split; [exact b|]. destruct loop as [l|]; cbn [opt]; [exact X|exact I].
Qed.
(** and arguments in range are accepted *)
Theorem C43_accepts_partial : forall S c, screen_ok S -> in_ranges S c ->
  (match number c with None => True | Some id => within id 0 (match c with SPSCALE _ _ _ => 31 | _ => 99 end) /\ exists_sprite S (whole id) end) ->
  (match c with SPSCALE _ _ (Some t) => whole t <> 0 | _ => True end) ->
  exists S', run S c = (S', Done).
Proof.
  unfold within. intros S c P R N X. unfold screen_ok in P. assert (PS : screen_ok S) by exact P.
  destruct c; cbn [number in_ranges run] in *; unfold within in *; try (destruct N as (W & A); unfold exists_sprite in A).
  - eexists. reflexivity.
  - unfold cmd_spclr. destruct id as [id|]; [|replace ((0 <=? page_ S) && (page_ S <=? 1)) with true by lia; eexists; reflexivity].
    destruct N as (W & A). change (FP_TO_INT id) with (whole id). rewrite slot_ok by (assumption || lia). eexists. reflexivity.
  - unfold cmd_spset. rewrite range_ok by lia. rewrite range_ok by (destruct (page_ S =? 0); lia). rewrite range_ok by lia. rewrite range_ok by lia.
    destruct wh as [[w hh]|]; cbv beta iota zeta; rewrite slot_ok by (assumption || lia); eexists; reflexivity.
  - unfold cmd_spofs. rewrite range_ok by lia. cbv zeta. rewrite slot_ok by (assumption || lia). unfold live. rewrite A. destruct t as [t|]; [|eexists; reflexivity].
    rewrite at_least_ok by exact R. destruct (whole t =? 0); eexists; reflexivity.
  - unfold cmd_spsetv. rewrite !range_ok by lia. rewrite slot_ok by (assumption || lia). unfold live. rewrite A. eexists. reflexivity.
  - unfold cmd_spcol. rewrite !range_ok by lia. cbv zeta. destruct group as [g|]; [rewrite range_ok by (cbn [opt] in R; tauto)|]; rewrite slot_ok by (assumption || lia); unfold live; rewrite A; eexists; reflexivity.
  - unfold cmd_spcolvec. rewrite !range_ok by lia. rewrite slot_ok by (assumption || lia). unfold live. rewrite A. eexists. reflexivity.
  - unfold cmd_sphome. rewrite !range_ok by lia. rewrite slot_ok by (assumption || lia). unfold live. rewrite A. eexists. reflexivity.
  - unfold cmd_spscale. rewrite !range_ok by lia. destruct t as [t|].
    + cbn [opt] in R. replace (t <? 0) with false by (unfold whole in R; lia). rewrite slot_ok by (assumption || lia). unfold live. rewrite A.
      rewrite at_least_ok by tauto. replace (whole t =? 0) with false by lia. eexists. reflexivity.
    + change (0 <? 0) with false. cbv iota. rewrite slot_ok by (assumption || lia). unfold live. rewrite A. eexists. reflexivity.
  - unfold cmd_spangle. rewrite range_ok by lia. rewrite slot_ok by (assumption || lia). unfold live. rewrite A. cbv zeta. destruct t as [t|]; [|eexists; reflexivity].
    cbn [opt] in R. rewrite at_least_ok by tauto. destruct dir as [d|]; [|eexists; reflexivity]. change (FP_TO_INT d) with (whole d). destruct R as (_ & R). specialize (R ltac:(discriminate)). cbn [opt] in R.
    replace ((whole d =? 1) || (whole d =? -1)) with true by lia. eexists. reflexivity.
  - unfold cmd_spchr. rewrite range_ok by lia. rewrite range_ok by tauto. destruct more as [[[[pal h] v] prio]|].
    + rewrite !range_ok by tauto. rewrite slot_ok by (assumption || lia). eexists. reflexivity.
    + rewrite slot_ok by (assumption || lia). eexists. reflexivity.
  - unfold cmd_spanim. rewrite range_ok by lia. rewrite !at_least_ok by tauto. rewrite slot_ok by (assumption || lia). cbv zeta.
    destruct loop as [l|]; [|eexists; reflexivity]. cbn [opt] in R. rewrite at_least_ok by tauto. eexists. reflexivity.
Qed.
(** whatever the arguments: no slot outside the tables is used, except by SPCLR (and SPSCALE may divide by zero) *)
Theorem C43_no_damage_partial : forall S c, screen_ok S ->
  (match c with SPCLR (Some id) => within id 0 99 | SPSCALE _ _ (Some t) => whole t <> 0 | _ => True end) -> snd (run S c) <> Crash.
Proof.
  intros S c P X.
  assert (RG : forall v lo hi k, (within v lo hi -> snd (k (whole v)) <> Crash) -> snd (range S v lo hi k) <> Crash).
  { intros v lo hi k H. destruct (within_dec v lo hi) as [a|a]; [rewrite range_ok by exact a; apply H; exact a|rewrite range_bad by exact a; discriminate]. }
  assert (AL : forall T v lo k, snd (k (whole v)) <> Crash -> snd (at_least T v lo k) <> Crash).
  { intros T v lo k H. destruct (Z_le_dec lo (whole v)) as [a|a]; [rewrite at_least_ok by exact a; exact H|rewrite at_least_bad by exact a; discriminate]. }
  assert (SL : forall i k, 0 <= i <= 99 -> (forall s, snd (k s) <> Crash) -> snd (slot S i k) <> Crash) by (intros i k Hi H; rewrite slot_ok by assumption; apply H).
  assert (LV : forall s k, snd k <> Crash -> snd (live S s k) <> Crash) by (intros s k H; unfold live; destruct (active s); [exact H|discriminate]).
  destruct c; cbn [run]; unfold cmd_sppage, cmd_spclr, cmd_spset, cmd_spofs, cmd_spsetv, cmd_spcol, cmd_spcolvec, cmd_sphome, cmd_spscale, cmd_spangle, cmd_spchr, cmd_spanim; cbv zeta.
  - discriminate.
  - destruct id as [id|]; [|unfold screen_ok in P; replace ((0 <=? page_ S) && (page_ S <=? 1)) with true by lia; discriminate].
    unfold within, whole in X. apply SL; [unfold FP_TO_INT; exact X|discriminate].
  - apply RG; intros Hi. do 3 (apply RG; intros _). destruct wh as [[w hh]|]; (apply SL; [exact Hi|discriminate]).
  - apply RG; intros Hi. apply SL; [exact Hi|]. intros s. apply LV. destruct t as [t|]; [|discriminate]. apply AL. destruct (_ =? 0); discriminate.
  - apply RG; intros Hi. apply RG; intros _. apply SL; [exact Hi|]. intros s. apply LV. discriminate.
  - apply RG; intros Hi. do 5 (apply RG; intros _). destruct group as [g|]; [apply RG; intros _|]; (apply SL; [exact Hi|]; intros s; apply LV; discriminate).
  - apply RG; intros Hi. do 2 (apply RG; intros _). apply SL; [exact Hi|]; intros s; apply LV; discriminate.
  - apply RG; intros Hi. apply SL; [exact Hi|]; intros s; apply LV; discriminate.
  - apply RG; intros Hi. apply RG; intros _. destruct (_ <? 0); [discriminate|]. apply SL; [unfold within in Hi; lia|]. intros s. apply LV. destruct t as [t|]; [|discriminate].
    apply AL. replace (whole t =? 0) with false by lia. discriminate.
  - apply RG; intros Hi. apply SL; [exact Hi|]; intros s; apply LV. destruct t as [t|]; [|discriminate]. apply AL. destruct dir as [d|]; [|discriminate]. destruct (_ || _); discriminate.
  - apply RG; intros Hi. apply RG; intros _. destruct more as [[[[pal h] v] prio]|]; [do 4 (apply RG; intros _)|]; (apply SL; [exact Hi|]; intros s; discriminate).
  - apply RG; intros Hi. apply AL. apply AL. apply SL; [exact Hi|]. intros s. destruct loop as [l|]; [|discriminate]. apply AL. discriminate.
Qed.
(** and only the sprite named is changed, of the screen selected *)
Theorem C43_only_named : forall S c q j, (match c with SPPAGE _ => False | _ => True end) -> ~ touched S c q j ->
  info (fst (run S c)) q j = info S q j /\ page_ (fst (run S c)) = page_ S.
Proof.
  intros S c q j NP NT.
  set (T := touched S c) in *.
  assert (RG : forall (v lo hi : Z) k, (info (fst (k (whole v))) q j = info S q j /\ page_ (fst (k (whole v))) = page_ S) -> info (fst (range S v lo hi k)) q j = info S q j /\ page_ (fst (range S v lo hi k)) = page_ S).
  { intros v lo hi k H. destruct (within_dec v lo hi) as [a|a]; [rewrite range_ok by exact a; exact H|rewrite range_bad by exact a; split; reflexivity]. }
  assert (AL : forall U v lo k, (info (fst (k (whole v))) q j = info S q j /\ page_ (fst (k (whole v))) = page_ S) -> (info U q j = info S q j /\ page_ U = page_ S) -> info (fst (at_least U v lo k)) q j = info S q j /\ page_ (fst (at_least U v lo k)) = page_ S).
  { intros U v lo k H G. destruct (Z_le_dec lo (whole v)) as [a|a]; [rewrite at_least_ok by exact a; exact H|rewrite at_least_bad by exact a; exact G]. }
  assert (SL : forall i k, (forall s, info (fst (k s)) q j = info S q j /\ page_ (fst (k s)) = page_ S) -> info (fst (slot S i k)) q j = info S q j /\ page_ (fst (slot S i k)) = page_ S).
  { intros i k H. unfold slot. destruct (in_table S i); [apply H|split; reflexivity]. }
  assert (LV : forall s k, (info (fst k) q j = info S q j /\ page_ (fst k) = page_ S) -> info (fst (live S s k)) q j = info S q j /\ page_ (fst (live S s k)) = page_ S).
  { intros s k H. unfold live. destruct (active s); [exact H|split; reflexivity]. }
  assert (PT : forall id s, number c = Some id -> info (put S (whole id) s) q j = info S q j /\ page_ (put S (whole id) s) = page_ S).
  { intros id s N. split; [|reflexivity]. rewrite put_info. destruct ((q =? page_ S) && (j =? whole id)) eqn:E; [|reflexivity]. exfalso. apply NT. unfold T, touched. rewrite N. lia. }
  assert (ZZ : info S q j = info S q j /\ page_ S = page_ S) by (split; reflexivity).
  destruct c; try (exfalso; exact NP); cbn [run]; unfold cmd_spclr, cmd_spset, cmd_spofs, cmd_spsetv, cmd_spcol, cmd_spcolvec, cmd_sphome, cmd_spscale, cmd_spangle, cmd_spchr, cmd_spanim; cbv zeta; cbn [number] in PT.
  - destruct id as [id|].
    + apply SL. intros s. cbn [fst]. apply (PT id). reflexivity.
    + destruct (_ && _); [|exact ZZ]. cbn [fst info page_]. split; [|reflexivity]. unfold upd2. destruct (q =? page_ S) eqn:E; [|reflexivity]. apply Z.eqb_eq in E. subst q.
      destruct ((0 <=? j) && (j <? MAX_SPRITES)) eqn:F; [|reflexivity]. exfalso. apply NT. unfold T, touched, MAX_SPRITES in *. cbn [number is_spclr]. split; [reflexivity|]. split; [exact I|lia].
  - do 4 apply RG. destruct wh as [[w hh]|]; apply SL; intros s; cbn [fst]; apply (PT id); reflexivity.
  - apply RG. apply SL. intros s. apply LV. destruct t as [t|]; [|cbn [fst]; apply (PT id); reflexivity]. apply AL; [|exact ZZ]. destruct (_ =? 0); cbn [fst]; apply (PT id); reflexivity.
  - do 2 apply RG. apply SL. intros s. apply LV. cbn [fst]. apply (PT id). reflexivity.
  - do 6 apply RG. destruct group as [g|]; [apply RG|]; apply SL; intros s; apply LV; cbn [fst]; apply (PT id); reflexivity.
  - do 3 apply RG. apply SL. intros s. apply LV. cbn [fst]. apply (PT id). reflexivity.
  - apply RG. apply SL. intros s. apply LV. cbn [fst]. apply (PT id). reflexivity.
  - do 2 apply RG. destruct (_ <? 0); [exact ZZ|]. apply SL. intros s. apply LV. destruct t as [t|]; [|cbn [fst]; apply (PT id); reflexivity]. apply AL; [|exact ZZ]. destruct (_ =? 0); [exact ZZ|]. cbn [fst]. apply (PT id). reflexivity.
  - apply RG. apply SL. intros s. apply LV. destruct t as [t|]; [|cbn [fst]; apply (PT id); reflexivity]. apply AL; [|exact ZZ].
    destruct dir as [d|]; [|cbn [fst]; apply (PT id); reflexivity]. destruct (_ || _); [|exact ZZ]. cbn [fst]. apply (PT id). reflexivity.
  - do 2 apply RG. destruct more as [[[[pal h] v] prio]|]; [do 4 apply RG|]; apply SL; intros s; cbn [fst]; apply (PT id); reflexivity.
  - apply RG. apply AL; [|exact ZZ]. apply AL; [|exact ZZ]. apply SL. intros s. destruct loop as [l|]; [|cbn [fst]; apply (PT id); reflexivity]. apply AL; [|apply (PT id); reflexivity]. cbn [fst]. apply (PT id). reflexivity.
Qed.
(** the functions *)
Theorem C43_functions : forall S id, 
  (~ within id 0 99 -> func_spchk S id = Err ERR_OUT_OF_RANGE /\ cmd_spread S id = Err ERR_OUT_OF_RANGE /\ (forall ix, func_spgetv S id ix = Err ERR_OUT_OF_RANGE) /\
     (forall st, func_sphit S id st = (S, Err ERR_OUT_OF_RANGE)) /\ (forall o, func_sphitsp S id o = (S, Err ERR_OUT_OF_RANGE) /\ func_sphitsp S o id = (S, Err ERR_OUT_OF_RANGE))) /\
  (within id 0 99 -> screen_ok S -> func_spchk S id <> UB /\ cmd_spread S id <> UB /\ (forall ix, func_spgetv S id ix <> UB) /\ (forall ix, ~ within ix 0 7 -> func_spgetv S id ix = Err ERR_OUT_OF_RANGE) /\
     (forall st, snd (func_sphit S id st) <> UB) /\ (forall o, snd (func_sphitsp S id o) <> UB)).
Proof.
  intros S id.
  assert (IR : forall v lo hi, (within v lo hi -> int_range v lo hi = Some (whole v)) /\ (~ within v lo hi -> int_range v lo hi = None)).
  { intros v lo hi. unfold int_range, within. change (FP_TO_INT v) with (whole v). split; intros H; [replace ((whole v <? lo) || (whole v >? hi)) with false by lia|replace ((whole v <? lo) || (whole v >? hi)) with true by lia]; reflexivity. }
  unfold func_spchk, cmd_spread, func_spgetv, func_sphit, func_sphitsp. split.
  - intros H. rewrite (proj2 (IR id 0 99) H). repeat split; try reflexivity. destruct (int_range o 0 99); reflexivity.
  - intros H P. rewrite (proj1 (IR id 0 99) H). unfold within in H. rewrite in_table_ok by assumption. split; [discriminate|]. split; [discriminate|]. split.
    { intros ix. destruct (int_range ix 0 7); [|discriminate]. destruct (active _); discriminate. }
    split; [intros ix Hx; rewrite (proj2 (IR ix 0 7) Hx); reflexivity|]. split.
    { intros st. destruct (match st with None => Some 0 | Some v => int_range v 0 99 end); [|discriminate]. destruct (first_hit S (whole id) z); discriminate. }
    { intros o. destruct (within_dec o 0 99) as [a|a]; [rewrite (proj1 (IR o 0 99) a)|rewrite (proj2 (IR o 0 99) a); discriminate]. unfold within in a. rewrite in_table_ok by assumption. destruct (is_hit _ _); discriminate. }
Qed.

(** ** What is wrong *)
(** SPCLR does not check the number, SPPAGE not the screen *)
Theorem C43_spclr_refuted : forall S id, screen_ok S -> ~ within id 0 99 -> run S (SPCLR (Some id)) = (S, Crash).
Proof.
  intros S id P H. cbn [run]. unfold cmd_spclr, slot, in_table, MAX_SPRITES. change (FP_TO_INT id) with (whole id). unfold within, screen_ok in *.
  replace ((0 <=? page_ S) && (page_ S <=? 1) && (0 <=? whole id) && (whole id <? 100)) with false by lia. reflexivity.
Qed.
Theorem C43_sppage_refuted : forall S v id, ~ within v 0 1 -> exists S', run S (SPPAGE v) = (S', Done) /\ run S' (SPCLR id) = (S', Crash).
Proof.
  intros S v id H. eexists. split; [reflexivity|]. cbn [run]. unfold cmd_spclr, slot, in_table. cbn [page_]. change (FP_TO_INT v) with (whole v). unfold within in H.
  destruct id as [id|].
  - replace ((0 <=? whole v) && (whole v <=? 1)) with false by lia. reflexivity.
  - replace ((0 <=? whole v) && (whole v <=? 1)) with false by lia. reflexivity.
Qed.
(** SPANIM starts the animation before it rejects the number of loops *)
Theorem C43_spanim_refuted : exists S', run one (SPANIM 4096 (3 * 4096) (7 * 4096) (Some (- 4096))) = (S', Raised ERR_OUT_OF_RANGE) /\
  a_chrs (anim_ (info one 0 1)) = 1 /\ a_chrs (anim_ (info S' 0 1)) = 3.
Proof. eexists. split; [reflexivity|]. split; reflexivity. Qed.
(** character 512 does not exist *)
Theorem C43_chr_refuted : exists S', run one (SPSET 4096 (512 * 4096) 0 0 0 0 None) = (S', Done) /\ s_chr (info S' 0 1) = 512.
Proof. eexists. split; reflexivity. Qed.
(** SPSCALE knows only 32 sprites *)
Theorem C43_spscale_refuted : forall S sc t id, within id 32 99 -> run S (SPSCALE id sc t) = (S, Raised ERR_OUT_OF_RANGE).
Proof. intros S sc t id H. cbn [run]. unfold cmd_spscale. unfold within in H. apply range_bad. lia. Qed.
Example C43_ok : screen_ok one /\ exists_sprite one 1 /\ in_ranges one (SPCOL 4096 (-3 * 4096) 0 (16 * 4096) (16 * 4096) 4096 (Some (15 * 4096))) /\ ~ in_ranges one (SPSETV 4096 (8 * 4096) 0).
Proof.
  split; [apply C42_ok|]. split; [reflexivity|]. split; [cbn [in_ranges opt]; unfold within, whole; lia|]. cbn [in_ranges]. unfold within, whole. lia.
Qed.

(** ** C64 *)
(** SPGETV gives what SPSETV stored; no other variable of any sprite changes; frames do not change any *)
Theorem C64_variables : forall S id ix v, screen_ok S -> within id 0 99 -> within ix 0 7 -> exists_sprite S (whole id) ->
  exists S', cmd_spsetv S id ix v = (S', Done) /\ (forall n, func_spgetv (frames n S') id ix = Ok v) /\
    (forall n id2 ix2, ~ (whole id2 = whole id /\ whole ix2 = whole ix) -> func_spgetv (frames n S') id2 ix2 = func_spgetv S id2 ix2).
Proof.
  intros S id ix v P Hi Hx A. unfold within in *. unfold cmd_spsetv. rewrite !range_ok by lia. rewrite slot_ok by assumption. unfold live. unfold exists_sprite in A. rewrite A.
  eexists. split; [reflexivity|]. set (S' := put S (whole id) _).
  assert (VF : forall n q j, vars (info (frames n S') q j) = vars (info S' q j)).
  { intros n q j. induction n as [|n IH]; [reflexivity|]. cbn [frames]. destruct (frame_cases (frames n S') q j) as [E|E]; rewrite E; [|exact IH].
    rewrite step_sprite_eq. destruct (active (info (frames n S') q j)); exact IH. }
  assert (PG : forall n, page_ (frames n S') = page_ S) by (intros n; rewrite page_frames; reflexivity).
  assert (G : forall n i x, func_spgetv (frames n S') i x = match int_range i 0 99, int_range x 0 7 with
     | Some i, Some x => if active (info S (page_ S) i) then Ok ((if i =? whole id then upd2 (vars (info S (page_ S) i)) (whole ix) v else vars (info S (page_ S) i)) x) else Err ERR_ILLEGAL_FUNCTION_CALL
     | _, _ => Err ERR_OUT_OF_RANGE end).
  { intros n i x. unfold func_spgetv. destruct (int_range i 0 99) as [i'|] eqn:E; [|reflexivity]. destruct (int_range x 0 7) as [x'|]; [|reflexivity].
    assert (Hi' : 0 <= i' <= 99) by (unfold int_range in E; destruct ((FP_TO_INT i <? 0) || (FP_TO_INT i >? 99)) eqn:F; [discriminate E|injection E as <-; lia]).
    rewrite in_table_ok; [|unfold screen_ok; rewrite PG; exact P|exact Hi']. rewrite PG, VF, active_frames. unfold S'. rewrite put_info, Z.eqb_refl. cbn [andb].
    destruct (i' =? whole id) eqn:F; [|reflexivity]. apply Z.eqb_eq in F. subst i'. reflexivity. }
  assert (IR : forall v lo hi, int_range v lo hi = if (whole v <? lo) || (whole v >? hi) then None else Some (whole v)) by reflexivity.
  split.
  - intros n. rewrite G, !IR. replace ((whole id <? 0) || (whole id >? 99)) with false by lia. replace ((whole ix <? 0) || (whole ix >? 7)) with false by lia. rewrite A, Z.eqb_refl, upd_same. reflexivity.
  - intros n i2 x2 N. rewrite G. unfold func_spgetv. rewrite !IR. destruct ((whole i2 <? 0) || (whole i2 >? 99)) eqn:E; [reflexivity|]. destruct ((whole x2 <? 0) || (whole x2 >? 7)); [reflexivity|].
    rewrite in_table_ok by (assumption || lia). destruct (active (info S (page_ S) (whole i2))); [|reflexivity]. destruct (whole i2 =? whole id) eqn:F; [|reflexivity]. rewrite upd_other; [reflexivity|]. lia.
Qed.
(** a sprite just set: at 0,0, at 100 %, not turned, its variables zero, its box its size *)
Theorem C64_spset : forall S id chr pal h v prio, screen_ok S -> within id 0 99 -> within chr 0 (if page_ S =? 0 then 511 else 117) -> within pal 0 15 -> within prio 0 3 ->
  exists S', cmd_spset S id chr pal h v prio None = (S', Done) /\ same_but (page_ S) (whole id) S S' /\ exists_sprite S' (whole id) /\
    (forall ix, within ix 0 7 -> func_spgetv S' id ix = Ok 0) /\
    (forall n, cmd_spread (frames n S') id = Ok (0, 0, 0, 4096, whole chr) /\ get_sprite_chr (info (frames n S') (page_ S) (whole id)) = whole chr).
Proof.
  intros S id chr pal h v prio P Hi Hc Hp Hr. unfold within in *. unfold cmd_spset. rewrite range_ok by lia. rewrite range_ok by (destruct (page_ S =? 0); lia). rewrite !range_ok by lia.
  cbv beta iota zeta. rewrite slot_ok by assumption. eexists. split; [reflexivity|]. set (s := init_sprite_info _ _ _ _ _ _ _ _). split; [apply put_same_but|].
  split; [unfold exists_sprite; change (page_ (put S (whole id) s)) with (page_ S); rewrite put_at; reflexivity|]. split.
  - intros ix Hx. unfold func_spgetv, int_range. change (FP_TO_INT id) with (whole id). change (FP_TO_INT ix) with (whole ix).
    replace ((whole id <? 0) || (whole id >? 99)) with false by lia. replace ((whole ix <? 0) || (whole ix >? 7)) with false by lia.
    rewrite in_table_ok by assumption. change (page_ (put S (whole id) s)) with (page_ S). rewrite put_at. reflexivity.
  - intros n. set (S' := put S (whole id) s). set (q := page_ S). set (i := whole id).
    assert (CB : 0 <= whole chr < 65536) by (destruct (page_ S =? 0); lia).
    assert (K : forall n, let t := info (frames n S') q i in pos t = pos s /\ cv (scale t) = 4096 /\ cd (scale t) = 0 /\ cv (angle t) = 0 /\ cd (angle t) = 0 /\ anim_ t = anim_ s /\ s_chr t = whole chr).
    { clear n. intros n. cbv zeta. induction n as [|n (K1 & K2 & K3 & K4 & K5 & K6 & K7)].
      - cbn [frames]. unfold S', q, i. rewrite put_at. unfold s, init_sprite_info. cbn [pos scale angle cv cd anim_ s_chr]. repeat split.
        unfold u16. change (2 ^ 16) with 65536. apply Z.mod_small. exact CB.
      - cbn [frames]. destruct (frame_cases (frames n S') q i) as [E|E]; rewrite E; [|repeat split; assumption]. rewrite step_sprite_eq.
        destruct (active _); cbn [fst pos scale angle anim_ s_chr]; [|repeat split; assumption]. rewrite K1, K6.
        split; [reflexivity|]. unfold next_change_scale, next_change_angle.
        split; [destruct (_ >=? 0); cbn [cv]; rewrite ?K2, ?K3; reflexivity|]. split; [destruct (_ >=? 0); cbn [cd]; exact K3|].
        split; [destruct (_ >=? 0); cbn [cv]; rewrite ?K4, ?K5; reflexivity|]. split; [destruct (_ >=? 0); cbn [cd]; exact K5|]. split; [reflexivity|exact K7]. }
    destruct (K n) as (K1 & K2 & _ & K4 & _ & K6 & K7). split.
    + unfold cmd_spread, int_range. change (FP_TO_INT id) with i. unfold i at 1 2. replace ((whole id <? 0) || (whole id >? 99)) with false by lia.
      assert (PG : page_ (frames n S') = q) by (rewrite page_frames; reflexivity).
      rewrite in_table_ok; [|unfold screen_ok; rewrite PG; exact P|unfold i; lia]. rewrite PG, K1, K2, K4, K7. reflexivity.
    + unfold get_sprite_chr. rewrite K6, K7. reflexivity.
Qed.
(** a number of 32 bits *)
Definition in32 (v : Z) : Prop := - 2147483648 <= v < 2147483648.
(** SPREAD gives the whole part of the position, then the angle and the scale, of the sprite of the screen selected. *)
Theorem C64_spread : forall S id, screen_ok S -> within id 0 99 -> in32 (x_of S (page_ S) (whole id)) -> in32 (y_of S (page_ S) (whole id)) ->
  exists c, cmd_spread S id = Ok (4096 * whole (x_of S (page_ S) (whole id)), 4096 * whole (y_of S (page_ S) (whole id)), angle_of S (page_ S) (whole id), scale_of S (page_ S) (whole id), c).
Proof.
  intros S id P Hi Hx Hy. unfold within in Hi. assert (W : forall v, in32 v -> INT_TO_FP (FP_TO_INT v) = 4096 * whole v).
  { intros v V. unfold INT_TO_FP, FP_TO_INT, whole, s32, u32, in32 in *. change (2 ^ 32) with 4294967296 in *. change (2 ^ 31) with 2147483648 in *. lia. }
  unfold cmd_spread, int_range. change (FP_TO_INT id) with (whole id). replace ((whole id <? 0) || (whole id >? 99)) with false by lia. rewrite in_table_ok by assumption. eexists. unfold x_of, y_of in *. rewrite !W by assumption. reflexivity.
Qed.
(** SPREAD gives the character without scaling: as a number it is 4096 times too small *)
Theorem C64_spread_refuted : exists S', cmd_spset init_sprites 0 (5 * 4096) 0 0 0 0 None = (S', Done) /\ exists x y a s c, cmd_spread S' 0 = Ok (x, y, a, s, c) /\ c <> 5 * 4096.
Proof. eexists. split; [reflexivity|]. do 5 eexists. split; [reflexivity|]. cbn. lia. Qed.
(** SPCLR id removes exactly that sprite, SPCLR exactly those of the screen *)
Theorem C64_spclr : forall S, screen_ok S ->
  (forall id, within id 0 99 -> exists S', cmd_spclr S (Some id) = (S', Done) /\ same_but (page_ S) (whole id) S S' /\ ~ exists_sprite S' (whole id)) /\
  (exists S', cmd_spclr S None = (S', Done) /\ page_ S' = page_ S /\ (forall j, 0 <= j <= 99 -> ~ exists_sprite S' j) /\ (forall q j, q <> page_ S -> info S' q j = info S q j)).
Proof.
  intros S P. split.
  - intros id H. unfold cmd_spclr. change (FP_TO_INT id) with (whole id). unfold within in H. rewrite slot_ok by assumption. eexists. split; [reflexivity|]. split; [apply put_same_but|].
    unfold exists_sprite. set (s := set_active _ _). change (page_ (put S (whole id) s)) with (page_ S). rewrite put_at. discriminate.
  - unfold cmd_spclr. unfold screen_ok in P. replace ((0 <=? page_ S) && (page_ S <=? 1)) with true by lia. eexists. split; [reflexivity|]. cbn [page_]. split; [reflexivity|]. split.
    + intros j Hj. unfold exists_sprite. cbn [page_ info]. rewrite upd_same. unfold MAX_SPRITES. replace ((0 <=? j) && (j <? 100)) with true by lia. discriminate.
    + intros q j N. cbn [info]. rewrite upd_other by exact N. reflexivity.
Qed.
Example C64_ok : screen_ok one /\ within 4096 0 99 /\ within (7 * 4096) 0 7 /\ exists_sprite one 1.
Proof. split; [apply C42_ok|]. unfold within, whole. split; [lia|]. split; [lia|reflexivity]. Qed.
Print Assumptions C43_number_partial.
Print Assumptions C43_arguments_partial.
Print Assumptions C43_accepts_partial.
Print Assumptions C43_no_damage_partial.
Print Assumptions C43_only_named.
Print Assumptions C43_functions.
Print Assumptions C43_spclr_refuted.
Print Assumptions C43_sppage_refuted.
Print Assumptions C43_spanim_refuted.
Print Assumptions C43_chr_refuted.
Print Assumptions C43_spscale_refuted.
Print Assumptions C64_variables.
Print Assumptions C64_spset.
Print Assumptions C64_spread.
Print Assumptions C64_spread_refuted.
Print Assumptions C64_spclr.
