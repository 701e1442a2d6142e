(** ACLS: what its program does, whatever the commands do. *)
From Verif Require Import Base BaseLemmas Tokens Strs Memory Resources Labels Bytecode BytecodeSpec Runner Lexer Link Vars Num Machine Acls.
Open Scope Z_scope.

Section Run.
Context {W : Type} (do : Z -> list given -> W -> outcome W).
Fixpoint run_script (l : list (Z * list given)) (w : W) : outcome W :=
  match l with [] => Ok w | (k, a) :: l => let* w := do k a w in run_script l w end.
Definition whole (n : Z) : given := GNum (4096 * n).
Definition script_head : list (Z * list given) :=
  [(CMD_VISIBLE, [whole 1; whole 1; whole 1; whole 1; whole 1; whole 1]); (CMD_ICONCLR, []); (CMD_COLOR, [whole 0; whole 0]); (CMD_CLS, []); (CMD_GDRAWMD, [whole 0])].
Definition script_page (p : Z) : list (Z * list given) :=
  [(CMD_GPAGE, [whole p; whole p; whole p]); (CMD_GCOLOR, [whole 0]); (CMD_GCLS, []); (CMD_GPRIO, [whole 3]);
   (CMD_BGPAGE, [whole p]); (CMD_BGOFS, [whole 0; whole 0; whole 0]); (CMD_BGOFS, [whole 1; whole 0; whole 0]);
   (CMD_BGCLR, []); (CMD_BGCLIP, [whole 0; whole 0; whole 31; whole 23]);
   (CMD_SPPAGE, [whole p]); (CMD_SPCLR, []);
   (CMD_COLINIT, [GStr [66; 71]]); (CMD_COLINIT, [GStr [83; 80]]); (CMD_COLINIT, [GStr [71; 82; 80]])].
Definition script : list (Z * list given) := script_head ++ script_page 1 ++ script_page 0.

Lemma run_script_app a b w : run_script (a ++ b) w = let* w := run_script a w in run_script b w.
Proof. revert w. induction a as [|[k g] a IH]; intros w; cbn [run_script app bind]; [reflexivity|]. destruct (do k g w); cbn [bind]; [apply IH|reflexivity|reflexivity]. Qed.

Notation H := (inside_host do).
Definition the_code : list Z := Eval vm_compute in match acls_linked with Ok (c, _, _) => c | _ => [] end.
Lemma run_add (lab : labels_fun H) code a b c : Link.run lab code (a + b) c = let* c := Link.run lab code a c in Link.run lab code b c.
Proof.
  revert c. induction a as [|a IH]; intros c; cbn [Link.run Nat.add bind]; [reflexivity|]. destruct (ix c <? Z.of_nat (length code)) eqn:E.
  - destruct (Runner.step lab code c); cbn [bind]; [apply IH|reflexivity|reflexivity].
  - cbn [bind]. destruct b; cbn [Link.run]; [reflexivity|]. rewrite E. reflexivity.
Qed.
Definition lab0 : labels_fun H := fun _ _ => UB.
Definition cfg0 (i : Z) (s : list (entry aloc)) (k : list (call aloc)) (v : variables) (w : W) : cfg H := mkC (h := H) i s k 0 (v, w).
Definition start_vars := init_vars 4 0 false.
(** the temporary table with P in it *)
Definition with_P (n : Z) : variables := Eval vm_compute in match get_var start_vars [80] VAR_NUMBER with (v, Ok i) => set_slot v i (mkVar VAR_NUMBER (v_name (slot v i)) (VNum n)) | _ => start_vars end.

(** what can be seen of a state *)
Definition view (x : outcome (cfg H)) : option (Z * list (entry aloc) * list (call aloc) * Z * variables * W) :=
  match x with Ok c => Some (ix c, stk c, calls c, argc c, fst (hst c), snd (hst c)) | _ => None end.
Lemma view_ok x i s k v w : view x = Some (i, s, k, 0, v, w) -> x = Ok (cfg0 i s k v w).
Proof. destruct x as [[xi xs xk xa [xv xw]]| |]; cbn; intros E; [|discriminate|discriminate]. inversion E; subst. reflexivity. Qed.
Definition plain (k : Z) : bool := negb (existsb (Z.eqb k) [CMD_FOR; CMD_TO; CMD_STEP; CMD_ON; CMD_NEXT; CMD_IF; CMD_ELSE; CMD_ENDIF; CMD_GOTO; CMD_GOSUB; CMD_RETURN; CMD_END; CMD_STOP]).
Lemma command_plain code c k : plain k = true -> command_step lab0 code c k = let* st := hcmd H k (rev (stk c)) (hst c) in Ok (mkC (h := H) (ix c) [] (calls c) 0 st).
Proof.
  unfold plain. cbn [existsb]. intros E. unfold command_step.
  repeat match goal with |- context [k =? ?x] => replace (k =? x) with false by lia end. reflexivity.
Qed.
(** the instructions that fetch the arguments, then one command *)
Lemma seg code m n i j s k v v' w b kk args :
  view (Link.run lab0 code m (cfg0 i [] k v w)) = Some (j, s, k, 0, v', w) -> j <? Z.of_nat (length code) = true -> fetch code j = Ok (ICmd b kk, j + 2) -> plain kk = true ->
  map (agiven (v', w)) (rev s) = args ->
  Link.run lab0 code (m + S n) (cfg0 i [] k v w) = let* w := do kk args w in Link.run lab0 code n (cfg0 (j + 2) [] k v' w).
Proof.
  intros V L F P A. rewrite run_add, (view_ok _ _ _ _ _ _ V). cbn [bind Link.run]. cbn [ix cfg0]. rewrite L. unfold Runner.step. cbn [ix cfg0]. rewrite F. cbn [bind].
  rewrite command_plain by exact P. cbn [goto_ ix stk calls hst argc cfg0].
  change (hcmd H kk (rev s) (v', w)) with (let* w1 := do kk (map (agiven (v', w)) (rev s)) w in Ok (v', w1)).
  rewrite A. destruct (do kk args w); reflexivity.
Qed.
Ltac sg :=
  match goal with |- Link.run lab0 the_code (?m + S ?n) (cfg0 ?i [] ?k ?v ?w) = _ =>
    let r := eval vm_compute in (view (Link.run lab0 the_code m (cfg0 i [] k v w))) in
    match r with Some (?j, ?s, _, _, ?v', _) =>
      let f := eval vm_compute in (fetch the_code j) in
      match f with Ok (ICmd ?b ?kk, _) =>
        let a := eval vm_compute in (map (agiven (W := W) (v', w)) (rev s)) in
        rewrite (seg the_code m n i j s k v v' w b kk a); [|vm_compute; reflexivity|reflexivity|reflexivity|reflexivity|reflexivity];
        change (j + 2) with (ltac:(let x := eval vm_compute in (j + 2) in exact x))
      end
    end
  end.
Ltac after := match goal with |- bind (do _ _ ?w) _ = _ => destruct (do _ _ w) as [?w1| |]; cbn [bind]; [|reflexivity|reflexivity] | |- bind ?a _ = bind ?b _ => change b with a; destruct a as [?w1| |]; cbn [bind]; [|reflexivity|reflexivity] end.
Lemma head k w n : Link.run lab0 the_code (15 + n) (cfg0 0 [] k start_vars w) = let* w := run_script script_head w in Link.run lab0 the_code n (cfg0 30 [ER false (Temp 0)] k (with_P 0) w).
Proof.
  change (15 + n)%nat with (6 + S (0 + S (2 + S (0 + S (1 + S (1 + n))))))%nat. unfold script_head. cbn [run_script].
  sg. after. sg. after. sg. after. sg. after. sg. after. cbn [run_script bind].
  rewrite run_add. rewrite (view_ok (Link.run lab0 the_code 1 _) 30 [ER false (Temp 0)] k (with_P 0) w4); [reflexivity|]. vm_compute. reflexivity.
Qed.
Definition for_entry : call aloc := CFor (36 + 10 * 2 ^ 24) (Temp 0).
Lemma for_part k w n : Link.run lab0 the_code (S n) (cfg0 30 [ER false (Temp 0)] k (with_P 0) w) =
  if (length k =? 255)%nat then Err ERR_OUT_OF_MEMORY else Link.run lab0 the_code n (cfg0 32 [ER false (Temp 0)] (for_entry :: k) (with_P 0) w).
Proof.
  cbn [Link.run]. cbn [ix cfg0]. change (30 <? Z.of_nat (length the_code)) with true. cbv iota. unfold Runner.step. cbn [ix cfg0].
  change (fetch the_code 30) with (Ok (ICmd true CMD_FOR, 32)). cbn [bind]. unfold command_step. change (CMD_FOR =? CMD_FOR) with true. cbv iota. unfold cmd_for.
  cbn [goto_ stk calls ix hst argc cfg0]. unfold bottom. cbn [rev app bind].
  change (find_assign (S (length the_code)) the_code 32) with (Some 34). cbv iota. change (@length (call (Loc H)) k) with (@length (call aloc) k). destruct (length k =? 255)%nat; [reflexivity|].
  change (bc_scan the_code (34 + 2) BC_BEGIN_LOOP) with (Some 46). cbv iota. reflexivity.
Qed.
(** P=1, the bounds, and the first pass of the loop *)
Lemma begin_part k w n : Link.run lab0 the_code (8 + n) (cfg0 32 [ER false (Temp 0)] (for_entry :: k) (with_P 0) w) = Link.run lab0 the_code n (cfg0 48 [] (for_entry :: k) (with_P 4096) w).
Proof. rewrite run_add. rewrite (view_ok (Link.run lab0 the_code 8 _) 48 [] (for_entry :: k) (with_P 4096) w); [reflexivity|]. vm_compute. reflexivity. Qed.
Lemma pass p k w n : p = 1 \/ p = 0 -> Link.run lab0 the_code (34 + n) (cfg0 48 [] k (with_P (4096 * p)) w) =
  let* w := run_script (script_page p) w in Link.run lab0 the_code n (cfg0 124 [] k (with_P (4096 * p)) w).
Proof.
  intros P. change (34 + n)%nat with (3 + S (1 + S (0 + S (1 + S (1 + S (3 + S (3 + S (0 + S (4 + S (1 + S (0 + S (1 + S (1 + S (1 + S n))))))))))))))%nat. unfold script_page. cbn [run_script].
  destruct P as [-> | ->]; [change (4096 * 1) with 4096|change (4096 * 0) with 0]; do 14 (sg; after); reflexivity.
Qed.
(** NEXT *)
Lemma next1 k w n : Link.run lab0 the_code (7 + n) (cfg0 124 [] (for_entry :: k) (with_P 4096) w) = Link.run lab0 the_code n (cfg0 48 [] (for_entry :: k) (with_P 0) w).
Proof. rewrite run_add. rewrite (view_ok (Link.run lab0 the_code 7 _) 48 [] (for_entry :: k) (with_P 0) w); [reflexivity|]. vm_compute. reflexivity. Qed.
Lemma next0 k w n : Link.run lab0 the_code (1 + n) (cfg0 124 [] (for_entry :: k) (with_P 0) w) = Link.run lab0 the_code n (cfg0 126 [] k (with_P (-4096)) w).
Proof. rewrite run_add. rewrite (view_ok (Link.run lab0 the_code 1 _) 126 [] k (with_P (-4096)) w); [reflexivity|]. vm_compute. reflexivity. Qed.
Lemma at_end k w v n : Link.run lab0 the_code n (cfg0 126 [] k v w) = Ok (cfg0 126 [] k v w).
Proof. destruct n; reflexivity. Qed.

(** The program of ACLS runs its commands, on both pages, and comes to its end with the call stack as it was; only with a full call stack it cannot. *)
Lemma inside_run k w n : Link.run lab0 the_code (100 + n) (cfg0 0 [] k start_vars w) =
  if (length k =? 255)%nat then let* _ := run_script script_head w in Err ERR_OUT_OF_MEMORY
  else let* w := run_script script w in Ok (cfg0 126 [] k (with_P (-4096)) w).
Proof.
  change (100 + n)%nat with (15 + (S (8 + (34 + (7 + (34 + (1 + n)))))))%nat. rewrite head. unfold script. rewrite !run_script_app.
  destruct (length k =? 255)%nat eqn:E.
  - destruct (run_script script_head w) as [w1| |]; cbn [bind]; [|reflexivity|reflexivity]. rewrite for_part, E. reflexivity.
  - destruct (run_script script_head w) as [w1| |]; cbn [bind]; [|reflexivity|reflexivity]. rewrite for_part, E, begin_part. rewrite run_script_app. change (with_P 4096) with (with_P (4096 * 1)). rewrite pass by auto.
    destruct (run_script (script_page 1) w1) as [w2| |]; cbn [bind]; [|reflexivity|reflexivity]. change (4096 * 1) with 4096. rewrite next1. change (with_P 0) with (with_P (4096 * 0)). rewrite pass by auto.
    destruct (run_script (script_page 0) w2) as [w3| |]; cbn [bind]; [|reflexivity|reflexivity]. change (4096 * 0) with 0. rewrite next0. apply at_end.
Qed.
End Run.
