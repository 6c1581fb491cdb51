(** Properties C27-C29: /repo/subsetter/plan_model.py ([simplify] and [build]). *)
From Verif Require Import Model.Base Model.Value Model.PlanModel Spec.SqlSem Model.SqlAlgebra Model.PlanBuild.
From Verif Require Import Proofs.SimplifyFacts Proofs.BuildFacts.

Open Scope string_scope.
Open Scope list_scope.

(** C27: what is missing is exactly the clauses containing a sub-statement with an unsafe union, for
    which the claim is false ([C27_simplify_where_refuted]). *)
Theorem C27_simplify_where_partial : forall (e : sqlenv) (z : rnd) (c c' : wc),
  rnd_ok z -> wc_safe c -> simplify_wc c = Ok c' ->
  forall i r, eval_wc e z i r c' = eval_wc e z i r c.
Proof. exact simplify_wc_eval. Qed.
Print Assumptions C27_simplify_where_partial.

(** [simplify] returns whenever no union is empty. *)
Theorem C27_simplify_where_total : forall c, wc_nonempty c -> exists c', simplify_wc c = Ok c'.
Proof. exact simplify_wc_total. Qed.
Print Assumptions C27_simplify_where_total.

(** C28: missing: unions in which two members read the same columns of the same table without a
    limit and one has joins; false for those ([C28_simplify_statement_refuted]). *)
Theorem C28_simplify_statement_partial : forall (e : sqlenv) (z : rnd) (s s' : stmt),
  rnd_ok z -> stmt_safe s -> simplify_stmt s = Ok s' ->
  same_rows (sem_stmt e z s') (sem_stmt e z s).
Proof. exact simplify_stmt_rows. Qed.
Print Assumptions C28_simplify_statement_partial.

(** For a single select even the list of rows (order, multiplicity) is the same. *)
Theorem C28_simplify_select_list : forall (e : sqlenv) (z : rnd) (x : sel) (s' : stmt),
  rnd_ok z -> sel_safe x -> simplify_stmt (SSelect x) = Ok s' ->
  sem_stmt e z s' = sem_stmt e z (SSelect x).
Proof. exact simplify_sel_list. Qed.
Print Assumptions C28_simplify_select_list.

Theorem C28_simplify_statement_total : forall s, stmt_nonempty s -> exists s', simplify_stmt s = Ok s'.
Proof. exact simplify_stmt_total. Qed.
Print Assumptions C28_simplify_statement_total.

(** C29: for every table context that hands out the right contents and unique primary keys. *)
Theorem C29_build_rows : forall (S : Type) (context : ident -> S -> res build_exn (tobj * S))
    (e : sqlenv) (d : dbenv) (z : rnd) (st : stmt) (s : S) (q : query) (s' : S),
  db_cmp d = cmp e -> db_text d = text e ->
  (forall id s t s', context id s = Ok (t, s') -> db_rows d (t_ref t) = contents e id) ->
  (forall id s t s', context id s = Ok (t, s') -> t_pk t <> [] ->
     NoDup (map (fun r => map (rget r) (t_pk t)) (db_rows d (t_ref t)))) ->
  stmt_wf st -> build_stmt context st s = Ok (q, s') ->
  eval_query d z q = sem_stmt e z st.
Proof. exact (@build_stmt_rows). Qed.
Print Assumptions C29_build_rows.

Theorem C29_half_unique_irrelevant : forall (S : Type) (context : ident -> S -> res build_exn (tobj * S))
    (e : sqlenv) (d : dbenv) (z : rnd) cs f w lim js js' o s q s1 s' q' s1',
  db_cmp d = cmp e -> db_text d = text e ->
  (forall id s t s', context id s = Ok (t, s') -> db_rows d (t_ref t) = contents e id) ->
  (forall id s t s', context id s = Ok (t, s') -> t_pk t <> [] ->
     NoDup (map (fun r => map (rget r) (t_pk t)) (db_rows d (t_ref t)))) ->
  sel_wf (Sel cs f w lim (Some js) o) ->
  Forall2 (fun j j' => j_right j = j_right j' /\ j_left_cols j = j_left_cols j' /\ j_right_cols j = j_right_cols j') js js' ->
  build_sel context (Sel cs f w lim (Some js) o) s = Ok (q, s1) ->
  build_sel context (Sel cs f w lim (Some js') o) s' = Ok (q', s1') ->
  eval_query d z q = eval_query d z q'.
Proof. exact (@build_flags). Qed.
Print Assumptions C29_half_unique_irrelevant.

(** * Concrete cases *)

(** Source table s.t with rows 1, 2, 3; the sample of s.c references row 2 twice, row 3 never. *)
Definition ex_rows : list row :=
  [[("id", VInt 1); ("n", VNull)]; [("id", VInt 2); ("n", VInt 7)]; [("id", VInt 3); ("n", VInt 8)]].
Definition ex_child : list row :=
  [[("id", VInt 10); ("t_id", VInt 2)]; [("id", VInt 11); ("t_id", VInt 2)]; [("id", VInt 12); ("t_id", VNull)]].
Definition t_src := mkIdent "s" "t" false.
Definition c_smp := mkIdent "s" "c" true.
Definition ex_env : sqlenv :=
  mkEnv (fun i => if eqb i t_src then ex_rows else if eqb i c_smp then ex_child else [])
        (fun op a b => match op with CEq => eqb a b | CNe => negb (eqb a b) | _ => false end)
        (fun _ _ _ => U3).
Definition ex_rnd : rnd := mkRnd (fun _ _ _ => Qmake 1 2) (fun l => l).
Definition ex_join (hu : bool) : join := mkJoin c_smp ["id"] ["t_id"] hu.

Example ex_rnd_ok : rnd_ok ex_rnd.
Proof. split; [intros; split; [discriminate|reflexivity]|intros; apply Permutation_refl]. Qed.

(** The union the planner emits for a target without 'amount' that is referenced by a sampled table:
    rows with id = 1, plus referenced rows. *)
Definition ex_union : stmt :=
  SUnion [Sel None t_src (Some (WOp OpEq "id" (LInt 1))) None None false;
          Sel None t_src None None (Some [ex_join false]) true].

Example ex_union_rows :
  sem_stmt ex_env ex_rnd ex_union =
  [[("id", VInt 1); ("n", VNull)]; [("id", VInt 2); ("n", VInt 7)]].
Proof. vm_compute. reflexivity. Qed.

(** Row 3 is not selected by the union but is selected by the simplified statement. *)
Theorem C28_simplify_statement_refuted : exists (e : sqlenv) (z : rnd) (s s' : stmt),
  rnd_ok z /\ stmt_nonempty s /\ simplify_stmt s = Ok s' /\
  exists r, In r (sem_stmt e z s') /\ ~ In r (sem_stmt e z s).
Proof.
  exists ex_env, ex_rnd, ex_union, (SSelect (Sel None t_src None None None false)).
  split; [exact ex_rnd_ok|]. split; [vm_compute; intuition discriminate|]. split; [reflexivity|].
  exists [("id", VInt 3); ("n", VInt 8)]. split.
  - vm_compute. auto.
  - vm_compute. intuition discriminate.
Qed.
Print Assumptions C28_simplify_statement_refuted.

Theorem C27_simplify_where_refuted : exists (e : sqlenv) (z : rnd) (c c' : wc) (i : nat) (r : row),
  rnd_ok z /\ wc_nonempty c /\ simplify_wc c = Ok c' /\
  eval_wc e z i r c = F3 /\ eval_wc e z i r c' = T3.
Proof.
  exists ex_env, ex_rnd, (WInStmt ["id"; "n"] ex_union false),
    (WInStmt ["id"; "n"] (SSelect (Sel None t_src None None None false)) false), 2%nat, [("id", VInt 3); ("n", VInt 8)].
  split; [exact ex_rnd_ok|]. split; [vm_compute; intuition discriminate|].
  split; [reflexivity|]. split; vm_compute; reflexivity.
Qed.
Print Assumptions C27_simplify_where_refuted.

(** A clause meeting the hypotheses of C27 that simplifies to something else, and is not constant. *)
Definition ex_clause : wc :=
  WAnd [WTrue; WOr [WFalse; WAnd [WOp OpEq "n" (LInt 7); WRandom 1]; WInStmt ["id"]
          (SUnion [Sel (Some ["t_id"]) c_smp (Some WFalse) None None false;
                   Sel (Some ["t_id"]) c_smp (Some WTrue) None None false]) true]].
Example ex_clause_case :
  wc_safe ex_clause /\ wc_nonempty ex_clause /\
  simplify_wc ex_clause =
    Ok (WOr [WOp OpEq "n" (LInt 7); WInStmt ["id"] (SSelect (Sel (Some ["t_id"]) c_smp None None None false)) true]) /\
  map (fun r => eval_wc ex_env ex_rnd 0 r ex_clause) ex_rows = [U3; T3; U3].
Proof.
  split; [|split; [vm_compute; intuition discriminate|split; vm_compute; reflexivity]].
  cbn. repeat split. constructor; [|constructor; constructor].
  constructor; [|constructor]. intros _ _ _ _. split; left; reflexivity.
Qed.

(** A statement meeting the hypotheses of C28 although it has joins: the other member has a limit. *)
Definition ex_safe_union : stmt :=
  SUnion [Sel None t_src (Some (WAnd [WRandom (Qmake 3 4); WTrue])) (Some 1%Z) None false;
          Sel None t_src None None (Some [ex_join true]) true].
Example ex_safe_union_case :
  stmt_safe ex_safe_union /\ stmt_nonempty ex_safe_union /\
  simplify_stmt ex_safe_union =
    Ok (SUnion [Sel None t_src (Some (WRandom (Qmake 3 4))) (Some 1%Z) None false;
                Sel None t_src None None (Some [ex_join true]) true]) /\
  sem_stmt ex_env ex_rnd ex_safe_union =
    [[("id", VInt 1); ("n", VNull)]; [("id", VInt 2); ("n", VInt 7)]].
Proof.
  split; [|split; [vm_compute; intuition discriminate|split; vm_compute; reflexivity]].
  cbn. repeat split. constructor; [|constructor; constructor].
  constructor; [|constructor]. intros _ _ Hl _. discriminate.
Qed.

(** A context for these two tables, counting the uses of the sample. *)
Definition ex_ctx (i : ident) (n : nat) : res build_exn (tobj * nat) :=
  if eqb i t_src then Ok (mkT (TSource ("s", "t")) ["id"; "n"] ["id"], n)
  else if eqb i c_smp then Ok (mkT (TTemp ("s", "c") n) ["id"; "t_id"] ["id"], 1 + n)
  else Err BKeyError.
Definition ex_db : dbenv :=
  mkDb (fun t => match t with TSource _ => ex_rows | TTemp _ _ => ex_child end)
       (cmp ex_env) (text ex_env) (fun _ _ => []).

Example ex_ctx_ok :
  (forall id s t s', ex_ctx id s = Ok (t, s') -> db_rows ex_db (t_ref t) = contents ex_env id) /\
  (forall id s t s', ex_ctx id s = Ok (t, s') -> t_pk t <> [] ->
     NoDup (map (fun r => map (rget r) (t_pk t)) (db_rows ex_db (t_ref t)))).
Proof.
  unfold ex_ctx. split; intros id s t s' Hc; cbn [contents ex_env].
  - destruct (eqb id t_src); [injection Hc as <- <-; reflexivity|].
    destruct (eqb id c_smp); [injection Hc as <- <-; reflexivity|discriminate].
  - intros _. destruct (eqb id t_src); [injection Hc as <- <-|destruct (eqb id c_smp); [injection Hc as <- <-|discriminate]];
      vm_compute; repeat constructor; cbn; intuition discriminate.
Qed.

(** Built with a real join and with EXISTS: same rows, row 2 once although two child rows match. *)
Example ex_build_case : exists q q',
  build_sel ex_ctx (Sel None t_src None None (Some [ex_join true; ex_join true]) true) 0 = Ok (q, 2%nat) /\
  build_sel ex_ctx (Sel None t_src None None (Some [ex_join false; ex_join true]) true) 0 = Ok (q', 2%nat) /\
  q <> q' /\
  eval_query ex_db ex_rnd q = [[("id", VInt 2); ("n", VInt 7)]] /\
  eval_query ex_db ex_rnd q' = [[("id", VInt 2); ("n", VInt 7)]] /\
  sel_wf (Sel None t_src None None (Some [ex_join true; ex_join true]) true).
Proof.
  eexists _, _. split; [vm_compute; reflexivity|]. split; [vm_compute; reflexivity|].
  split; [discriminate|]. split; [vm_compute; reflexivity|]. split; [vm_compute; reflexivity|].
  cbn. repeat constructor; discriminate.
Qed.
