(** Sampler properties C33-C36, C40-C43, C80: materialisation, copying and identifier compaction.  Every theorem
    quantifies over the source database (rows, comparison, raw SQL), the outcomes of the random choices and the iteration order of
    Python sets. *)
From Coq Require Import Lia.
From Verif Require Import Model.Base Model.Value Model.Names Model.PlanModel Model.SqlAlgebra Model.Metadata Model.Materialize.
From Verif Require Import Spec.GraphSpec Spec.SchemaSpec Spec.SqlSem Spec.PlannerSpec Spec.SampleSpec.
From Verif Require Import Proofs.BaseFacts Proofs.NameFacts Proofs.PlannerExamples Proofs.MaterializeOrder Proofs.CompactColumns Proofs.SampleFinal Proofs.SampleExamples.
Open Scope string_scope.
Open Scope list_scope.

(** C33: the tables whose sample is read, each once, each after the tables its own query reads. *)
Theorem C33_materialisation_order : forall (ms : meta) (compact : dict tname (list string)) ord queries l,
  any_order ord -> queries_ok queries -> NoDup (dkeys compact) -> NoDup (dkeys ms) -> reads_inside queries ->
  materialization_order ord ms compact queries = Ok l ->
  NoDup (map fst l) /\
  (forall n, In n (map fst l) <-> has_query queries n /\ needed ms compact queries n) /\
  (forall n d, reads_sample queries n d -> In n (map fst l) -> before (map fst l) d n).
Proof. intros; eapply order_spec; eassumption. Qed.
(** ... it exists unless the references are cyclic (ValueError) or leave the plan (KeyError). *)
Theorem C33_order_exists : forall (ms : meta) (compact : dict tname (list string)) ord queries,
  any_order ord -> queries_ok queries -> plan_fits ms queries -> reads_inside queries ->
  ((exists l, materialization_order ord ms compact queries = Ok l) \/ materialization_order ord ms compact queries = Err SxValueError) /\
  (materialization_order ord ms compact queries = Err SxValueError <-> exists n, on_cycle (reads_sample queries) n).
Proof. intros; eapply order_total; eassumption. Qed.
Theorem C33_order_keyerror : forall (ms : meta) (compact : dict tname (list string)) ord queries,
  any_order ord -> queries_ok queries -> plan_fits ms queries ->
  (materialization_order ord ms compact queries = Err SxKeyError <-> exists n d, reads_sample queries n d /\ ~ has_query queries d).
Proof. intros; eapply order_keyerror; eassumption. Qed.

Example C33_case : materialization_order idl xms xcompact xqueries = Ok [(tp, 2)] /\
  queries_ok xqueries /\ NoDup (dkeys xcompact) /\ NoDup (dkeys xms) /\ plan_fits xms xqueries /\ reads_inside xqueries.
Proof.
  split; [vm_compute; reflexivity|]. pose proof (x_runnable true) as [A _ _ B _ _ C D _ E _ _].
  split; [exact B|]. split; [exact (proj1 E)|]. split; [exact (proj1 A)|]. split; assumption.
Qed.
Definition q_back : table_query :=
  mkQuery None None (Some (SSelect (Sel None (mkIdent "s" "p" false) None None (Some [mkJoin (mkIdent "s" "c" true) ["id"] ["pid"] false]) false))).
Example C33_cycle : materialization_order idl xms [] [("s.c", q_c); ("s.p", q_back)] = Err SxValueError /\
  materialization_order idl xms [] [("s.c", q_c)] = Err SxKeyError.
Proof. split; vm_compute; reflexivity. Qed.

Section Props.
Variables (source : tname -> list row) (cmpf : cmpop -> value -> value -> bool)
          (textf : string -> option (dict string lit) -> row -> tv)
          (rawf : string -> option (dict string lit) -> list row)
          (raw_cols : string -> option (dict string lit) -> list string)
          (z : phase -> tname -> rnd) (rank : phase -> tname -> list (list value) -> list nat) (reopen : bool)
          (ms : meta) (compact : dict tname (list string)) (start : Z) (ord : list tname -> list tname).
Notation run := (extract source cmpf textf rawf raw_cols z rank reopen ms compact start ord).
Notation selected queries := (selects cmpf textf rawf source (fun n w => exists p, w = z p n) id_column queries).

(** C34: the plan is evaluated once: the rows of [n] that other queries see as its sample are those written for it
    (renumbered if compacted), whatever the random choices [z]. *)
Theorem C34_one_evaluation : forall queries insert_order st outs,
  any_order ord -> meta_ok ms -> source_unique ms source -> queries_ok queries -> plan_wf queries ->
  NoDup (dkeys compact) -> (forall p n ks, length (rank p n ks) = length ks) ->
  run queries insert_order = Ok (st, outs) ->
  map (fun o => render (co_name o)) outs = filter (fun s => dmem queries s) insert_order /\
  exists sample rows : tname -> list row, selected queries sample rows /\
    (forall n, ~ In n (dkeys compact) -> sample n = rows n) /\
    (forall o, In o outs -> not_compacted ms compact (co_name o) -> co_rows o = rows (co_name o)).
Proof. intros; eapply run_sees; eassumption. Qed.

(** C36, where it holds: on a plan that fits the schema, if no foreign key has two compacted columns and no table
    refers to a compacted column of itself, the run succeeds, and all its statements can be executed. *)
Theorem C36_temporary_tables_partial : forall queries insert_order,
  any_order ord -> (forall p n, rnd_ok (z p n)) -> (forall p n ks, length (rank p n ks) = length ks) ->
  runnable id_column reopen ms source compact queries ->
  (reopen = false -> no_self_references ms compact queries) ->
  (forall s, In s insert_order -> exists n, named s n) ->
  exists r, run queries insert_order = Ok r /\ Forall (stmt_runs reopen) (executed r).
Proof. intros; eapply run_executes; eassumption. Qed.

(** C40: dense numbers, increasing with the primary key ([lt] is the order of the database). *)
Theorem C40_dense : forall lt queries insert_order st outs,
  any_order ord -> (forall p n, rank_ok lt (rank p n)) -> runnable id_column reopen ms source compact queries ->
  run queries insert_order = Ok (st, outs) ->
  exists sample rows : tname -> list row, selected queries sample rows /\
    forall o m c, In o outs -> In (co_name o, m) ms -> compacted compact (co_name o) c -> In c (tb_cols (tm_table m)) ->
      unique_references cmpf ms compact rows (co_name o) ->
      exists num, dense start (length (rows (co_name o))) num /\
        increasing lt (tb_pk (tm_table m)) (rows (co_name o)) num /\
        map (fun r => rget r c) (co_rows o) = map VInt num.
Proof. intros; eapply run_dense; eassumption. Qed.

(** C41: every selected row is written once, its references follow the numbers of the rows they referred to, and the
    single-column foreign keys hold between the written rows. *)
Theorem C41_references_follow : forall lt queries insert_order st outs,
  any_order ord -> (forall p n, rank_ok lt (rank p n)) -> runnable id_column reopen ms source compact queries ->
  (forall k, cmpf CEq (VInt k) (VInt k) = true) ->
  run queries insert_order = Ok (st, outs) ->
  exists (sample rows : tname -> list row) (num : tname -> list Z), selected queries sample rows /\
    (forall n m, In (n, m) ms -> dense start (length (rows n)) (num n)) /\
    (forall o, In o outs -> not_compacted ms compact (co_name o) -> co_rows o = rows (co_name o)) /\
    (forall o m, In o outs -> In (co_name o, m) ms -> touched ms compact (co_name o) -> unique_references cmpf ms compact rows (co_name o) ->
       co_cols o = tb_cols (tm_table m) /\ ~ In id_column (co_cols o) /\
       Forall2 (fun kr r' => rewritten cmpf ms compact rows num (co_name o) m (fst kr) (snd kr) r')
               (combine (num (co_name o)) (rows (co_name o))) (co_rows o)) /\
    (forall o o' m m' fk c dc, In o outs -> In o' outs -> In (co_name o, m) ms -> In (co_name o', m') ms ->
       In fk (tm_fks m) -> fk_cols fk = [c] -> fk_dst fk = co_name o' -> fk_dst_cols fk = [dc] ->
       In c (tb_cols (tm_table m)) -> In dc (tb_cols (tm_table m')) -> compacted compact (co_name o') dc -> ~ compacted compact (co_name o) c ->
       decides ms compact (co_name o) c (co_name o') dc ->
       unique_references cmpf ms compact rows (co_name o) -> unique_references cmpf ms compact rows (co_name o') ->
       fk_holds cmpf fk (co_rows o) (co_rows o')).
Proof. intros; eapply run_follows; eassumption. Qed.
End Props.

(** C35: the order of the plan, the insertion order and the set iteration order do not matter. *)
Theorem C35_order_irrelevant : forall source cmpf textf rawf raw_cols rank reopen ms compact start z z' ord ord'
    queries queries' insert_order insert_order' st outs,
  (forall (p : phase) (n : tname) ks, length (rank p n ks) = length ks) ->
  any_order ord -> any_order ord' -> (forall p n, rnd_ok (z p n)) -> (forall p n, rnd_ok (z' p n)) ->
  Permutation queries queries' -> runnable id_column reopen ms source compact queries -> plan_random_free queries ->
  Permutation insert_order insert_order' ->
  extract source cmpf textf rawf raw_cols z rank reopen ms compact start ord queries insert_order = Ok (st, outs) ->
  exists st' outs', extract source cmpf textf rawf raw_cols z' rank reopen ms compact start ord' queries' insert_order' = Ok (st', outs') /\
    forall o, In o outs -> exists o', In o' outs' /\ co_name o' = co_name o /\ co_cols o' = co_cols o /\ co_rows o' = co_rows o.
Proof. intros until outs. intros H H0 H1 H2 H3 H4 H5 H6 H7 H8. exact (order_irrelevant H H0 H1 H2 H3 H4 H5 H6 H7 H8). Qed.

(** Hypotheses of C34-C36, C40, C41 on the schema p <- c of Proofs/SampleExamples.v, for PostgreSQL/SQLite and MySQL. *)
Example run_hypotheses : forall reopen,
  runnable id_column reopen xms xsource xcompact xqueries /\ no_self_references xms xcompact xqueries /\
  plan_random_free xqueries /\ any_order idl /\ (forall p n, rnd_ok (xz p n)) /\
  (forall p n, rank_ok (fun a b => (xkey a < xkey b)%Z) (xrank p n)) /\ (forall k, xcmp CEq (VInt k) (VInt k) = true).
Proof.
  intros reopen. split; [apply x_runnable|]. split; [exact x_no_self|]. split; [exact x_random_free|]. split; [exact idl_ok|].
  split; [exact xz_ok|]. split; [intros p n; apply rank_by_ok|]. intros k. apply Z.eqb_refl.
Qed.
(** Without compaction: parents 9 and 7 and their children; with compaction from 100: numbered by key, references followed;
    the same for the other plan order and for MySQL. *)
Example run_case : forall reopen,
  rows_of (xrun reopen [] 100 xqueries) =
    Some [ [ [("id", VInt 9); ("name", VStr "x")]; [("id", VInt 7); ("name", VStr "z")] ];
           [ [("id", VInt 2); ("pid", VInt 9)]; [("id", VInt 5); ("pid", VInt 7)] ] ] /\
  rows_of (xrun reopen xcompact 100 xqueries) =
    Some [ [ [("id", VInt 101); ("name", VStr "x")]; [("id", VInt 100); ("name", VStr "z")] ];
           [ [("id", VInt 100); ("pid", VInt 101)]; [("id", VInt 101); ("pid", VInt 100)] ] ] /\
  rows_of (xrun reopen xcompact 100 (rev xqueries)) = rows_of (xrun reopen xcompact 100 xqueries).
Proof. intros [|]; vm_compute; tauto. Qed.
(** The column p.id that c.pid follows is unique among these rows. *)
Example run_single : forall n, unique_references xcmp xms xcompact
  (fun n => if eqb n tp then [ [("id", VInt 9); ("name", VStr "x")]; [("id", VInt 7); ("name", VStr "z")] ] else []) n.
Proof.
  intros n c d dc H. apply CompactRun.decides_governs in H. destruct (x_governs _ _ _ _ H) as (_ & _ & -> & ->). intros v i j r r' Hi Hj (_ & _ & M) (_ & _ & M').
    destruct v; cbn in M; try discriminate. cbn in Hi, Hj.
    destruct i as [|[|[|i]]]; try discriminate; destruct j as [|[|[|j]]]; try discriminate; try reflexivity;
      cbn in Hi, Hj; injection Hi as <-; injection Hj as <-; cbn in M, M'; apply Z.eqb_eq in M, M'; congruence.
Qed.

(** C36 does not hold in general (MySQL, [reopen] = false): a foreign key with two compacted columns needs a second
    copy that is never created; a table with a compacted key that refers to itself is joined with the very temporary table it
    is read from. *)
Theorem C36_refuted :
  (exists ms compact queries io, queries_ok queries /\ plan_fits ms queries /\ compact_ok ms compact id_column /\
     extract source2 xcmp xtext xraw xraw_cols xz xrank false ms compact 1 idl queries io = Err SxKeyError /\
     exists r, extract source2 xcmp xtext xraw xraw_cols xz xrank true ms compact 1 idl queries io = Ok r) /\
  (exists ms compact queries io r, one_compacted ms compact /\
     extract source3 xcmp xtext xraw xraw_cols xz xrank false ms compact 1 idl queries io = Ok r /\
     Exists (fun e => exists n i, 2 <= refs_of (fst e) n i) (executed r)).
Proof.
  split.
  - exists ms2, [(tp2, ["a"; "b"])], queries2, ["s.p2"; "s.c2"].
    assert (Hin : forall s q n, In (s, q) queries2 -> named s n -> (n = tp2 /\ q = all_of "p2") \/ (n = tc2 /\ q = all_of "c2")).
    { intros s q n [E|[E|[]]] Hn; inversion E; subst; apply (proj2 (parse_named _ _)) in Hn; vm_compute in Hn; inversion Hn; tauto. }
    split; [split; [nd|intros s [<-|[<-|[]]]; [exists tp2|exists tc2]; apply named_parse; reflexivity]|].
    split.
    { intros s q n H Hn. destruct (Hin s q n H Hn) as [[-> ->]|[-> ->]].
      - split; [left; reflexivity|]. eexists. split; [reflexivity|]. split; [exact I|]. exists ["a"; "b"]. split; [reflexivity|]. repeat split.
      - split; [right; left; reflexivity|]. eexists. split; [reflexivity|]. split; [exact I|]. exists ["id"; "pa"; "pb"]. split; [reflexivity|]. repeat split. }
    split.
    { split; [nd|]. split; [intros n cs [E|[]]; inversion E; discriminate|]. split.
      - intros n m [E|[E|[]]]; inversion E; subst; (split; [nd|]); (split; [vm_compute; intros Hx; repeat (destruct Hx as [Hx|Hx]; [discriminate Hx|]); exact Hx|]); intros x Hx; cbn in *; tauto.
      - intros n c d dc (m & fk & Hm & Hfk & Hd & Hc & _). destruct Hm as [E|[E|[]]]; inversion E; subst; cbn in Hfk; [destruct Hfk|].
        destruct Hfk as [<-|[]]. cbn in Hc. destruct Hc as [E'|[E'|[]]]; inversion E'; discriminate. }
    split; [vm_compute; reflexivity|]. eexists. vm_compute. reflexivity.
  - exists ms3, [(te, ["id"])], [("s.e", all_of "e")], ["s.e"]. eexists. split; [|split; [vm_compute; reflexivity|]].
    + intros n m fk a b a' b' [E|[]] Hfk H1 H2 _ _; inversion E; subst; cbn in Hfk. destruct Hfk as [<-|[]]. cbn in H1, H2.
      destruct H1 as [E1|[]]; destruct H2 as [E2|[]]. congruence.
    + apply Exists_exists. eexists. split; [right; left; reflexivity|]. exists te, 0. vm_compute. apply le_n.
Qed.

(** C42 does not hold: with a composite foreign key each column is joined on its own.  The source satisfies the foreign key,
    the child row is written twice, and the second row violates it. *)
Theorem C42_refuted : exists ms compact queries st o o' fk,
  extract source2 xcmp xtext xraw xraw_cols xz xrank true ms compact 1 idl queries ["s.p2"; "s.c2"] = Ok (st, [o'; o]) /\
  (exists m, In (co_name o, m) ms /\ In fk (tm_fks m)) /\ fk_dst fk = co_name o' /\
  fk_holds xcmp fk (source2 (co_name o)) (source2 (co_name o')) /\
  length (co_rows o) <> length (source2 (co_name o)) /\
  ~ fk_holds xcmp fk (co_rows o) (co_rows o').
Proof.
  exists ms2, [(tp2, ["b"])], queries2. do 3 eexists. exists c2_fk. split; [vm_compute; reflexivity|]. cbn [co_name co_rows].
  split; [eexists; split; [right; left; reflexivity|left; reflexivity]|]. split; [reflexivity|]. split; [|split].
  - intros r [<-|[]] _. eexists. split; [left; reflexivity|]. repeat constructor; vm_compute; discriminate.
  - vm_compute. discriminate.
  - intros H. destruct (H [("id", VInt 10); ("pa", VInt 1); ("pb", VInt 2)]) as (r' & Hr & Hf).
    + right. left. reflexivity.
    + intros c [<-|[<-|[]]]; discriminate.
    + unfold refers in Hf. cbn [c2_fk fk_cols fk_dst_cols] in Hf. inversion Hf as [|? ? ? ? (_ & _ & E1) Hf' e1 e2]; subst. inversion Hf' as [|? ? ? ? (_ & _ & E2) _ e3 e4]; subst.
      destruct Hr as [<-|[<-|[]]]; vm_compute in E1, E2; discriminate.
Qed.
(** What holds for composite foreign keys: if the columns that decide their numbers are unique, then each column follows the
    column that decides. *)
Theorem C42_composite_partial : forall source cmpf textf rawf raw_cols z rank reopen ms compact start ord lt queries insert_order st outs,
  any_order ord -> (forall p n, rank_ok lt (rank p n)) -> runnable id_column reopen ms source compact queries ->
  (forall k, cmpf CEq (VInt k) (VInt k) = true) ->
  extract source cmpf textf rawf raw_cols z rank reopen ms compact start ord queries insert_order = Ok (st, outs) ->
  exists (sample rows : tname -> list row) (num : tname -> list Z),
    selects cmpf textf rawf source (fun n w => exists p, w = z p n) id_column queries sample rows /\
    forall o m, In o outs -> In (co_name o, m) ms -> touched ms compact (co_name o) -> unique_references cmpf ms compact rows (co_name o) ->
      forall i k r r', nth_error (num (co_name o)) i = Some k -> nth_error (rows (co_name o)) i = Some r -> nth_error (co_rows o) i = Some r' ->
      forall fk c dc, In fk (tm_fks m) -> In (c, dc) (combine (fk_cols fk) (fk_dst_cols fk)) -> decides ms compact (co_name o) c (fk_dst fk) dc ->
        In c (tb_cols (tm_table m)) -> ~ compacted compact (co_name o) c ->
        follows cmpf (rows (fk_dst fk)) (num (fk_dst fk)) dc (rget r c) (rget r' c).
Proof. exact composite_follows. Qed.

(** C43 does not hold: the check is skipped when neither primary keys nor auto-increment keys are compacted. *)
Theorem C43_refuted : exists cfg ms acc n m fk c,
  get_compact_columns cfg [] ms (fun _ _ => true) (fun _ => false) = Ok acc /\
  In (n, m) ms /\ In fk (tm_fks m) /\ In c (fk_cols fk) /\ compacted acc n c.
Proof.
  exists (mkCompact false false 1 [("s.c", ["pid"])]), xms, [(tc, ["pid"])], tc, (mkMeta c_tab [c_fk] []), c_fk, "pid".
  split; [vm_compute; reflexivity|]. split; [right; left; reflexivity|]. split; [left; reflexivity|]. split; [left; reflexivity|].
  exists ["pid"]. split; left; reflexivity.
Qed.
Theorem C43_no_foreign_key_partial : forall cfg passthrough ms is_int has_autoinc acc,
  NoDup (dkeys ms) -> NoDup (dkeys (cp_columns cfg)) -> cp_primary_keys cfg = true \/ cp_auto_increment cfg = true ->
  get_compact_columns cfg passthrough ms is_int has_autoinc = Ok acc ->
  forall n m fk c, In (n, m) ms -> In fk (tm_fks m) -> In c (fk_cols fk) -> ~ compacted acc n c.
Proof. intros; eapply compact_no_fk; eassumption. Qed.

(** C80: exactly the configured columns are compacted. *)
Theorem C80_compacted_columns : forall cfg passthrough ms is_int has_autoinc acc,
  NoDup (dkeys (cp_columns cfg)) ->
  get_compact_columns cfg passthrough ms is_int has_autoinc = Ok acc ->
  NoDup (dkeys acc) /\
  forall n c, compacted acc n c <->
    exists m, In (n, m) ms /\ ~ In (render n) passthrough /\
      ((exists s cs, In (s, cs) (cp_columns cfg) /\ named s n /\ In c cs) \/
       (tb_pk (tm_table m) = [c] /\ is_int n c = true /\
        (cp_primary_keys cfg = true \/ (cp_auto_increment cfg = true /\ has_autoinc n = true)))).
Proof. intros; eapply compact_columns_spec; eassumption. Qed.
Example C80_case : forall is_int,
  is_int = (fun (n : tname) (c : string) => eqb c "id") ->
  get_compact_columns (mkCompact true false 1 [("s.p", ["name"]); ("s.zz", ["x"])]) [] xms is_int (fun _ => false) =
    Ok [(tp, ["name"; "id"]); (tc, ["id"])] /\
  get_compact_columns (mkCompact true false 1 []) ["s.p"] xms is_int (fun _ => false) = Ok [(tc, ["id"])] /\
  get_compact_columns (mkCompact false true 1 []) [] xms is_int (fun n => eqb n tc) = Ok [(tc, ["id"])] /\
  get_compact_columns (mkCompact true false 1 [("s.c", ["pid"])]) [] xms is_int (fun _ => false) = Err SxValueError.
Proof. intros ? ->. vm_compute. tauto. Qed.

Print Assumptions C33_materialisation_order.
Print Assumptions C33_order_exists.
Print Assumptions C33_order_keyerror.
Print Assumptions C34_one_evaluation.
Print Assumptions C35_order_irrelevant.
Print Assumptions C36_temporary_tables_partial.
Print Assumptions C36_refuted.
Print Assumptions C40_dense.
Print Assumptions C41_references_follow.
Print Assumptions C42_refuted.
Print Assumptions C42_composite_partial.
Print Assumptions C43_refuted.
Print Assumptions C43_no_foreign_key_partial.
Print Assumptions C80_compacted_columns.
