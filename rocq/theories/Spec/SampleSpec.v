(** Specification vocabulary for the sampler: which tables the queries of a plan mention, what it takes for a
    plan to fit a schema, dense numbering. *)
From Verif Require Import Model.Base Model.Value Model.PlanModel Model.SqlAlgebra Model.Metadata Model.Planner.
From Verif Require Import Spec.GraphSpec Spec.SchemaSpec Spec.SqlSem Spec.PlannerSpec.
Open Scope list_scope.

(** The table identifiers occurring in a statement, each as often as it occurs. *)
Definition joins_ids (js : option (list join)) : list ident :=
  match js with Some l => map j_right l | None => [] end.
Fixpoint wc_ids (c : wc) : list ident :=
  match c with
  | WInStmt _ s _ => stmt_ids s
  | WAnd l | WOr l => concat (map wc_ids l)
  | _ => []
  end
with sel_ids (s : sel) : list ident :=
  match s with
  | Sel _ from w _ js _ => from :: joins_ids js ++ match w with Some w => wc_ids w | None => [] end
  end
with stmt_ids (s : stmt) : list ident :=
  match s with SSelect x => sel_ids x | SUnion l => concat (map sel_ids l) end.
(** A raw SQL query mentions no identifiers. *)
Definition query_ids (q : table_query) : list ident :=
  match q_sql q with
  | Some _ => []
  | None => match q_stmt q with Some st => stmt_ids st | None => [] end
  end.

Section Fits.
(** The columns of the table an identifier stands for, if there is such a table. *)
Variable cols : ident -> option (list string).
(** Every table the statement mentions exists and has the columns the statement uses. *)
Definition join_fits (t : list string) (j : join) : Prop :=
  incl (j_left_cols j) t /\ exists rt, cols (j_right j) = Some rt /\ incl (j_right_cols j) rt.
Fixpoint wc_fits (t : list string) (c : wc) : Prop :=
  match c with
  | WOp _ c _ => In c t
  | WInVals cs _ _ => incl cs t
  | WInStmt cs s _ => incl cs t /\ stmt_fits s
  | WAnd l | WOr l => fold_right and True (map (wc_fits t) l)
  | _ => True
  end
with sel_fits (s : sel) : Prop :=
  match s with
  | Sel cs from w _ js _ =>
      exists t, cols from = Some t /\
        match cs with Some cs => incl cs t | None => True end /\
        match js with Some l => Forall (join_fits t) l | None => True end /\
        match w with Some w => wc_fits t w | None => True end
  end
with stmt_fits (s : stmt) : Prop :=
  match s with SSelect x => sel_fits x | SUnion l => fold_right and True (map sel_fits l) end.
Definition query_fits (q : table_query) : Prop :=
  match q_sql q with
  | Some _ => True
  | None => exists st, q_stmt q = Some st /\ stmt_wf st /\ stmt_fits st
  end.
End Fits.

(** The query of table [n] reads the sample of table [d]. *)
Definition reads_sample (queries : dict string table_query) (n d : tname) : Prop :=
  exists s q id, In (s, q) queries /\ named s n /\ In id (query_ids q) /\ i_sampled id = true /\ i_name id = d.
Definition has_query (queries : dict string table_query) (n : tname) : Prop :=
  exists s, named s n /\ In s (dkeys queries).

(** The table names of a plan are distinct (dict keys) and of the form "schema.table". *)
Definition queries_ok (queries : dict string table_query) : Prop :=
  NoDup (dkeys queries) /\ forall s, In s (dkeys queries) -> exists n, named s n.

(** Columns of the source tables described by [ms]; samples have the same columns. *)
Definition source_cols (ms : meta) (id : ident) : option (list string) :=
  match dget ms (i_name id) with Some m => Some (tb_cols (tm_table m)) | None => None end.
(** Every query fits the schema, and every table of the plan is in it. *)
Definition plan_fits (ms : meta) (queries : dict string table_query) : Prop :=
  forall s q n, In (s, q) queries -> named s n -> In n (dkeys ms) /\ query_fits (source_cols ms) q.
(** Samples are only read of tables of the plan. *)
Definition reads_inside (queries : dict string table_query) : Prop :=
  forall n d, reads_sample queries n d -> has_query queries d.

(** Table [d] has a compacted column that a foreign key of a planned table refers to. *)
Definition compaction_joined (ms : meta) (compact : dict tname (list string)) (queries : dict string table_query)
    (d : tname) : Prop :=
  exists n m fk c cs, has_query queries n /\ In (n, m) ms /\ In fk (tm_fks m) /\ fk_dst fk = d /\
    In c (fk_dst_cols fk) /\ In (d, cs) compact /\ In c cs.

(** The sample of [d] is read, by a query of the plan or to follow a compacted column. *)
Definition needed (ms : meta) (compact : dict tname (list string)) (queries : dict string table_query) (d : tname) : Prop :=
  (exists n, reads_sample queries n d) \/ compaction_joined ms compact queries d.

(** Joins in the plan's statements name equally many columns on both sides. *)
Definition plan_wf (queries : dict string table_query) : Prop :=
  forall s q st, In (s, q) queries -> q_stmt q = Some st -> stmt_wf st.
(** The query of a table selects rows of that table, with all columns (as the planner's queries do). *)
Definition plan_reads (queries : dict string table_query) : Prop :=
  forall s q n, In (s, q) queries -> named s n -> q_sql q = None /\ exists st, q_stmt q = Some st /\ reads_only n st.
(** Primary keys are unique in the source. *)
Definition source_unique (ms : meta) (source : tname -> list row) : Prop :=
  forall n m, In (n, m) ms -> tb_pk (tm_table m) <> [] ->
    NoDup (map (fun r => map (rget r) (tb_pk (tm_table m))) (source n)).

(** How often copy [i] of the temporary table of [n] occurs among the tables of a statement. *)
Definition refs_of (refs : list tref) (n : tname) (i : nat) : nat := count_occ eq_dec refs (TTemp n i).
(** The statement, given by the tables it writes and reads and the temporary tables existing then, can be
    executed: they all exist and, if the database cannot reopen temporary tables ([reopen] is false, MySQL),
    none occurs twice. *)
Definition stmt_runs (reopen : bool) (e : list tref * list (tname * nat)) : Prop :=
  forall n i, (reopen = false -> refs_of (fst e) n i <= 1) /\ (In (TTemp n i) (fst e) -> In (n, i) (snd e)).

(** The rows a query selects from the source and the samples, for the random choices [z]; [rawf] answers raw SQL. *)
Definition query_result cmpf textf (rawf : string -> option (dict string lit) -> list row) source sample (z : rnd)
    (q : table_query) : list row :=
  match q_sql q, q_stmt q with
  | Some sql, _ => rawf sql (q_params q)
  | None, Some st => sem_stmt (plan_env cmpf textf source sample) z st
  | None, None => []
  end.
(** [l'] are the rows [l] with an additional column [c]. *)
Definition with_column (c : string) (l l' : list row) : Prop :=
  exists vs, length vs = length l /\ l' = map (fun vr : value * row => (c, fst vr) :: snd vr) (combine vs l).

(** One evaluation of the whole plan: [rows n] are the rows the query of [n] selects, for one outcome of its random
    choices, when every reference to the sample of a table [d] means [sample d]; and the sample of [n] consists of these same
    rows (possibly with an additional column [id]). *)
Definition selects cmpf textf rawf source (outcome : tname -> rnd -> Prop) (id : string) (queries : dict string table_query)
    (sample rows : tname -> list row) : Prop :=
  forall s q n, In (s, q) queries -> named s n ->
    (exists w, outcome n w /\ rows n = query_result cmpf textf rawf source sample w q) /\
    (sample n = rows n \/ with_column id (rows n) (sample n)).

(** The statement makes no random choice: no [random()] condition and no limit. *)
Fixpoint wc_random_free (c : wc) : Prop :=
  match c with
  | WRandom _ => False
  | WInStmt _ s _ => random_free s
  | WAnd l | WOr l => fold_right and True (map wc_random_free l)
  | _ => True
  end
with sel_random_free (s : sel) : Prop :=
  match s with
  | Sel _ _ w lim _ _ => lim = None /\ match w with Some w => wc_random_free w | None => True end
  end
with random_free (s : stmt) : Prop :=
  match s with SSelect x => sel_random_free x | SUnion l => fold_right and True (map sel_random_free l) end.
Definition plan_random_free (queries : dict string table_query) : Prop :=
  forall s q st, In (s, q) queries -> q_stmt q = Some st -> random_free st.

(** * Compaction *)
Section Compaction.
Variables (cmpf : cmpop -> value -> value -> bool) (ms : meta) (compact : dict tname (list string)).

Definition compacted (n : tname) (c : string) : Prop := exists cs, In (n, cs) compact /\ In c cs.
(** Column [c] of [n] refers, by (a column pair of) a foreign key, to the compacted column [dc] of [d]. *)
Definition governs (n : tname) (c : string) (d : tname) (dc : string) : Prop :=
  exists m fk, In (n, m) ms /\ In fk (tm_fks m) /\ fk_dst fk = d /\ In (c, dc) (combine (fk_cols fk) (fk_dst_cols fk)) /\
    compacted d dc.
(** The column pairs of the foreign keys of a table, in order: a column, and the column of another table it refers to. *)
Definition column_pairs (m : tmeta) : list (string * (tname * string)) :=
  flat_map (fun fk => map (fun cd => (fst cd, (fk_dst fk, snd cd))) (combine (fk_cols fk) (fk_dst_cols fk))) (tm_fks m).
(** Of the compacted columns that column [c] of [n] refers to, [dc] of [d] is the last. *)
Definition decides (n : tname) (c : string) (d : tname) (dc : string) : Prop :=
  exists m before after, In (n, m) ms /\ column_pairs m = before ++ (c, (d, dc)) :: after /\ compacted d dc /\
    forall d' dc', In (c, (d', dc')) after -> ~ compacted d' dc'.
(** Compaction changes some column of table [n], or none. *)
Definition touched (n : tname) : Prop := In n (dkeys compact) \/ exists c d dc, governs n c d dc.
Definition not_compacted (n : tname) : Prop :=
  ~ In n (dkeys compact) /\ forall c d dc, ~ governs n c d dc.

(** Equality as the database sees it: NULL equals nothing. *)
Definition matches (v v' : value) : Prop := v <> VNull /\ v' <> VNull /\ cmpf CEq v v' = true.
(** No value matches column [c] of two of the rows. *)
Definition unique_in (c : string) (l : list row) : Prop :=
  forall v i j r r', nth_error l i = Some r -> nth_error l j = Some r' ->
    matches v (rget r c) -> matches v (rget r' c) -> i = j.

(** [num] numbers [N] rows [start], [start+1], ... *)
Definition dense (start : Z) (N : nat) (num : list Z) : Prop :=
  Permutation num (map (fun i => start + Z.of_nat i)%Z (seq 0 N)).
(** The numbers grow with the rows' values of the columns [pk]. *)
Definition increasing (lt : list value -> list value -> Prop) (pk : list string) (rows : list row) (num : list Z) : Prop :=
  forall i j r r' k k', nth_error rows i = Some r -> nth_error rows j = Some r' ->
    nth_error num i = Some k -> nth_error num j = Some k' -> lt (map (rget r) pk) (map (rget r') pk) -> (k < k')%Z.

(** [v'] is the number of the row whose column [dc] equals [v], or NULL if there is none. *)
Definition follows (rows : list row) (num : list Z) (dc : string) (v v' : value) : Prop :=
  (exists i r k, nth_error rows i = Some r /\ nth_error num i = Some k /\ matches v (rget r dc) /\ v' = VInt k) \/
  ((forall r, In r rows -> ~ matches v (rget r dc)) /\ v' = VNull).
(** [r'] is what is written for the row [r], with number [k], of the table [n] described by [m], where [rows] are
    the selected rows of each table and [num] their numbers. *)
Definition rewritten (rows : tname -> list row) (num : tname -> list Z) (n : tname) (m : tmeta) (k : Z) (r r' : row) : Prop :=
  map fst r' = tb_cols (tm_table m) /\
  forall c, In c (tb_cols (tm_table m)) ->
    (compacted n c -> rget r' c = VInt k) /\
    (~ compacted n c -> forall d dc, decides n c d dc -> follows (rows d) (num d) dc (rget r c) (rget r' c)) /\
    (~ compacted n c -> (forall d dc, ~ governs n c d dc) -> rget r' c = rget r c).

(** The compacted columns that columns of [n] follow are unique. *)
Definition unique_references (rows : tname -> list row) (n : tname) : Prop :=
  forall c d dc, decides n c d dc -> unique_in dc (rows d).

(** No foreign key has two columns that refer to compacted columns. *)
Definition one_compacted : Prop :=
  forall n m fk a b a' b', In (n, m) ms -> In fk (tm_fks m) ->
    In (a, b) (combine (fk_cols fk) (fk_dst_cols fk)) -> In (a', b') (combine (fk_cols fk) (fk_dst_cols fk)) ->
    compacted (fk_dst fk) b -> compacted (fk_dst fk) b' -> a = a'.
(** No foreign key of a table refers to a compacted column of the table itself. *)
Definition no_self_references (queries : dict string table_query) : Prop :=
  forall n c dc, has_query queries n -> ~ governs n c n dc.

(** The entries are sets of columns; the internal id column is not a column of any table. *)
Definition compact_ok (id : string) : Prop :=
  NoDup (dkeys compact) /\ (forall n cs, In (n, cs) compact -> cs <> []) /\
  (forall n m, In (n, m) ms -> NoDup (tb_cols (tm_table m)) /\ ~ In id (tb_cols (tm_table m)) /\ incl (tb_pk (tm_table m)) (tb_cols (tm_table m))) /\
  (forall n c d dc, governs n c d dc -> dc <> id).
End Compaction.

(** [rank] answers [row_number() OVER (ORDER BY ..)]: the positions of the keys in an ordering by [lt]. *)
Definition rank_ok (lt : list value -> list value -> Prop) (rank : list (list value) -> list nat) : Prop :=
  forall ks, Permutation (rank ks) (seq 1 (length ks)) /\
    forall i j a b x y, nth_error ks i = Some a -> nth_error ks j = Some b ->
      nth_error (rank ks) i = Some x -> nth_error (rank ks) j = Some y -> lt a b -> x < y.

(** A plan the sampler can carry out on a source with the schema [ms]: what is asked of the schema and the rows
    of the source, of the queries, and of the compaction settings. *)
Record runnable (id : string) (reopen : bool) (ms : meta) (source : tname -> list row) (compact : dict tname (list string))
    (queries : dict string table_query) : Prop := {
  rn_meta : meta_ok ms;
  rn_keys : source_unique ms source;
  rn_rows : forall n, In n (dkeys ms) -> NoDup (source n);
  rn_names : queries_ok queries;
  rn_reads : plan_reads queries;
  rn_union : forall s q st, In (s, q) queries -> q_stmt q = Some st -> st <> SUnion [];
  rn_fits : plan_fits ms queries;
  rn_inside : reads_inside queries;
  rn_acyclic : forall n, ~ on_cycle (reads_sample queries) n;
  rn_compact : compact_ok ms compact id;
  rn_governs : forall n c d dc, has_query queries n -> governs ms compact n c d dc ->
    has_query queries d /\ exists md, In (d, md) ms /\ In dc (tb_cols (tm_table md));
  rn_one : reopen = false -> one_compacted ms compact }.

(** What is assumed of the rows of the source: no duplicate rows and unique primary keys; and of the schema: the internal
    id column [id] is not a column of any table. *)
Definition source_ok (id : string) (db : list table) (source : tname -> list row) : Prop :=
  forall t, In t db ->
    NoDup (source (tb_name t)) /\ ~ In id (tb_cols t) /\
    (tb_pk t <> [] -> NoDup (map (fun r => map (rget r) (tb_pk t)) (source (tb_name t)))).
(** The columns a target's [like] and [in] settings name exist. *)
Definition targets_fit (cfg : config) (db : list table) : Prop :=
  forall n g t c, is_target cfg n g -> table_of db n t ->
    (exists x, In (c, x) (tg_like g)) \/ (exists x, In (c, x) (tg_in g)) -> In c (tb_cols t).
