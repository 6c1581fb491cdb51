(** Model of the source side of /repo/subsetter/sampler.py: which columns are compacted, in which order
    the sampled tables are materialised into temporary tables, and the statements whose rows are copied to
    the output. *)
From Verif Require Import Model.Base Model.Solver Model.Value Model.Names Model.PlanModel Spec.SqlSem
  Model.SqlAlgebra Model.PlanBuild Model.Metadata.
Open Scope string_scope.
Open Scope list_scope.

(** Exceptions: ValueError (parse_table_name, toposort, 805-807, build), KeyError of the dict and column
    accesses, AttributeError ([.subquery()] or [.selected_columns] of a raw SQL text clause), an error
    reported by the database (duplicate key in a temporary table).  [SxSolver] are the exceptions of toposort
    that are proved impossible.  (sampler.py:763-773 and the lookups of 811-1029) *)
Inductive samp_exn :=
| SxValueError | SxKeyError | SxAttributeError | SxDbError | SxSolver (e : @solver_exn tname).
Notation xres := (res samp_exn).

(** plan_model.py:410 *)
Definition of_build (e : build_exn) : samp_exn :=
  match e with BKeyError => SxKeyError | BValueError => SxValueError end.
Definition lift_build {A} (r : res build_exn A) : xres A :=
  match r with Ok a => Ok a | Err e => Err (of_build e) end.

(** common.py:23-27 *)
Definition parse (s : string) : xres tname :=
  match parse_table_name s with Some n => Ok n | None => Err SxValueError end.

(** config_model.py CompactConfig.  (config_model.py:94-98) *)
Record compact_config := mkCompact {
  cp_primary_keys : bool; cp_auto_increment : bool; cp_start : Z; cp_columns : dict string (list string) }.

(** sampler.py:40  SUBSETTER_COMPACT_COLUMN *)
Definition id_column : string := "_sbsttr_id".

(** sampler.py:753-809  _get_compact_columns.  [is_int n c]: [issubclass(col.type.python_type, int)];
    [has_autoinc n]: [table_obj.autoincrement_column is not None].  The primary key column of a reflected
    table is one of its columns, so the lookup in 790 succeeds. *)
Section Compact.
Variables (cfg : compact_config) (passthrough : list string) (ms : meta)
          (is_int : tname -> string -> bool) (has_autoinc : tname -> bool).

(** sampler.py:761-776 *)
Definition compact_listed : xres (dict tname (list string)) :=
  forM (fun acc tc =>
    if is_nil (snd tc) then Ok acc
    else
      let* key := parse (fst tc) in
      if negb (dmem ms key) then Ok acc
      else if memb (fst tc) passthrough then Ok acc
      else Ok (dset acc key (set_of (snd tc))))
  (cp_columns cfg) [].

(** sampler.py:784-798 *)
Definition compact_keys (acc : dict tname (list string)) : dict tname (list string) :=
  fold_left (fun acc nm =>
    let '(n, m) := nm in
    match tb_pk (tm_table m) with
    | [c] =>
        if memb (render n) passthrough then acc
        else if negb (is_int n c) then acc
        else if cp_primary_keys cfg || has_autoinc n
             then dset acc n (set_add c (dget_or acc n []))
             else acc
    | _ => acc
    end) ms acc.

(** sampler.py:800-807 *)
Definition compact_in_fk (acc : dict tname (list string)) : bool :=
  existsb (fun nm : tname * tmeta =>
    let cols := dget_or acc (fst nm) [] in
    existsb (fun fk => existsb (fun c => memb c cols) (fk_cols fk)) (tm_fks (snd nm))) ms.

Definition get_compact_columns : xres (dict tname (list string)) :=
  let* acc := compact_listed in
  if negb (cp_primary_keys cfg) && negb (cp_auto_increment cfg) then Ok acc         (* sampler.py:778-782 *)
  else
    let acc := compact_keys acc in
    if compact_in_fk acc then Err SxValueError else Ok acc.
End Compact.

(** Tables a query reads, with repetitions: what the database sees as references.  (plan_model.py:253-314) *)
Fixpoint from_refs (f : sqlfrom) : list tref :=
  match f with FTable t => [t_ref t] | FJoin l _ t _ _ => from_refs l ++ [t_ref t] end.
Fixpoint cond_refs (c : sqlc) : list tref :=
  match c with
  | QNot c => cond_refs c
  | QIn _ q => query_refs q
  | QAnd l | QOr l => concat (map cond_refs l)
  | QExists t _ => [t_ref t]
  | _ => []
  end
(** sampler.py:811-851. *)
with query_refs (q : query) : list tref :=
  match q with
  | QSelect _ f _ ws _ => from_refs f ++ concat (map cond_refs ws)
  | QUnion l => concat (map query_refs l)
  | QRaw _ _ => []
  end.

(** [stmt.selected_columns] / the columns of [stmt.subquery()]; a text clause has neither (AttributeError).  (plan_model.py:253-314, sampler.py:890-904) *)
Fixpoint from_table (f : sqlfrom) : tobj :=
  match f with FTable t => t | FJoin l _ _ _ _ => from_table l end.
Definition selected_columns (q : query) : xres (list string) :=
  match q with
  | QSelect (Some (c :: cs)) _ _ _ _ => Ok (c :: cs)
  | QSelect _ f _ _ _ => Ok (t_cols (from_table f))
  | QUnion (QSelect (Some (c :: cs)) _ _ _ _ :: _) => Ok (c :: cs)
  | QUnion (QSelect _ f _ _ _ :: _) => Ok (t_cols (from_table f))
  | _ => Err SxAttributeError
  end.

Section Order.
Variables (ord : list tname -> list tname) (ms : meta) (compact : dict tname (list string)).

(** sampler.py:820-826  _record_sampled_tables *)
Definition record_sampled (id : ident) (counter : dict tname nat) : res build_exn (tobj * dict tname nat) :=
  let counter := if i_sampled id
                 then dset counter (i_name id) (dget_or counter (i_name id) 0 + 1) else counter in
  let* m := dfind BKeyError ms (i_name id) in
  Ok (table_obj (tm_table m), counter).

(** sampler.py:837-841  joins needed for compaction *)
Definition compact_fks (m : tmeta) : list fkey :=
  filter (fun fk => existsb (fun c => memb c (dget_or compact (fk_dst fk) [])) (fk_dst_cols fk)) (tm_fks m).
Definition count_fks (m : tmeta) (counter : dict tname nat) : dict tname nat :=
  fold_left (fun counter fk => dset counter (fk_dst fk) (dget_or counter (fk_dst fk) 0 + 1)) (compact_fks m) counter.

(** sampler.py:843-844 *)
Definition merge_max (maxs counter : dict tname nat) : dict tname nat :=
  fold_left (fun maxs kc => dset maxs (fst kc) (Nat.max (dget_or maxs (fst kc) 0) (snd kc))) counter maxs.

(** sampler.py:830-844  the loop over the plan *)
Definition scan_plan (queries : dict string table_query)
  : xres (dict tname (list tname) * dict tname nat) :=
  forM (fun dm tq =>
    let '(dep_graph, maxs) := dm in
    let* (_, counter) := lift_build (build_query record_sampled (snd tq) []) in
    let* n := parse (fst tq) in
    let dep_graph := dset dep_graph n (dkeys counter) in
    let* m := dfind SxKeyError ms n in
    Ok (dep_graph, merge_max maxs (count_fks m counter)))
  queries ([], []).

(** sampler.py:811-851  _materialization_order *)
Definition materialization_order (queries : dict string table_query) : xres (list (tname * nat)) :=
  let* (dep_graph, maxs) := scan_plan queries in
  let* order := match toposort ord dep_graph with
                | Ok q => Ok q
                | Err SValueError => Err SxValueError
                | Err SKeyError => Err SxKeyError
                | Err e => Err (SxSolver e)
                end in
  Ok (flat_map (fun n => match dget maxs n with Some c => [(n, c)] | None => [] end) order).
End Order.

(** The temporary tables created so far and their rows.  [ts_log] is not program state: it records, for every
    INSERT .. SELECT executed, the tables it writes and reads (with repetitions) and the temporary tables that
    exist at that time.  (metadata.py:60-70, sampler.py:66-157) *)
Record tstate := mkTemps {
  ts_objs : dict (tname * nat) tobj;
  ts_data : dict (tname * nat) (list row);
  ts_log : list (list tref * list (tname * nat)) }.
Definition no_temps : tstate := mkTemps [] [] [].

(** The statement for a table is executed to materialise it (853-935) or to copy its rows (937-1069).  (sampler.py:748-751) *)
Inductive phase := PMaterialize | PCopy.

Section Run.
(** The source database: its rows, comparison, raw SQL conditions, results and columns of raw SQL queries. *)
Variables (source : tname -> list row) (cmpf : cmpop -> value -> value -> bool)
          (textf : string -> option (dict string lit) -> row -> tv)
          (rawf : string -> option (dict string lit) -> list row)
          (raw_cols : string -> option (dict string lit) -> list string).
(** The random choices of the statement executed for table [n] in one of the two phases.  (plan_model.py:191-193) *)
Variable z : phase -> tname -> rnd.
(** [row_number() OVER (ORDER BY ..)] in the statement for [n]: given the list of sort keys of the rows, the
    row numbers.  (sampler.py:877-890) *)
Variable rank : phase -> tname -> list (list value) -> list nat.
(** [supports_temp_reopen]: false for MySQL.  (metadata.py:210-225) *)
Variable reopen : bool.
Variables (ms : meta) (compact : dict tname (list string)) (start : Z).

(** sampler.py:140-155 *)
Definition temp_db (st : tstate) : dbenv :=
  mkDb (fun t => match t with TSource n => source n | TTemp n i => dget_or (ts_data st) (n, i) [] end)
       cmpf textf rawf.

(** sampler.py:877-890, 981-990  [row_number() OVER (ORDER BY pk) + start_key - 1] for each row *)
Definition number_rows (p : phase) (n : tname) (pk : list string) (rows : list row) : list (value * row) :=
  combine (map (fun k => VInt (Z.of_nat k + start - 1)) (rank p n (map (fun r => map (rget r) pk) rows))) rows.

(** [subq.c[col.name] for col in primary_key].  (sampler.py:877-890) *)
Definition need_cols (cols pk : list string) : xres unit :=
  if subsetb pk cols then Ok tt else Err SxKeyError.

(** sampler.py:66-157  TempTableCreator.create: the table object for copy [idx] of the sample of [n], filled with
    [rows].  The database rejects repeated primary keys.  Simplifications: names (Model/TempNames.v), types
    and indexes do not influence the rows; key values are compared as values. *)
Definition create_temp (st : tstate) (n : tname) (idx : nat) (cols pk : list string) (rows : list row)
    (refs : list tref) : xres tstate :=
  let pk' := filter (fun c => memb c pk) cols in
  let keys := map (fun r => map (rget r) pk') rows in
  if negb (is_nil pk') && negb (Nat.eqb (length (nodup eq_dec keys)) (length keys)) then Err SxDbError
  else
    let objs := dset (ts_objs st) (n, idx) (mkT (TTemp n idx) cols pk') in
    Ok (mkTemps objs (dset (ts_data st) (n, idx) rows) (ts_log st ++ [(TTemp n idx :: refs, dkeys objs)])).

(** sampler.py:872-935  one iteration of the loop of _materialize_tables.  (861-869, which columns get an index, has no
    effect on the rows.) *)
Definition materialize_one (queries : dict string table_query) (st : tstate) (nc : tname * nat) : xres tstate :=
  let '(n, ref_count) := nc in
  let* m := dfind SxKeyError ms n in
  let* query := dfind SxKeyError queries (render n) in
  let pk := tb_pk (tm_table m) in
  let* (q, _) := lift_build (build_query (sql_build_context ms (ts_objs st) reopen) query []) in
  let* cols := selected_columns q in
  let rows := eval_query (temp_db st) (z PMaterialize n) q in
  let* st := if dmem compact n
             then let* _ := need_cols cols pk in
                  create_temp st n 0 (id_column :: cols) pk
                    (map (fun vr => (id_column, fst vr) :: snd vr) (number_rows PMaterialize n pk rows)) (query_refs q)
             else create_temp st n 0 cols pk rows (query_refs q) in
  if reopen then Ok st
  else
    (* sampler.py:918-930: copies 1 .. ref_count-1 of copy 0 *)
    forM (fun st index =>
            let* t := dfind SxKeyError (ts_objs st) (n, 0) in
            create_temp st n index (t_cols t) pk (dget_or (ts_data st) (n, 0) []) [t_ref t])
         (seq 1 (ref_count - 1)) st.

(** sampler.py:853-935  _materialize_tables *)
Definition materialize_tables (ord : list tname -> list tname) (queries : dict string table_query) : xres tstate :=
  let* order := materialization_order ord ms compact queries in
  forM (materialize_one queries) order no_temps.

(** sampler.py:965-975  remote_compact_cols: source column -> (table, column) it follows; later foreign keys
    overwrite earlier ones *)
Definition remote_compact (m : tmeta) : dict string (tname * string) :=
  dict_of (flat_map (fun fk =>
    flat_map (fun sd => if memb (snd sd) (dget_or compact (fk_dst fk) [])
                        then [(fst sd, (fk_dst fk, snd sd))] else [])
             (combine (fk_cols fk) (fk_dst_cols fk))) (tm_fks m)).

(** sampler.py:999-1027  where the value of an output column comes from *)
Inductive colsrc :=
| FromRow (c : string)                               (* subq.columns[c] *)
| FromId                                             (* id_col *)
| FromRemote (t : tobj) (src dst : string).          (* LEFT JOIN t ON subq.src = t.dst: its id column *)

(** sampler.py:955 *)
Definition build_ctx (st : tstate) := sql_build_context ms (ts_objs st) reopen.

(** sampler.py:1000-1027  one column.  The alias of a table joined twice (1013-1016) does not change the rows. *)
Definition copy_column (st : tstate) (cols ccols : list string) (remote : dict string (tname * string))
    (counts : dict tname nat) (c : string) : xres (colsrc * dict tname nat) :=
  if memb c ccols then Ok (FromId, counts)
  else match dget remote c with
       | Some (d, dc) =>
           let* (t, counts) := lift_build (build_ctx st (mkIdent (fst d) (snd d) true) counts) in
           let* _ := lift_build (has_col t id_column) in
           let* _ := need_cols cols [c] in
           let* _ := lift_build (has_col t dc) in
           Ok (FromRemote t c dc, counts)
       | None => let* _ := need_cols cols [c] in Ok (FromRow c, counts)
       end.

(** sampler.py:998-1027  the loop over the columns of the table *)
Fixpoint copy_columns (st : tstate) (cols ccols : list string) (remote : dict string (tname * string))
    (counts : dict tname nat) (l : list string) : xres (list (string * colsrc)) :=
  match l with
  | [] => Ok []
  | c :: l' =>
      let* (x, counts) := copy_column st cols ccols remote counts c in
      let* xs := copy_columns st cols ccols remote counts l' in
      Ok ((c, x) :: xs)
  end.

(** The statement whose rows are copied: the plain query (or the temporary table), or a select of computed
    columns over it.  (sampler.py:955-1029) *)
Inductive copy_stmt :=
| CopyPlain (q : query)
| CopyCompact (q : query) (has_id : bool) (pk : list string) (cols : list (string * colsrc)).

(** sampler.py:955-1029 *)
Definition copy_refs (c : copy_stmt) : list tref :=
  match c with
  | CopyPlain q => query_refs q
  | CopyCompact q _ _ cols =>
      query_refs q ++ flat_map (fun cx => match snd cx with FromRemote t _ _ => [t_ref t] | _ => [] end) cols
  end.

(** sampler.py:955-1029  the statement for one table *)
Definition copy_statement (st : tstate) (n : tname) (query : table_query) : xres copy_stmt :=
  let* (q, counts) :=
    match dget (ts_objs st) (n, 0) with
    | Some t => Ok (QSelect None (FTable t) None [] None, [])                          (* sampler.py:956-957 *)
    | None => lift_build (build_query (build_ctx st) query [])                         (* sampler.py:959 *)
    end in
  let* m := dfind SxKeyError ms n in
  let remote := remote_compact m in
  let ccols := dget_or compact n [] in
  if is_nil remote && is_nil ccols then Ok (CopyPlain q)
  else
    let pk := tb_pk (tm_table m) in
    let* cols := selected_columns q in
    let* _ := need_cols cols pk in
    let* xs := copy_columns st cols ccols remote counts (tb_cols (tm_table m)) in
    Ok (CopyCompact q (memb id_column cols) pk xs).

(** What the database answers: LEFT JOIN of each remote column (1020-1025), then the selected columns (1029).  (sampler.py:1005-1029) *)
Definition remote_values (st : tstate) (t : tobj) (src dst : string) (r : row) : list value :=
  match filter (fun r' => is_true (cmp3 (cmp_env (temp_db st)) CEq (rget r src) (rget r' dst)))
               (db_rows (temp_db st) (t_ref t)) with
  | [] => [VNull]
  | l => map (fun r' => rget r' id_column) l
  end.
Fixpoint copy_row (st : tstate) (id : value) (r : row) (cols : list (string * colsrc)) : list row :=
  match cols with
  | [] => [[]]
  | (c, x) :: cols' =>
      flat_map (fun v => map (cons (c, v)) (copy_row st id r cols'))
               (match x with
                | FromRow c => [rget r c]
                | FromId => [id]
                | FromRemote t src dst => remote_values st t src dst r
                end)
  end.
(** The rows delivered by the statement of sampler.py:937-1046. *)
Definition copy_rows (st : tstate) (n : tname) (c : copy_stmt) : list row :=
  match c with
  | CopyPlain q => eval_query (temp_db st) (z PCopy n) q
  | CopyCompact q has_id pk cols =>
      let rows := eval_query (temp_db st) (z PCopy n) q in
      let numbered := if has_id then map (fun r => (rget r id_column, r)) rows else number_rows PCopy n pk rows in
      flat_map (fun vr => copy_row st (fst vr) (snd vr) cols) numbered
  end.

(** sampler.py:1039  [result.keys()] *)
Definition copy_keys (c : copy_stmt) : list string :=
  match c with
  | CopyPlain (QRaw sql ps) => raw_cols sql ps
  | CopyPlain q => match selected_columns q with Ok cols => cols | Err _ => [] end
  | CopyCompact _ _ _ cols => map fst cols
  end.

(** What is handed to the output for one table: its name, columns and rows; [co_refs] records the tables the
    executed statement reads.  (sampler.py:1035-1039) *)
Record copied := mkCopied {
  co_name : tname; co_cols : list string; co_rows : list row; co_refs : list tref }.

(** sampler.py:946-1039  one iteration of the loop of _copy_results: [None] if the table is not in the plan *)
Definition copy_table (st : tstate) (queries : dict string table_query) (table : string)
  : xres (option copied) :=
  let* n := parse table in
  match dget queries table with
  | None => Ok None
  | Some query =>
      let* c := copy_statement st n query in
      Ok (Some (mkCopied n (copy_keys c) (copy_rows st n c) (copy_refs c)))
  end.
End Run.

(** sampler.py:746-751, 853-1039 without the output: the columns and rows handed to the output, in insertion order. *)
Definition extract (source : tname -> list row) cmpf textf rawf raw_cols (z : phase -> tname -> rnd) rank (reopen : bool)
    (ms : meta) (compact : dict tname (list string)) (start : Z) (ord : list tname -> list tname)
    (queries : dict string table_query) (insert_order : list string)
  : xres (tstate * list copied) :=
  let* st := materialize_tables source cmpf textf rawf z rank reopen ms compact start ord queries in
  let* l := mapM (copy_table source cmpf textf rawf raw_cols z rank reopen ms compact start st queries) insert_order in
  Ok (st, flat_map (fun o => match o with Some x => [x] | None => [] end) l).

(** Every statement executed on the source: what it writes and reads, and the temporary tables existing then.  (sampler.py:907-930, 1035-1038) *)
Definition executed (run : tstate * list copied) : list (list tref * list (tname * nat)) :=
  ts_log (fst run) ++ map (fun c => (co_refs c, dkeys (ts_objs (fst run)))) (snd run).
