(** Model of /repo/subsetter/metadata.py. *)
From Verif Require Import Model.Base Model.Solver Model.Value Model.Names Model.PlanModel Model.SqlAlgebra Model.PlanBuild.

(** metadata.py:19-34  ForeignKey *)
Record fkey := mkFK { fk_cols : list string; fk_dst : tname; fk_dst_cols : list string }.
#[export] Instance EqDec_fkey : EqDec fkey.
Proof.
  intros x y. pose proof (@eq_dec (list string) _). pose proof (@eq_dec tname _). decide equality.
Defined.

(** A reflected [sa.Table]: name, columns in order, primary key columns ([[]]: none), foreign key
    constraints (a set in SQLAlchemy; the list is one of its iteration orders), column lists of the
    UNIQUE constraints.  (metadata.py:82-131) *)
Record table := mkTable {
  tb_name : tname; tb_cols : list string; tb_pk : list string;
  tb_fks : list fkey; tb_uniques : list (list string) }.

(** metadata.py:37-53  TableMetadata: the table object plus its (mutable) foreign keys and reverse
    foreign keys. *)
Record tmeta := mkMeta { tm_table : table; tm_fks : list fkey; tm_rev : list fkey }.
Definition new_meta (t : table) : tmeta := mkMeta t (tb_fks t) [].
Definition tm_name (m : tmeta) : tname := tb_name (tm_table m).
Definition with_fks (m : tmeta) (l : list fkey) : tmeta := mkMeta (tm_table m) l (tm_rev m).
Definition with_rev (m : tmeta) (l : list fkey) : tmeta := mkMeta (tm_table m) (tm_fks m) l.

(** metadata.py:59-71  DatabaseMetadata.tables *)
Definition meta := dict tname tmeta.

(** Exceptions: KeyError of the dict accesses; out of fuel is proved unreachable.  (metadata.py:113, 186) *)
Inductive meta_exn := MeKeyError | MeOutOfFuel.
Notation eres := (res meta_exn).

(** metadata.py:82-84  [metadata_obj.tables], keyed by "schema.table" in reflection order. *)
Definition metadata_tables (db : list table) : dict string table :=
  map (fun t => (render (tb_name t), t)) db.

(** metadata.py:94-109  [table_deps[n]]: the defaultdict entry of [n], in insertion order. *)
Definition table_deps (db : list table) (fwd bwd : bool) (n : tname) : list tname :=
  flat_map (fun t =>
    flat_map (fun fk =>
      (if fwd && eqb (tb_name t) n then [fk_dst fk] else []) ++
      (if bwd && eqb (fk_dst fk) n then [tb_name t] else []))
    (tb_fks t)) db.

(** metadata.py:114-117  the inner loop for one table of the queue *)
Fixpoint close_inner (refs seen queue : list tname) : list tname * list tname :=
  match refs with
  | [] => (seen, queue)
  | n :: refs' =>
      if memb n seen then close_inner refs' seen queue
      else close_inner refs' (set_add n seen) (queue ++ [n])
  end.

(** metadata.py:112-117  [for schema, table in table_queue] while the queue grows *)
Fixpoint close_loop (fuel i : nat) (db : list table) (fwd bwd : bool) (seen queue : list tname)
  : eres (list tname) :=
  match fuel with
  | O => Err MeOutOfFuel
  | S f =>
      match nth_error queue i with
      | None => Ok queue
      | Some n =>
          let* _ := dfind MeKeyError (metadata_tables db) (render n) in            (* metadata.py:113 *)
          let '(seen', queue') := close_inner (table_deps db fwd bwd n) seen queue in
          close_loop f (S i) db fwd bwd seen' queue'
      end
  end.

(** metadata.py:71-131  DatabaseMetadata.from_engine.  [fnm] is [fnmatch.fnmatch]; [db] is what reflection returns. *)
Definition from_engine (fnm : string -> string -> bool) (db : list table) (select : list string)
    (fwd bwd : bool) : eres (meta * list tname) :=
  let queue := map (fun kt => tb_name (snd kt))
                   (filter (fun kt => existsb (fun p => fnm (fst kt) p) select) (metadata_tables db)) in
  let* q := close_loop (S (length db)) 0 db fwd bwd (set_of queue) queue in
  let* tables := mapM (fun n => let* t := dfind MeKeyError (metadata_tables db) (render n) in
                                Ok (n, new_meta t)) q in
  Ok (dict_of tables, skipn (length queue) q).

(** metadata.py:139-142  _key_pk; [None] is the key without schema ([infer_all]) *)
Definition key_pk (infer_all : bool) (schema : string) (pk : list string) : option string * list string :=
  (if infer_all then None else Some schema, pk).

(** metadata.py:144-154  the primary key map: [None] marks a duplicate *)
Definition pk_map (infer_all : bool) (ms : list tmeta) : dict (option string * list string) (option tname) :=
  fold_left (fun d m =>
    let t := tm_table m in
    if is_nil (tb_pk t) then d
    else
      let k := key_pk infer_all (fst (tb_name t)) (tb_pk t) in
      if dmem d k then dset d k None else dset d k (Some (tb_name t)))
  ms [].

(** metadata.py:157-175  the loop over the columns of one table *)
Definition infer_table (infer_all : bool) (pm : dict (option string * list string) (option tname))
    (m : tmeta) : tmeta :=
  let t := tm_table m in
  let fks := tm_fks m in                                            (* [set(table.foreign_keys)], 158 *)
  with_fks m (fks ++
    flat_map (fun col =>
      match dget pm (key_pk infer_all (fst (tb_name t)) [col]) with
      | Some (Some dst) =>
          if eqb dst (tb_name t) then []
          else let fk := mkFK [col] dst [col] in if memb fk fks then [] else [fk]
      | _ => []
      end) (tb_cols t)).

(** metadata.py:138-175  infer_missing_foreign_keys *)
Definition infer_missing_foreign_keys (infer_all : bool) (ms : meta) : meta :=
  let pm := pk_map infer_all (dvals ms) in
  map (fun nm => (fst nm, infer_table infer_all pm (snd nm))) ms.

(** metadata.py:186-191 mirror of a foreign key of table [t] *)
Definition mirror (t : tname) (fk : fkey) : fkey := mkFK (fk_dst_cols fk) t (fk_cols fk).

(** metadata.py:182-192  compute_reverse_keys *)
Definition compute_reverse_keys (ms : meta) : eres meta :=
  forM (fun ms t_fk =>
          let* m := dfind MeKeyError ms (fk_dst (snd t_fk)) in
          Ok (dset ms (fk_dst (snd t_fk)) (with_rev m (tm_rev m ++ [mirror (fst t_fk) (snd t_fk)]))))
       (flat_map (fun m => map (fun fk => (tm_name m, fk)) (tm_fks m)) (dvals ms)) ms.

(** metadata.py:194-208  as_graph *)
Definition as_graph (ms : meta) (ignore : list tname) : dict string (list string) :=
  dict_of (flat_map (fun m =>
    if memb (tm_name m) ignore then []
    else [(render (tm_name m),
           set_of (map (fun fk => render (fk_dst fk))
             (filter (fun fk => negb (memb (fk_dst fk) ignore) && dmem ms (fk_dst fk)) (tm_fks m))))])
    (dvals ms)).

(** metadata.py:210-225  sql_build_context.  The state is [reference_count]; [temps] lists the existing temporary
    tables [temp_tables] with their table objects. *)
Definition table_obj (t : table) : tobj := mkT (TSource (tb_name t)) (tb_cols t) (tb_pk t).
Definition sql_build_context (ms : meta) (temps : dict (tname * nat) tobj) (reopen : bool)
    (id : ident) (counts : dict tname nat) : res build_exn (tobj * dict tname nat) :=
  if i_sampled id then
    let index := if reopen then 0 else dget_or counts (i_name id) 0 in
    let counts' := if reopen then counts else dset counts (i_name id) (1 + index) in
    let* t := dfind BKeyError temps (i_name id, index) in
    Ok (t, counts')
  else
    let* m := dfind BKeyError ms (i_name id) in
    Ok (table_obj (tm_table m), counts).

(** metadata.py:177-180  DatabaseMetadata.toposort: ValueError for a cycle, ValueError of parse_table_name (impossible:
    the names were rendered), KeyError of the lookup. *)
Inductive mtopo_exn := MtValueError | MtKeyError | MtOther (e : solver_exn string).
Definition meta_toposort (ord : list string -> list string) (ms : meta) : res mtopo_exn (list tmeta) :=
  match toposort ord (as_graph ms []) with
  | Err SValueError => Err MtValueError
  | Err e => Err (MtOther e)
  | Ok q =>
      mapM (fun u => match parse_table_name u with
                     | None => Err MtValueError
                     | Some n => dfind MtKeyError ms n
                     end) q
  end.
