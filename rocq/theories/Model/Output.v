(** Model of the outputs of /repo/subsetter/sampler.py: ConflictInsert, the sequence helpers, DirectoryOutput and
    DatabaseOutput. *)
From Verif Require Import Model.Base Model.Solver Model.Value Model.Names Model.PlanModel Model.Metadata Model.Filters Model.Multiply Model.Materialize Model.Dest.
Open Scope string_scope.
Open Scope list_scope.

(** Exceptions: ValueError, KeyError, TypeError, RuntimeError, an error of the database; those of the other parts of the program.
    [OxSolver] is proved impossible.  (sampler.py:187, 341, 412, 440, 470, 503, 616, 623) *)
Inductive out_exn :=
| OxValueError | OxKeyError | OxTypeError | OxIndexError | OxRuntimeError | OxDbError
| OxFilter (e : filter_exn) | OxMeta (e : meta_exn) | OxMult (e : mult_exn) | OxSample (e : samp_exn)
| OxSolver (e : @solver_exn string).
Notation ores := (res out_exn).

(** sampler.py:1041 *)
Definition of_filter {A} (r : res filter_exn A) : ores A := match r with Ok a => Ok a | Err e => Err (OxFilter e) end.
Definition of_meta {A} (r : eres A) : ores A := match r with Ok a => Ok a | Err e => Err (OxMeta e) end.
Definition of_mult {A} (r : res mult_exn A) : ores A := match r with Ok a => Ok a | Err e => Err (OxMult e) end.
Definition of_samp {A} (r : xres A) : ores A := match r with Ok a => Ok a | Err e => Err (OxSample e) end.
Definition of_topo {A} (r : res mtopo_exn A) : ores A :=
  match r with
  | Ok a => Ok a
  | Err MtValueError => Err OxValueError
  | Err MtKeyError => Err OxKeyError
  | Err (MtOther e) => Err (OxSolver e)
  end.
(** common.py:23-27 *)
Definition parse_name (s : string) : ores tname :=
  match parse_table_name s with Some n => Ok n | None => Err OxValueError end.
(** sampler.py:440, 470, 616 *)
Definition find_key {K V} `{EqDec K} (d : dict K V) (k : K) : ores V := dfind OxKeyError d k.

(** config_model.py:67 *)
Inductive strategy := SError | SReplace | SSkip.

(** [s.remove(x)] of a set.  (sampler.py:176-178) *)
Definition remove_key (s : list string) (x : string) : ores (list string) :=
  if memb x s then Ok (set_remove x s) else Err OxKeyError.

(** sampler.py:164-183  ConflictInsert.__init__, and 185-232 the INSERT compiled for the dialect.  [stmt.excluded] (222) has every
    column of the table. *)
Definition conflict_insert (dl : dialect) (cs : strategy) (t : table) (columns : list string) : ores on_conflict :=
  let* (cs, non_pk) :=
    if is_nil (tb_pk t) then Ok (SError, set_of columns)
    else
      let* non_pk := forM remove_key (tb_pk t) (set_of columns) in
      Ok (match cs with SReplace => if is_nil non_pk then SSkip else SReplace | _ => cs end, non_pk) in
  match dl, cs with
  | _, SError => Ok Fail
  | OtherDialect, _ => Err OxRuntimeError
  | _, SSkip => Ok LeaveOut
  | MySQL, SReplace => Ok (Update true non_pk)
  | PostgreSQL, SReplace => Ok (Update false non_pk)
  | SQLite, SReplace => Ok (Update false (tb_cols t))
  end.

(** [value * multiplier + iteration] and [value + offset] on Python values.  Simplification: no other type than these
    supports the arithmetic with integers (Decimal does).  (sampler.py:303, 695) *)
Definition py_muladd (v : value) (m i : Z) : ores value :=
  match v with
  | VInt z => Ok (VInt (z * m + i))
  | VBool b => Ok (VInt ((if b then 1 else 0) * m + i))
  | VFloat q => Ok (VFloat (q * inject_Z m + inject_Z i))
  | _ => Err OxTypeError
  end.
(** sampler.py:298-303  _multiply_column *)
Definition multiply_value (v : value) (m i : Z) : ores value := match v with VNull => Ok VNull | _ => py_muladd v m i end.
(** sampler.py:692-695  the shift of one value *)
Definition offset_value (v : value) (o : Z) : ores value := match v with VNull => Ok VNull | _ => py_muladd v 1 o end.
(** [b > a]; strings compare by code points, other types are not ordered (simplification: dates are).  (sampler.py:700) *)
Definition py_num (v : value) : option Q :=
  match v with
  | VInt z => Some (inject_Z z)
  | VBool b => Some (inject_Z (if b then 1 else 0))
  | VFloat q => Some q
  | _ => None
  end.
Definition py_greater (b a : value) : ores bool :=
  match py_num b, py_num a with
  | Some x, Some y => Ok (negb (Qle_bool x y))
  | _, _ => match b, a with VStr x, VStr y => Ok (String.ltb y x) | _, _ => Err OxTypeError end
  end.
(** sampler.py:696-702  the new value of [autoinc_max_written]; [VNull] is None *)
Definition next_max (m v : value) : ores value :=
  match m with
  | VNull => Ok v
  | _ => let* b := py_greater v m in Ok (if b then v else m)
  end.

Definition item {A} (l : list A) (i : nat) : ores A :=
  match nth_error l i with Some x => Ok x | None => Err OxIndexError end.
(** [range(n)].  (sampler.py:379, 374) *)
Definition range (n : Z) : list Z := map Z.of_nat (seq 0 (Z.to_nat n)).
Definition enumerate {A} (l : list A) : list (nat * A) := combine (seq 0 (length l)) l.
(** sampler.py:372-376, 651-655  multiplied_indexes *)
Definition multiplied_indexes (cols_out mult : list string) : list nat :=
  map fst (filter (fun ic => memb (snd ic) mult) (enumerate cols_out)).
(** sampler.py:643-649  the offsets by index *)
Definition offset_indexes (cols_out : list string) (offs : dict string Z) : list (nat * Z) :=
  flat_map (fun ic => match dget offs (snd ic) with Some o => [(fst ic, o)] | None => [] end) (enumerate cols_out).

(** The configuration of a database output: dialect of its engine, remap rules, conflict_strategy, merge.  (config_model.py:70-78) *)
Record db_config := mkDbConfig {
  oc_dialect : dialect; oc_remap : list (string * string); oc_strategy : strategy; oc_merge : bool }.
(** The attributes of a DatabaseOutput after __init__: [table_remap] maps remapped names to names of the plan.  (sampler.py:399-420) *)
Record db_output := mkDbOutput {
  ou_remap : dict string string; ou_meta : meta; ou_additional : list tname; ou_offsets : dict tname (dict string Z) }.

(** The parameters of Model/Filters.v: random generator, Faker, plugins, Python's comparisons.  (filters.py:29-32) *)
Record filter_env (G : Type) := mkFilterEnv {
  fe_randint : Z -> Z -> G -> res filter_exn (Z * G); fe_uniform : Q -> Q -> G -> Q * G; fe_index : nat -> G -> nat * G;
  fe_uuid4 : G -> string * G; fe_fake : string -> bool -> G -> res filter_exn (value * G);
  fe_load_plugin : string -> string -> bool;
  fe_plugin : string -> string -> list value -> G -> res filter_exn (list value * G);
  fe_is : value -> mvalue -> bool; fe_in : value -> mvalue -> res filter_exn bool; fe_eq : value -> mvalue -> bool;
  fe_lt : value -> mvalue -> res filter_exn bool; fe_gt : value -> mvalue -> res filter_exn bool;
  fe_le : value -> mvalue -> res filter_exn bool; fe_ge : value -> mvalue -> res filter_exn bool;
  fe_fnmatch : value -> mvalue -> res filter_exn bool }.
Arguments mkFilterEnv {G}.
Arguments fe_randint {G} _. Arguments fe_uniform {G} _. Arguments fe_index {G} _. Arguments fe_uuid4 {G} _. Arguments fe_fake {G} _.
Arguments fe_load_plugin {G} _. Arguments fe_plugin {G} _. Arguments fe_is {G} _. Arguments fe_in {G} _. Arguments fe_eq {G} _.
Arguments fe_lt {G} _. Arguments fe_gt {G} _. Arguments fe_le {G} _. Arguments fe_ge {G} _. Arguments fe_fnmatch {G} _.
(** [filter_view.filter_view(row)].  (sampler.py:380, 687) *)
Definition run_filters {G} (F : filter_env G) : list view -> list value -> G -> res filter_exn (list value * G) :=
  apply_chain (fe_randint F) (fe_uniform F) (fe_index F) (fe_uuid4 F) (fe_fake F) (fe_plugin F)
    (fe_is F) (fe_in F) (fe_eq F) (fe_lt F) (fe_gt F) (fe_le F) (fe_ge F) (fe_fnmatch F).

Section Output.
Context {G : Type}.
Variable F : filter_env G.
Variable dflt : tname -> string -> list row -> row -> value.
(** Whether the destination carries out a statement, e.g. sampler.py:574-586. *)
Variable accepts : dest -> event -> bool.
Notation prog := (io out_exn).
Notation send := (send dflt accepts OxDbError).

Section Rows.
(** One result set: filter chain, multiplied indexes with the multiplier, offsets. *)
Variables (chain : list view) (multiplied : list nat) (multiplier : Z) (offsets : list (nat * Z)).

(** sampler.py:380-384, 687-695  one copy of one row *)
Definition output_row (r : list value) (iteration : Z) (g : G) : ores (list value * G) :=
  let* (out, g) := of_filter (run_filters F chain r g) in
  let* out := forM (fun out i => let* v := item out i in
                                 let* v := multiply_value v multiplier iteration in Ok (list_set out i v)) multiplied out in
  let* out := forM (fun out io => let* v := item out (fst io) in
                                  let* v := offset_value v (snd io) in Ok (list_set out (fst io) v)) offsets out in
  Ok (out, g).

(** sampler.py:378-379, 685-686  the two loops: each row with each iteration *)
Definition row_copies (rows : list (list value)) : list (list value * Z) :=
  flat_map (fun r => map (pair r) (range multiplier)) rows.
End Rows.

(** sampler.py:358-386  DirectoryOutput.output_result_set *)
Definition directory_output (directory : string) (n : tname) (chain : list view) (cols_out : list string)
    (rows : list (list value)) (multiplier : Z) (mult : list string) (g : G) : prog G :=
  let path := (directory ++ "/" ++ render n ++ ".json")%string in
  let+ _ := send (EvOpen path) in
  for_io (fun g ri =>
      let+ (out, g) := lift (output_row chain (multiplied_indexes cols_out mult) multiplier [] (fst ri) (snd ri) g) in
      let+ _ := send (EvLine path (dict_of (combine cols_out out))) in
      ret g)
    (row_copies multiplier rows) g.

Section Database.
(** metadata.py:99, sampler.py:416 *)
Variable fnm : string -> string -> bool.
(** [re.sub(search, replace, string)].  (sampler.py:591) *)
Variable resub : string -> string -> string -> string.
(** The iteration order of sets.  (sampler.py:594-601) *)
Variable ord : list string -> list string.
(** Attributes of destination columns: [column.computed], [table.autoincrement_column], [issubclass(python_type, int)]. *)
Variables (computed : tname -> string -> bool) (autoinc : tname -> option string) (is_int : tname -> string -> bool).
(** [currval] in the session of the connection used.  (sampler.py:254) *)
Variable currval : tname -> option Z.
(** DESTINATION_BUFFER_SIZE (38).  (sampler.py:38, 704) *)
Variable buffer_size : nat.
Variable cfg : db_config.

(** sampler.py:588-592  _remap_table *)
Definition remap_table (n : tname) : ores tname :=
  parse_name (fold_left (fun s p => resub (fst p) (snd p) s) (oc_remap cfg) (render n)).

(** sampler.py:408-414  table_remap; [setdefault] *)
Definition table_remap (queries : list string) : ores (dict string string) :=
  forM (fun d table =>
      let* n := parse_name table in
      let* n' := remap_table n in
      match dget d (render n') with
      | Some t => if eqb t table then Ok d else Err OxValueError
      | None => Ok (dset d (render n') table)
      end) queries [].

(** sampler.py:393-420  DatabaseOutput.__init__ *)
Definition db_init (d : dest) (queries : list string) : ores db_output :=
  let* rm := table_remap queries in
  let* (ms, extra) := of_meta (from_engine fnm (ds_tables d) (dkeys rm) false true) in
  Ok (mkDbOutput rm ms extra []).

(** The largest integer in a column: [SELECT max(c)].  (sampler.py:459) *)
Definition max_value (rows : list row) (c : string) : option Z :=
  fold_left (fun m r => match rget r c with
                        | VInt z => Some (match m with Some y => Z.max y z | None => z end)
                        | _ => m
                        end) rows None.

(** sampler.py:434-463  the offsets of the primary keys; [pk_max_values] *)
Definition merge_keys (d : dest) (o : db_output) (passthrough queries : list string)
  : ores (dict tname (dict string Z) * dict string (option Z)) :=
  forM (fun acc table =>
      let '(offs, maxes) := acc in
      if memb table (set_of passthrough) then Ok acc
      else
        let* n := parse_name table in
        let* n' := remap_table n in
        let offs := dset offs n' [] in
        let* m := find_key (ou_meta o) n' in
        match tb_pk (tm_table m) with
        | [c] =>
            if is_int n' c then
              let mx := max_value (rows_of d n') c in
              Ok (match mx with Some v => dset offs n' (dset [] c (v + 1)%Z) | None => offs end, dset maxes table mx)
            else Ok (offs, maxes)
        | _ => Ok (offs, maxes)
        end) queries ([], []).

(** sampler.py:465-485  the offsets of the foreign keys *)
Definition merge_references (smeta : meta) (maxes : dict string (option Z)) (passthrough queries : list string)
    (offs : dict tname (dict string Z)) : ores (dict tname (dict string Z)) :=
  forM (fun offs table =>
      if memb table (set_of passthrough) then Ok offs
      else
        let* n := parse_name table in
        let* m := find_key smeta n in
        forM (fun offs fk =>
            match fk_cols fk with
            | [c] =>
                let* dm := find_key smeta (fk_dst fk) in
                if eqb (fk_dst_cols fk) (tb_pk (tm_table dm)) then
                  match dget_or maxes (render (fk_dst fk)) None with
                  | Some v =>
                      let* n' := remap_table n in
                      let* cur := find_key offs n' in
                      Ok (dset offs n' (dset cur c (v + 1)%Z))
                  | None => Ok offs
                  end
                else Ok offs
            | _ => Ok offs
            end) (tm_fks m) offs) queries offs.

(** sampler.py:422-485  prepare: the output with its table_offsets *)
Definition db_prepare (d : dest) (o : db_output) (smeta : meta) (passthrough queries : list string) : ores db_output :=
  if negb (oc_merge cfg) then Ok o
  else
    let* (offs, maxes) := merge_keys d o passthrough queries in
    let* offs := merge_references smeta maxes passthrough queries offs in
    Ok (mkDbOutput (ou_remap o) (ou_meta o) (ou_additional o) offs).

(** sampler.py:492-518  table_obj_map (by name in the plan) and, in the second component, the created ones with the source table *)
Definition new_tables (o : db_output) (smeta : meta) : ores (dict string table * list (string * (table * table))) :=
  forM (fun acc rt =>
      let '(objs, created) := acc in
      let* n' := parse_name (fst rt) in
      match dget (ou_meta o) n' with
      | Some m => Ok (dset objs (snd rt) (tm_table m), created)
      | None =>
          let* n := parse_name (snd rt) in
          let* sm := find_key smeta n in
          let st := tm_table sm in
          let t := mkTable n' (tb_cols st) (tb_pk st) [] [] in
          Ok (dset objs (snd rt) t, created ++ [(snd rt, (t, st))])
      end) (ou_remap o) ([], []).

(** sampler.py:520-524  _remap_cols: the table the columns [cols] of [n] are mapped to *)
Definition remap_cols (objs : dict string table) (n : tname) (cols : list string) : ores tname :=
  let* t := find_key objs (render n) in
  if subsetb cols (tb_cols t) then Ok (tb_name t) else Err OxKeyError.

(** sampler.py:526-550  the constraints of a created table (CHECK constraints and, 552-566, indexes are not modelled; a UNIQUE index
    counts as a UNIQUE constraint of the reflected table) *)
Definition copy_constraints (objs : dict string table) (t st : table) : ores table :=
  let* us := mapM (fun u => let* _ := remap_cols objs (tb_name st) u in Ok u) (tb_uniques st) in
  let* fks := mapM (fun fk =>
      let* d := remap_cols objs (fk_dst fk) (fk_dst_cols fk) in
      let* _ := remap_cols objs (tb_name st) (fk_cols fk) in
      Ok (mkFK (fk_cols fk) d (fk_dst_cols fk))) (tb_fks st) in
  Ok (mkTable (tb_name t) (tb_cols t) (tb_pk t) fks us).

(** sampler.py:487-572  create.  [create_all] is one step.  The order in which new tables are tracked is that of a set; the model tracks them
    in plan order (simplification: the metadata dict's order only influences which of several valid insert orders is used). *)
Definition db_create (o : db_output) (smeta : meta) : prog db_output :=
  let+ (objs, created) := lift (new_tables o smeta) in
  let+ ts := lift (mapM (fun nt => copy_constraints objs (fst (snd nt)) (snd (snd nt))) created) in
  if is_nil ts then ret o
  else
    let+ _ := send (EvCreate ts) in
    ret (mkDbOutput (ou_remap o) (fold_left (fun ms t => dset ms (tb_name t) (new_meta t)) ts (ou_meta o)) (ou_additional o) (ou_offsets o)).

(** sampler.py:574-586  truncate *)
Definition db_truncate (o : db_output) : prog unit :=
  let+ order := lift (of_topo (meta_toposort ord (ou_meta o))) in
  for_io (fun _ m => send (EvDelete (tm_name m))) (rev order) tt.

(** sampler.py:594-601  insert_order *)
Definition db_insert_order (o : db_output) : ores (list string) :=
  let* order := of_topo (meta_toposort ord (ou_meta o)) in
  Ok (flat_map (fun m => match dget (ou_remap o) (render (tm_name m)) with
                         | Some t => if eqb t EmptyString then [] else [t]
                         | None => []
                         end) order).

(** sampler.py:676-683  _flush_buffer *)
Definition flush (cs : strategy) (t : table) (cols_out : list string) (buffer : list (list value)) : prog unit :=
  let+ how := lift (conflict_insert (oc_dialect cfg) cs t cols_out) in
  send (EvInsert (tb_name t) how (map (fun r => dict_of (combine cols_out r)) buffer)).

(** sampler.py:235-241  _autoincrement_needs_updating; 244-295  _autoincrement_get, _autoincrement_update.  Both statements name the table
    without quotation marks (see [serial_table] of Model/Dest.v); if there is none of that name, already the first one fails.  Here it is
    the second one that fails then: the first one changes nothing. *)
Definition needs_updating : bool := match oc_dialect cfg with PostgreSQL => true | _ => false end.
Definition autoincrement_update (n : tname) (v : value) : prog unit :=
  match needs_updating, autoinc n, v with
  | true, Some _, VNull => ret tt
  | true, Some _, VInt z =>
      match currval n with
      | Some c =>
          if (z <? c)%Z then
            let+ m := reading (fun d => Ok (serial_table (ds_tables d) n)) in
            match m with Some _ => ret tt | None => send (EvSetval n z) end
          else send (EvSetval n z)
      | None => send (EvSetval n z)
      end
  | true, Some _, _ => lift (Err OxDbError)
  | _, _, _ => ret tt
  end.

(** sampler.py:685-705  the loop.  State: buffer, autoinc_max_written, state of the filters. *)
Record loop_state := mkLoop { lp_buffer : list (list value); lp_max : value; lp_g : G }.
Definition loop_body (cs : strategy) (t : table) (chain : list view) (cols_out : list string) (multiplied : list nat) (multiplier : Z)
    (offsets : list (nat * Z)) (autoinc_index : option nat) (s : loop_state) (ri : list value * Z) : prog loop_state :=
  let+ (out, g) := lift (output_row chain multiplied multiplier offsets (fst ri) (snd ri) (lp_g s)) in
  let+ mx := match autoinc_index with
             | Some i => let+ v := lift (item out i) in lift (next_max (lp_max s) v)
             | None => ret (lp_max s)
             end in
  let buffer := lp_buffer s ++ [out] in
  if Nat.ltb buffer_size (length buffer) then
    let+ _ := flush cs t cols_out buffer in ret (mkLoop [] mx g)
  else ret (mkLoop buffer mx g).

(** sampler.py:603-709  output_result_set.  [chain] and [cols_out] are the filter view (always given by 1061).  FilterOmit on existing
    columns cannot fail; the chain of (filter_view, omit_filter) is their concatenation. *)
Definition database_output (o : db_output) (passthrough : list string) (n : tname) (chain : list view) (cols_out : list string)
    (rows : list (list value)) (multiplier : Z) (mult : list string) (g : G) : prog G :=
  let+ n' := lift (remap_table n) in
  let+ m := lift (find_key (ou_meta o) n') in
  let t := tm_table m in
  if negb (subsetb cols_out (tb_cols t)) then lift (Err OxValueError)                                  (* sampler.py:619-625 *)
  else
    let comp := filter (computed n') cols_out in                                                        (* sampler.py:628-641 *)
    let+ (chain, cols_out) :=
      if is_nil comp then ret (chain, cols_out)
      else let+ v := lift (of_filter (filter_omit cols_out comp)) in ret (chain ++ [VwSimple v], sv_out v) in
    let offsets := offset_indexes cols_out (dget_or (ou_offsets o) n' []) in                            (* sampler.py:643-649 *)
    let autoinc_index := match needs_updating, autoinc n' with
                         | true, Some c => index_of c cols_out 0
                         | _, _ => None
                         end in                                                                         (* sampler.py:657-668 *)
    let cs := if oc_merge cfg && memb (render n) (set_of passthrough) then SSkip else oc_strategy cfg in  (* sampler.py:672-674 *)
    let+ s := for_io (loop_body cs t chain cols_out (multiplied_indexes cols_out mult) multiplier offsets autoinc_index)
                     (row_copies multiplier rows) (mkLoop [] VNull g) in
    let+ _ := if is_nil (lp_buffer s) then ret tt else flush cs t cols_out (lp_buffer s) in             (* sampler.py:706-707 *)
    let+ _ := autoincrement_update n' (lp_max s) in                                                     (* sampler.py:709 *)
    ret (lp_g s).
End Database.
End Output.
