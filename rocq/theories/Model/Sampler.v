(** Model of /repo/subsetter/sampler.py: [Sampler.sample] (721-751), [_validate_filters] and the loop of [_copy_results]. *)
From Verif Require Import Model.Base Model.Solver Model.Value Model.Names Model.PlanModel Spec.SqlSem Model.SqlAlgebra Model.PlanBuild
  Model.Metadata Model.Planner Model.Filters Model.Multiply Model.Materialize Model.Dest Model.Output.
Open Scope list_scope.

(** sampler.py:729-733  the metadata of the source: the planned tables' names are used as patterns. *)
Definition sampler_meta (fnm : string -> string -> bool) (db : list table) (queries : dict string table_query)
    (infer : infer_mode) : eres meta :=
  let* me := from_engine fnm db (dkeys queries) false false in
  Ok (match infer with
      | InferNone => fst me
      | InferSchema => infer_missing_foreign_keys false (fst me)
      | InferAll => infer_missing_foreign_keys true (fst me)
      end).

(** config_model.py:62-104  SamplerConfig *)
Inductive output_config := ToDirectory (directory : string) | ToDatabase (c : db_config).
Record sampler_config := mkSampler {
  sc_output : output_config; sc_filters : dict string (list filter_config); sc_multiplicity : mult_config;
  sc_infer : infer_mode; sc_compact : compact_config }.

(** The two SamplerOutput classes.  (sampler.py:333-341) *)
Inductive output := OutDirectory (directory : string) | OutDatabase (c : db_config) (o : db_output).

(** sampler.py:1071-1085  _validate_filters: every filter is constructed once with the columns of its table *)
Definition validate_filters (load_plugin : string -> string -> bool) (filters : dict string (list filter_config)) (ms : meta)
  : ores unit :=
  forM (fun _ tf =>
      if is_nil (snd tf) then Ok tt
      else
        let* n := parse_name (fst tf) in
        match dget ms n with
        | None => Ok tt
        | Some m => let* _ := of_filter (construct_chain load_plugin (snd tf) (tb_cols (tm_table m))) in Ok tt
        end) filters tt.

(** Everything outside the program: randomness and plugins of filters, the source database, the destination.  (sampler.py:712-751) *)
Record env (G : Type) := mkEnv {
  en_filters : filter_env G;
  en_fnm : string -> string -> bool;                                           (* fnmatch *)
  en_resub : string -> string -> string -> string;                             (* re.sub *)
  en_ord_str : list string -> list string;                                     (* iteration orders of sets *)
  en_ord_name : list tname -> list tname;
  en_source_schema : list table;
  en_source : tname -> list row;
  en_src_int : tname -> string -> bool;
  en_src_autoinc : tname -> bool;
  en_cmp : cmpop -> value -> value -> bool;
  en_text : string -> option (dict string lit) -> row -> tv;
  en_raw : string -> option (dict string lit) -> list row;
  en_raw_cols : string -> option (dict string lit) -> list string;
  en_rnd : phase -> tname -> rnd;
  en_rank : phase -> tname -> list (list value) -> list nat;
  en_reopen : bool;
  en_dflt : tname -> string -> list row -> row -> value;
  en_accepts : dest -> event -> bool;
  en_computed : tname -> string -> bool;
  en_autoinc : tname -> option string;
  en_dst_int : tname -> string -> bool;
  en_currval : tname -> option Z;
  en_buffer : nat }.
Arguments mkEnv {G}.
Arguments en_filters {G} _. Arguments en_fnm {G} _. Arguments en_resub {G} _. Arguments en_ord_str {G} _. Arguments en_ord_name {G} _.
Arguments en_source_schema {G} _. Arguments en_source {G} _. Arguments en_src_int {G} _. Arguments en_src_autoinc {G} _. Arguments en_cmp {G} _.
Arguments en_text {G} _. Arguments en_raw {G} _. Arguments en_raw_cols {G} _. Arguments en_rnd {G} _. Arguments en_rank {G} _.
Arguments en_reopen {G} _. Arguments en_dflt {G} _. Arguments en_accepts {G} _. Arguments en_computed {G} _. Arguments en_autoinc {G} _.
Arguments en_dst_int {G} _. Arguments en_currval {G} _. Arguments en_buffer {G} _.

Section Sample.
Context {G : Type}.
(** What sampler.py:721-751 meets. *)
Variable E : env G.
(** sampler.py:713-719. *)
Variable cfg : sampler_config.
Notation prog := (io out_exn).

(** sampler.py:333-341  SamplerOutput.from_config *)
Definition open_output (queries : list string) : prog output :=
  match sc_output cfg with
  | ToDirectory dir => ret (OutDirectory dir)
  | ToDatabase c => let+ o := reading (fun d => db_init (en_fnm E) (en_resub E) c d queries) in ret (OutDatabase c o)
  end.
(** The methods create, insert_order, truncate, prepare of the two classes (307-335, 362-363, 422-601).  (sampler.py:306-331, 487) *)
Definition create_tables (smeta : meta) (o : output) : prog output :=
  match o with
  | OutDirectory _ => ret o
  | OutDatabase c o => let+ o := db_create (en_dflt E) (en_accepts E) o smeta in ret (OutDatabase c o)
  end.
Definition insertion_order (queries : list string) (o : output) : ores (list string) :=
  match o with
  | OutDirectory _ => Ok queries
  | OutDatabase _ o => db_insert_order (en_ord_str E) o
  end.
(** sampler.py:721-751, 320-321 and 574-586. *)
Definition truncate_tables (o : output) : prog unit :=
  match o with
  | OutDirectory _ => ret tt
  | OutDatabase _ o => db_truncate (en_dflt E) (en_accepts E) (en_ord_str E) o
  end.
(** sampler.py:317-320, 422 *)
Definition prepare (smeta : meta) (passthrough queries : list string) (o : output) : prog output :=
  match o with
  | OutDirectory _ => ret o
  | OutDatabase c o =>
      let+ o := reading (fun d => db_prepare (en_resub E) (en_dst_int E) c d o smeta passthrough queries) in ret (OutDatabase c o)
  end.
(** sampler.py:358, 603 *)
Definition output_result_set (o : output) (passthrough : list string) (n : tname) (chain : list view) (cols_out : list string)
    (rows : list (list value)) (multiplier : Z) (mult : list string) (g : G) : prog G :=
  match o with
  | OutDirectory dir => directory_output (en_filters E) (en_dflt E) (en_accepts E) dir n chain cols_out rows multiplier mult g
  | OutDatabase c o =>
      database_output (en_filters E) (en_dflt E) (en_accepts E) (en_resub E) (en_computed E) (en_autoinc E) (en_currval E) (en_buffer E) c
        o passthrough n chain cols_out rows multiplier mult g
  end.

(** sampler.py:1035-1068  one table of _copy_results: run the statement, construct its filters, output the rows *)
Definition copy_one (o : output) (p : plan) (ms : meta) (compact : dict tname (list string)) (st : tstate)
    (mults : dict string (list string)) (g : G) (table : string) : prog G :=
  let+ c := lift (of_samp (copy_table (en_source E) (en_cmp E) (en_text E) (en_raw E) (en_raw_cols E) (en_rnd E) (en_rank E) (en_reopen E)
                             ms compact (cp_start (sc_compact cfg)) st (p_queries p) table)) in
  match c with
  | None => ret g
  | Some c =>
      let+ (chain, cols_out) := lift (of_filter (construct_chain (fe_load_plugin (en_filters E)) (dget_or (sc_filters cfg) table []) (co_cols c))) in
      output_result_set o (p_passthrough p) (co_name c) chain cols_out (map (fun r => map (rget r) (co_cols c)) (co_rows c))
        (match dget mults table with None => 1%Z | Some _ => mc_multiplier (sc_multiplicity cfg) end)
        (dget_or mults table []) g
  end.

(** sampler.py:937-1069  _copy_results *)
Definition copy_results (o : output) (p : plan) (ms : meta) (compact : dict tname (list string)) (st : tstate)
    (mults : dict string (list string)) (order : list string) (g : G) : prog G :=
  for_io (copy_one o p ms compact st mults) order g.

(** sampler.py:721-751  sample *)
Definition sample (p : plan) (truncate create : bool) (g : G) : prog G :=
  let queries := dkeys (p_queries p) in
  let+ ms := lift (of_meta (sampler_meta (en_fnm E) (en_source_schema E) (p_queries p) (sc_infer cfg))) in
  let+ _ := lift (validate_filters (fe_load_plugin (en_filters E)) (sc_filters cfg) ms) in
  let+ mults := lift (of_mult (get_multiplied_columns (sc_multiplicity cfg) ms (en_src_int E) (en_ord_str E) p)) in
  let+ o := open_output queries in
  let+ o := if create then create_tables ms o else ret o in
  let+ order := lift (insertion_order queries o) in
  let+ _ := if truncate then truncate_tables o else ret tt in
  let+ o := prepare ms (p_passthrough p) queries o in
  let+ compact := lift (of_samp (get_compact_columns (sc_compact cfg) (p_passthrough p) ms (en_src_int E) (en_src_autoinc E))) in
  let+ st := lift (of_samp (materialize_tables (en_source E) (en_cmp E) (en_text E) (en_raw E) (en_rnd E) (en_rank E) (en_reopen E)
                              ms compact (cp_start (sc_compact cfg)) (en_ord_name E) (p_queries p))) in
  copy_results o p ms compact st mults order g.
End Sample.
