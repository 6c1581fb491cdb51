(** Model of a run of /repo/subsetter/sampler.py on a source database that other sessions change meanwhile.
    All statements of a run go through one connection (sampler.py:747-751) that commits nothing; under the default isolation
    level READ COMMITTED (common.py:187-192) every statement sees what has been committed when it starts. *)
From Verif Require Import Model.Base Model.Value Model.Names Model.PlanModel Model.SqlAlgebra Model.PlanBuild
  Model.Metadata Model.Filters Model.Multiply Model.Materialize Model.Dest Model.Output Model.Sampler.
Open Scope list_scope.

Section Live.
Context {G : Type}.
Variable E : env G.
(** [h k n]: the rows of table [n] the [k]-th statement reading source tables sees; [raw rows]: what a raw SQL query returns
    from a database with these rows.  Simplifications: the schema does not change; a raw SQL condition ([en_text]) looks at
    its row only; statements that only copy a temporary table (sampler.py:918-930) are not counted, as they read no source
    table. *)
Variable h : nat -> tname -> list row.
Variable raw : (tname -> list row) -> string -> option (dict string lit) -> list row.
Variable cfg : sampler_config.

(** The environment of a run that sees the rows [rows] in the source.  (sampler.py:747) *)
Definition reading_from (rows : tname -> list row) : env G :=
  mkEnv (en_filters E) (en_fnm E) (en_resub E) (en_ord_str E) (en_ord_name E) (en_source_schema E) rows (en_src_int E) (en_src_autoinc E)
    (en_cmp E) (en_text E) (raw rows) (en_raw_cols E) (en_rnd E) (en_rank E) (en_reopen E) (en_dflt E) (en_accepts E) (en_computed E)
    (en_autoinc E) (en_dst_int E) (en_currval E) (en_buffer E).

(** sampler.py:872-935  the loop of _materialize_tables: one INSERT .. SELECT that reads source tables for each table *)
Definition materialize_live (ms : meta) (compact : dict tname (list string)) (queries : dict string table_query) : xres (nat * tstate) :=
  let* order := materialization_order (en_ord_name E) ms compact queries in
  forM (fun ks nc =>
      let '(k, st) := ks in
      let* st := materialize_one (h k) (en_cmp E) (en_text E) (raw (h k)) (en_rnd E) (en_rank E) (en_reopen E) ms compact
                   (cp_start (sc_compact cfg)) queries st nc in
      Ok (S k, st)) order (0, no_temps).

(** sampler.py:946-1069  the loop of _copy_results: one SELECT for each table *)
Definition copy_live (o : output) (p : plan) (ms : meta) (compact : dict tname (list string)) (st : tstate)
    (mults : dict string (list string)) (order : list string) (k : nat) (g : G) : io out_exn G :=
  let+ kg := for_io (fun kg table =>
      let '(k, g) := kg in
      let+ g := copy_one (reading_from (h k)) cfg o p ms compact st mults g table in
      ret (S k, g)) order (k, g) in
  ret (snd kg).

(** sampler.py:721-751  sample *)
Definition sample_live (p : plan) (truncate create : bool) (g : G) : io out_exn G :=
  let queries := dkeys (p_queries p) in
  let+ ms := lift (of_meta (sampler_meta (en_fnm E) (en_source_schema E) (p_queries p) (sc_infer cfg))) in
  let+ _ := lift (validate_filters (fe_load_plugin (en_filters E)) (sc_filters cfg) ms) in
  let+ mults := lift (of_mult (get_multiplied_columns (sc_multiplicity cfg) ms (en_src_int E) (en_ord_str E) p)) in
  let+ o := open_output E cfg queries in
  let+ o := if create then create_tables E ms o else ret o in
  let+ order := lift (insertion_order E queries o) in
  let+ _ := if truncate then truncate_tables E o else ret tt in
  let+ o := prepare E ms (p_passthrough p) queries o in
  let+ compact := lift (of_samp (get_compact_columns (sc_compact cfg) (p_passthrough p) ms (en_src_int E) (en_src_autoinc E))) in
  let+ kst := lift (of_samp (materialize_live ms compact (p_queries p))) in
  copy_live o p ms compact (snd kst) mults order (fst kst) g.
End Live.
