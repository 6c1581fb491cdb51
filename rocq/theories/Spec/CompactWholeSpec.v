(** Specification vocabulary for whole runs that renumber ("compact") columns. *)
From Verif Require Import Model.Base Model.Value Model.Names Model.PlanModel Model.Metadata Model.Planner Model.Materialize Model.Dest Model.Output Model.Sampler.
From Verif Require Import Spec.GraphSpec Spec.SchemaSpec Spec.SqlSem Spec.PlannerSpec Spec.OutputSpec Spec.RunSpec Spec.SampleSpec Spec.WholeSpec.
Open Scope list_scope.

(** Equality of the database is transitive (symmetry: [eq_symmetric]). *)
Definition eq_transitive (cmpf : cmpop -> value -> value -> bool) : Prop :=
  forall a b c, cmpf CEq a b = true -> cmpf CEq b c = true -> cmpf CEq a c = true.

Section Columns.
Variables (ms : meta) (compact : dict tname (list string)).

(** Column [c] of [n] is not renumbered, and refers to no renumbered column. *)
Definition kept (n : tname) (c : string) : Prop := ~ compacted compact n c /\ forall d dc, ~ governs ms compact n c d dc.
(** Column [c] of [n] and the column [dc] of [d] it refers to change together: both are kept; or [dc] is renumbered and
    [c] follows it; or both follow the same renumbered column of a third table.  [decides]: of the renumbered columns that [c]
    refers to by foreign keys the sampler knows, [dc] is the last. *)
Definition in_step (n : tname) (c : string) (d : tname) (dc : string) : Prop :=
  kept n c /\ kept d dc \/
  ~ compacted compact n c /\ decides ms compact n c d dc \/
  ~ compacted compact n c /\ ~ compacted compact d dc /\ exists g gc, decides ms compact n c g gc /\ decides ms compact d dc g gc.
End Columns.

(** [ms] is the schema as the sampler sees it, [compact] the columns it renumbers; the configured columns exist, the table names
    of the plan mean themselves as patterns, renumbered columns are unique in the source, and without temporary tables that
    can be opened twice (MySQL) no foreign key has two columns that refer to renumbered ones. *)
Definition renumbers {G} (E : env G) (cfg : sampler_config) (p : plan) (ms : meta) (compact : dict tname (list string)) : Prop :=
  sampler_meta (en_fnm E) (en_source_schema E) (p_queries p) (sc_infer cfg) = Ok ms /\
  get_compact_columns (sc_compact cfg) (p_passthrough p) ms (en_src_int E) (en_src_autoinc E) = Ok compact /\
  NoDup (dkeys (cp_columns (sc_compact cfg))) /\
  (forall s cs n t c, In (s, cs) (cp_columns (sc_compact cfg)) -> named s n -> table_of (en_source_schema E) n t -> In c cs -> In c (tb_cols t)) /\
  (forall s k, In k (dkeys (p_queries p)) -> en_fnm E s k = true <-> s = k) /\
  (forall n c, compacted compact n c -> unique_in (en_cmp E) c (en_source E n)) /\
  (en_reopen E = false -> one_compacted ms compact).
(** [row_number()] numbers the rows of a result 1, 2, ... in some order. *)
Definition numbers_rows {G} (E : env G) : Prop := forall ph n ks, Permutation (en_rank E ph n ks) (seq 1 (length ks)).

Section Run.
Context {G : Type}.
Variables (E : env G) (cfg : sampler_config) (c : db_config) (p : plan).
(** A successful run from [w] to [w'] that carries out the planner's plan [p] for the configuration [pcfg] on a consistent
    source, renumbering the columns [compact]. *)
Definition renumbering_run (pcfg : config) (ms : meta) (compact : dict tname (list string)) (truncate : bool) (w w' : world) : Prop :=
  env_ok E /\ numbers_rows E /\ planned_by E p pcfg /\ renumbers E cfg p ms compact /\
  run_ok E cfg c p (w_dest w) /\ trace w = [] /\ plain_run cfg c /\
  eq_symmetric (en_cmp E) /\ eq_transitive (en_cmp E) /\ (forall k, en_cmp E CEq (VInt k) (VInt k) = true) /\
  source_consistent (en_fnm E) pcfg (en_source_schema E) (en_cmp E) (en_source E) /\
  (forall n g, is_target pcfg n g -> tg_all g = true -> tg_amount g = None) /\
  exists create g g', sample E cfg p truncate create g w = (w', Ok g').
(** The planned table [n] is copied to the empty table [n'] of the destination; filters do not change its columns [cols]. *)
Definition arrives (truncate : bool) (w w' : world) (n n' : tname) (cols : list string) : Prop :=
  exists t, In t (dkeys (p_queries p)) /\ named t n /\ goes_to (en_resub E) (oc_remap c) n n' /\
    (exists tb, table_of (ds_tables (w_dest w')) n' tb) /\ starts_empty (w_dest w) truncate n' /\
    forall k, In k cols -> untouched_column E cfg t n' k.
End Run.
