(** Specification vocabulary for planning and sampling together. *)
From Verif Require Import Model.Base Model.Value Model.Names Model.PlanModel Model.Metadata Model.Planner Model.Filters Model.Materialize Model.Dest Model.Output Model.Sampler.
From Verif Require Import Spec.GraphSpec Spec.SchemaSpec Spec.SqlSem Spec.PlannerSpec Spec.FilterSpec Spec.OutputSpec Spec.SampleSpec Spec.RunSpec.
Open Scope list_scope.

(** The configuration asks for no column to be renumbered. *)
Definition no_compaction (cc : compact_config) : Prop := cp_primary_keys cc = false /\ cp_auto_increment cc = false /\ cp_columns cc = [].

Section Whole.
Context {G : Type}.
Variables (E : env G) (cfg : sampler_config) (c : db_config) (p : plan).

(** Column [k] of the planned table [t], copied to [n'], is changed by no filter, and written by the run. *)
Definition untouched_column (t : string) (n' : tname) (k : string) : Prop :=
  (forall f, In f (filters_of cfg t) -> ~ may_change f k) /\ en_computed E n' k = false.
(** Nothing is in the table [n'] of the destination [d] when copying starts. *)
Definition starts_empty (d : dest) (truncate : bool) (n' : tname) : Prop := truncate = true \/ rows_of d n' = [].
(** A run that only copies: no merging, no multiplying, conflicting rows are errors. *)
Definition plain_run : Prop := oc_merge c = false /\ oc_strategy c = SError /\ (Multiply.mc_multiplier (sc_multiplicity cfg) <= 1)%Z.

(** What is assumed of the environment: set iteration, random numbers and row numbers of the database. *)
Definition env_ok : Prop :=
  any_order (en_ord_name E) /\ (forall ph n, rnd_ok (en_rnd E ph n)) /\ (forall ph n ks, length (en_rank E ph n ks) = length ks).
(** [p] is the planner's plan for the configuration [pcfg] and the source database of the run. *)
Definition planned_by (pcfg : config) : Prop :=
  config_ok pcfg /\ extras_valid pcfg /\ db_ok (en_source_schema E) /\ targets_fit pcfg (en_source_schema E) /\
  (exists ord ordp, any_order ord /\ any_order ordp /\ plan_db ord ordp (en_fnm E) pcfg (en_source_schema E) = Ok p) /\
  source_ok id_column (en_source_schema E) (en_source E) /\
  (forall s, In s (dkeys (p_queries p)) -> en_fnm E s s = true).
End Whole.
