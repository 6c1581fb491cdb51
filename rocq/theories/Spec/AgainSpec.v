(** Two runs, the second of a wider configuration or of what the first one left (C115, C119). *)
From Coq Require Import Permutation.
From Verif Require Import Model.Base Model.Value Model.Names Model.PlanModel Model.Metadata Model.Planner Model.Filters Model.Multiply Model.Materialize Model.Dest Model.Output Model.Sampler.
From Verif Require Import Spec.GraphSpec Spec.SchemaSpec Spec.SqlSem Spec.PlannerSpec Spec.FilterSpec Spec.OutputSpec Spec.RunSpec Spec.WholeSpec.
From Verif Require Import Model.Dest.
Open Scope list_scope.

(** Two rows have the same values in the columns [cols]. *)
Definition same_values (cols : list string) (r r' : row) : Prop := forall k, In k cols -> rget r' k = rget r k.
(** What reading a table with the columns [cols] returns: the values of these columns, row by row. *)
Definition reads (cols : list string) (stored read : list row) : Prop :=
  Forall2 (fun r r' => map fst r' = cols /\ same_values cols r r') stored read.

(** The run of the planner's plan [p] for [pcfg] just copies, into tables that are truncated or empty, and completes. *)
Record copies {G} (E : env G) (pcfg : config) (cfg : sampler_config) (c : db_config) (p : plan) (truncate create : bool) (w w' : world) : Prop := mkCopies {
  cp_env : env_ok E;
  cp_planned : planned_by E p pcfg;
  cp_compact : no_compaction (sc_compact cfg);
  cp_ok : run_ok E cfg c p (w_dest w);
  cp_trace : trace w = [];
  cp_plain : plain_run cfg c;
  cp_done : exists g g', sample E cfg p truncate create g w = (w', Ok g') }.
(** The table [n], all of whose columns are copied, arrives in [n']. *)
Definition arrives {G} (E : env G) (cfg : sampler_config) (c : db_config) (p : plan) (truncate : bool) (w w' : world) (n n' : tname) : Prop :=
  goes_to (en_resub E) (oc_remap c) n n' /\ (exists tb, table_of (ds_tables (w_dest w')) n' tb) /\ starts_empty (w_dest w) truncate n' /\
  forall s tb k, named s n -> table_of (en_source_schema E) n tb -> In k (tb_cols tb) -> untouched_column E cfg s n' k.
(** Every planned table has arrived, and the source of the run with [E'] is what is there now, in any order. *)
Definition reads_result {G G'} (E : env G) (cfg : sampler_config) (c : db_config) (p : plan) (truncate : bool) (w w' : world) (E' : env G') : Prop :=
  forall n tb, planned p n -> table_of (en_source_schema E) n tb ->
    exists n' stored, arrives E cfg c p truncate w w' n n' /\ Permutation stored (rows_of (w_dest w') n') /\ reads (tb_cols tb) stored (en_source E' n).
