(** Specification vocabulary for runs on a source database that changes meanwhile. *)
From Verif Require Import Model.Base Model.Value Model.PlanModel Model.Metadata Model.Planner Model.Dest Model.Output Model.Sampler Model.Live.
From Verif Require Import Spec.GraphSpec Spec.SchemaSpec Spec.SqlSem Spec.PlannerSpec Spec.OutputSpec Spec.SampleSpec Spec.WholeSpec.
Open Scope list_scope.

(** Every query of the plan reads, of the source tables, only the table it is for, and is not raw SQL. *)
Definition own_table_only (queries : dict string table_query) : Prop :=
  forall s q n, In (s, q) queries -> named s n -> q_sql q = None /\
    forall id, In id (query_ids q) -> i_sampled id = false -> i_name id = n.

(** Each table as it was at its own moment. *)
Definition at_moments (h : nat -> tname -> list row) (moment : tname -> nat) (n : tname) : list row := h (moment n) n.

(** Tables are read one after the other, and a table after those whose sample its query reads. *)
Definition one_by_one (queries : dict string table_query) (moment : tname -> nat) : Prop :=
  (forall n d, has_query queries n -> has_query queries d -> moment n = moment d -> n = d) /\
  (forall n d, reads_sample queries n d -> moment d < moment n).

(** [l]: the tables whose sample other queries read.  A run that renumbers nothing copies them to temporary tables before it
    writes anything. *)
Definition read_by_others (queries : dict string table_query) (l : list tname) : Prop :=
  NoDup l /\ forall n, In n l <-> has_query queries n /\ exists n', reads_sample queries n' n.
(** All other tables are read after these. *)
Definition others_later (queries : dict string table_query) (moment : tname -> nat) : Prop :=
  forall l, read_by_others queries l -> forall n, has_query queries n -> ~ In n l -> length l <= moment n.

(** During the run, rows that other rows refer to by [fk] of table [n] are not taken away: what a row of [n] refers to at
    some moment, it refers to later, too. *)
Definition lasting (cmpf : cmpop -> value -> value -> bool) (h : nat -> tname -> list row) (n : tname) (fk : fkey) : Prop :=
  forall k k' r, k <= k' -> In r (h k n) ->
    (exists r', In r' (h k (fk_dst fk)) /\ refers cmpf fk r r') -> exists r', In r' (h k' (fk_dst fk)) /\ refers cmpf fk r r'.

(** Primary keys are unique in the source. *)
Definition unique_keys (db : list table) (source : tname -> list row) : Prop :=
  forall t, In t db -> tb_pk t <> [] -> NoDup (map (fun r => map (rget r) (tb_pk t)) (source (tb_name t))).

(** The output is a directory, or a database with a well-formed schema in which the names of the planned tables stand for
    themselves. *)
Definition writable {G} (E : env G) (cfg : sampler_config) (p : plan) (d : dest) : Prop :=
  match sc_output cfg with
  | ToDirectory _ => True
  | ToDatabase c => db_ok (ds_tables d) /\ any_order (en_ord_str E) /\
      plain_names (en_fnm E) (target (en_resub E) (oc_remap c) (dkeys (p_queries p)))
  end.

(** A run of the planner's plan that only copies, while the source changes as in [h]: the source satisfies its schema's primary
    keys and the foreign keys considered at every moment. *)
Definition live_setup {G} (E : env G) (h : nat -> tname -> list row) (raw : (tname -> list row) -> string -> option (dict string lit) -> list row)
    (cfg : sampler_config) (c : db_config) (p : plan) (pcfg : config) (w : world) : Prop :=
  env_ok E /\ (forall k, planned_by (reading_from E raw (h k)) p pcfg) /\ no_compaction (sc_compact cfg) /\ sc_output cfg = ToDatabase c /\
  writable E cfg p (w_dest w) /\ trace w = [] /\ plain_run cfg c /\ eq_symmetric (en_cmp E) /\
  (forall k, source_consistent (en_fnm E) pcfg (en_source_schema E) (en_cmp E) (h k)) /\
  (forall n g, is_target pcfg n g -> tg_all g = true -> tg_amount g = None).
(** [n] and [nd] are tables of the plan that are copied, from an empty start, to [n'] and [nd'], the columns of [fk] unchanged. *)
Definition copied_pair {G} (E : env G) (cfg : sampler_config) (c : db_config) (p : plan) (w w' : world) (truncate : bool) (n : tname) (fk : fkey) (n' nd' : tname) : Prop :=
  exists t td, In t (dkeys (p_queries p)) /\ In td (dkeys (p_queries p)) /\ named t n /\ named td (fk_dst fk) /\
    goes_to (en_resub E) (oc_remap c) n n' /\ goes_to (en_resub E) (oc_remap c) (fk_dst fk) nd' /\
    (exists tb, table_of (ds_tables (w_dest w')) n' tb) /\ (exists tb, table_of (ds_tables (w_dest w')) nd' tb) /\
    starts_empty (w_dest w) truncate n' /\ starts_empty (w_dest w) truncate nd' /\
    (forall k, In k (fk_cols fk) -> untouched_column E cfg t n' k) /\ (forall k, In k (fk_dst_cols fk) -> untouched_column E cfg td nd' k).
(** The referenced table is sampled for the rows referring to it: it is neither passed through nor a target, except for a
    target with an amount. *)
Definition sampled_for_references (fnm : string -> string -> bool) (pcfg : config) (db : list table) (d : tname) : Prop :=
  ~ passed_through fnm pcfg db d /\ forall g, is_target pcfg d g -> tg_all g = false /\ tg_amount g <> None.
