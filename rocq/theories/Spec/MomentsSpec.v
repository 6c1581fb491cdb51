(** Specification vocabulary for the states a destination goes through while a run writes to it. *)
From Verif Require Import Model.Base Model.Value Model.Names Model.PlanModel Model.Metadata Model.Planner Model.Filters Model.Multiply Model.Materialize Model.Dest Model.Output Model.Sampler.
From Verif Require Import Spec.GraphSpec Spec.SchemaSpec Spec.SqlSem Spec.PlannerSpec Spec.FilterSpec Spec.OutputSpec Spec.RunSpec Spec.SampleSpec Spec.WholeSpec Spec.CompactWholeSpec Spec.CopiesSpec.
Open Scope list_scope.

Section Moments.
Context {G : Type}.
Variables (E : env G) (cfg : sampler_config) (c : db_config) (p : plan).

(** The assumptions on the environment, the plan [p] made for [pcfg], the source and the destination [w] before the run. *)
Definition good_start (pcfg : config) (w : world) : Prop :=
  env_ok E /\ planned_by E p pcfg /\ run_ok E cfg c p (w_dest w) /\ trace w = [] /\ eq_symmetric (en_cmp E) /\ eq_arithmetic (en_cmp E) /\
  source_consistent (en_fnm E) pcfg (en_source_schema E) (en_cmp E) (en_source E) /\
  (forall n g, is_target pcfg n g -> tg_all g = true -> tg_amount g = None).

(** [d] is a state of the destination between two statements of the run from [w] to [w'], or before the first or after the last. *)
Definition moment (w w' : world) (d : dest) : Prop := exists tr, initial_part tr (trace w') /\ replay (en_dflt E) (w_dest w) tr d.

(** The foreign key [fk'] of the table [n'] of the destination corresponds to one that the planner considered, between planned
    tables that are copied to its ends, and whose columns are treated alike (C101). *)
Definition carried_over (pcfg : config) (truncate : bool) (w : world) (schema : list table) (n' : tname) (fk' : fkey) : Prop :=
  exists fk t td n tb tbd, considered (en_fnm E) pcfg (en_source_schema E) n fk /\ fk_cols fk = fk_cols fk' /\ fk_dst_cols fk = fk_dst_cols fk' /\
    (In t (dkeys (p_queries p)) /\ named t n /\ goes_to (en_resub E) (oc_remap c) n n' /\ table_of schema n' tb /\
       forall k, In k (fk_cols fk) -> untouched_column E cfg t n' k) /\
    (In td (dkeys (p_queries p)) /\ named td (fk_dst fk) /\ goes_to (en_resub E) (oc_remap c) (fk_dst fk) (fk_dst fk') /\ table_of schema (fk_dst fk') tbd /\
       forall k, In k (fk_dst_cols fk) -> untouched_column E cfg td (fk_dst fk') k) /\
    replaced_by_key c p t tb /\ found_by_key c p td tbd (fk_dst_cols fk) /\ renumbered_alike E cfg p n fk /\
    forall a b, In (a, b) (combine (fk_cols fk) (fk_dst_cols fk)) ->
      multiplied_alike E cfg p t a td b /\ shifted_alike E cfg c p (starting truncate w) schema t n n' a td (fk_dst fk) (fk_dst fk') b.
(** A foreign key of a table that is written is carried over; the one of another table refers to rows that the run does not
    replace under another key. *)
Definition respected (pcfg : config) (truncate : bool) (w : world) (schema : list table) (n' : tname) (fk' : fkey) : Prop :=
  let target := target (en_resub E) (oc_remap c) (dkeys (p_queries p)) in
  (target n' -> carried_over pcfg truncate w schema n' fk') /\
  (~ target n' -> forall td tbd, In td (dkeys (p_queries p)) -> lands (en_resub E) (oc_remap c) td (fk_dst fk') -> table_of schema (fk_dst fk') tbd ->
     found_by_key c p td tbd (fk_dst_cols fk')).

(** Every foreign key of the destination holds in the state [d]. *)
Definition keys_hold (d : dest) : Prop :=
  forall n tb fk, table_of (ds_tables d) n tb -> In fk (tb_fks tb) -> fk_holds (en_cmp E) fk (rows_of d n) (rows_of d (fk_dst fk)).
(** A destination that refuses statements only because they violate foreign keys. *)
Definition enforces_keys : Prop := forall d e, en_accepts E d e = false -> exists d', exec (en_dflt E) d e = Some d' /\ ~ keys_hold d'.
(** The same destination without the foreign key checks. *)
Definition unchecked : env G :=
  Sampler.mkEnv (en_filters E) (en_fnm E) (en_resub E) (en_ord_str E) (en_ord_name E) (en_source_schema E) (en_source E) (en_src_int E)
    (en_src_autoinc E) (en_cmp E) (en_text E) (en_raw E) (en_raw_cols E) (en_rnd E) (en_rank E) (en_reopen E) (en_dflt E) (fun _ _ => true)
    (en_computed E) (en_autoinc E) (en_dst_int E) (en_currval E) (en_buffer E).
End Moments.
