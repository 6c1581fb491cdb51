(** Specification vocabulary for whole runs that copy rows several times, merge them into existing data or meet existing rows. *)
From Verif Require Import Model.Base Model.Value Model.Names Model.PlanModel Model.Metadata Model.Planner Model.Filters Model.Multiply Model.Materialize Model.Dest Model.Output Model.Sampler.
From Verif Require Import Spec.GraphSpec Spec.SchemaSpec Spec.SqlSem Spec.PlannerSpec Spec.FilterSpec Spec.OutputSpec Spec.RunSpec Spec.SampleSpec Spec.WholeSpec Spec.CompactWholeSpec.
From Verif Require Spec.MultiplySpec.
Open Scope list_scope.

(** Equal values stay equal when the same numbers are multiplied and added to them. *)
Definition eq_arithmetic (cmpf : cmpop -> value -> value -> bool) : Prop :=
  forall a b m i a' b', cmpf CEq a b = true -> times_plus m i a = Some a' -> times_plus m i b = Some b' -> cmpf CEq a' b' = true.

Section Copies.
Context {G : Type}.
Variables (E : env G) (cfg : sampler_config) (c : db_config) (p : plan).
Notation queries := (dkeys (p_queries p)).
Notation pass := (p_passthrough p).
Notation becomes := (goes_to (en_resub E) (oc_remap c)).

(** Rows are multiplied, and then both columns are multiplied or none.  [MultiplySpec.multiplied]: the columns the documentation
    says are multiplied. *)
Definition multiplied_alike (t k td dk : string) : Prop :=
  (1 < mc_multiplier (sc_multiplicity cfg))%Z ->
  forall ms, sampler_meta (en_fnm E) (en_source_schema E) (p_queries p) (sc_infer cfg) = Ok ms ->
    (MultiplySpec.multiplied ms (sc_multiplicity cfg) p t k <-> MultiplySpec.multiplied ms (sc_multiplicity cfg) p td dk).

(** In merge mode.  [start]: the rows of the destination when copying starts; [schema]: its tables. *)
Section Shifts.
Variables (start : tname -> list row) (schema : list table).
(** Column [k] of [t] (table [n], at the destination [n']) keeps its values: [t] is passthrough; or [k] is not its whole primary key
    and refers to no primary key except those of passthrough tables. *)
Definition stays (t : string) (n n' : tname) (k : string) : Prop :=
  exists tb, table_of schema n' tb /\ (In t pass \/ tb_pk tb <> [k] /\
    forall fk, source_fk E cfg p n fk -> fk_cols fk = [k] ->
      (exists td, named td (fk_dst fk) /\ In td pass) \/ (forall tb, table_of (en_source_schema E) (fk_dst fk) tb -> tb_pk tb <> fk_dst_cols fk)).
(** [k] is a key that gets fresh values: the integer primary key of a merged table, and not a reference. *)
Definition fresh_key (t : string) (n n' : tname) (k : string) : Prop :=
  In t queries /\ ~ In t pass /\ named t n /\ becomes n n' /\ int_key E schema n' k /\
  (forall tb, table_of (en_source_schema E) n tb -> tb_pk tb = [k]) /\ forall fk, source_fk E cfg p n fk -> fk_cols fk <> [k].
(** Column [k] of the merged table [t] refers to the fresh key [dk] of [nd], and to nothing else; if it is itself the key, the
    existing rows refer to existing rows. *)
Definition refers_fresh (t : string) (n n' : tname) (k : string) (nd nd' : tname) (dk : string) : Prop :=
  In t queries /\ ~ In t pass /\ named t n /\ becomes n n' /\ (exists td, fresh_key td nd nd' dk) /\
  (exists fk, source_fk E cfg p n fk /\ fk_cols fk = [k]) /\
  (forall fk, source_fk E cfg p n fk -> fk_cols fk = [k] -> fk_dst fk = nd /\ fk_dst_cols fk = [dk]) /\
  exists tb, table_of schema n' tb /\ (tb_pk tb <> [k] \/
    forall row y, In row (start n') -> rget row k = VInt y -> exists row', In row' (start nd') /\ rget row' dk = VInt y).
(** Both columns keep their values; or one refers to the other, a fresh key; or both refer to the same fresh key. *)
Definition shifted_alike (t : string) (n n' : tname) (k : string) (td : string) (nd nd' : tname) (dk : string) : Prop :=
  oc_merge c = true ->
  (stays t n n' k /\ stays td nd nd' dk) \/ (refers_fresh t n n' k nd nd' dk /\ fresh_key td nd nd' dk) \/
  exists ne ne' ek, refers_fresh t n n' k ne ne' ek /\ refers_fresh td nd nd' dk ne ne' ek.
End Shifts.

(** Rows with existing keys are errors; or other rows are looked up by the primary key, the only unique key of [tb]. *)
Definition found_by_key (t : string) (tb : table) (cols : list string) : Prop :=
  strategy_of c p t = SError \/ incl cols (tb_pk tb) /\ tb_uniques tb = [].
(** Rows that are replaced are found by the primary key, the only unique key of [tb]. *)
Definition replaced_by_key (t : string) (tb : table) : Prop := strategy_of c p t = SReplace -> tb_uniques tb = [].

(** Both ends of the foreign key [fk] of [n] are renumbered in step (C96), or nothing is renumbered. *)
Definition renumbered_alike (n : tname) (fk : fkey) : Prop :=
  no_compaction (sc_compact cfg) \/
  exists ms compact, renumbers E cfg p ms compact /\ numbers_rows E /\ eq_transitive (en_cmp E) /\ (forall k, en_cmp E CEq (VInt k) (VInt k) = true) /\
    forall a b, In (a, b) (combine (fk_cols fk) (fk_dst_cols fk)) -> in_step ms compact n a (fk_dst fk) b.

(** A successful run from [w] to [w'] that carries out the planner's plan [p] for the configuration [pcfg] on a consistent source. *)
Definition whole_run (pcfg : config) (truncate : bool) (w w' : world) : Prop :=
  env_ok E /\ planned_by E p pcfg /\ run_ok E cfg c p (w_dest w) /\ trace w = [] /\ eq_symmetric (en_cmp E) /\ eq_arithmetic (en_cmp E) /\
  source_consistent (en_fnm E) pcfg (en_source_schema E) (en_cmp E) (en_source E) /\
  (forall n g, is_target pcfg n g -> tg_all g = true -> tg_amount g = None) /\
  exists create g g', sample E cfg p truncate create g w = (w', Ok g').
(** The rows of the table [n] when copying starts. *)
Definition starting (truncate : bool) (w : world) (n : tname) : list row := if truncate then [] else rows_of (w_dest w) n.
(** The planned table [t], that is [n], is copied to the table [n'] of the destination, [tb]; filters do not change its columns [cols]. *)
Definition copied_to (w' : world) (t : string) (n n' : tname) (tb : table) (cols : list string) : Prop :=
  In t queries /\ named t n /\ becomes n n' /\ table_of (ds_tables (w_dest w')) n' tb /\ forall k, In k cols -> untouched_column E cfg t n' k.
(** The foreign key refers to primary key columns of a table that is multiplied, and that are; the columns have the same names. *)
Definition same_named_key (n : tname) (td : string) (fk : fkey) : Prop :=
  source_fk E cfg p n fk /\ fk_cols fk = fk_dst_cols fk /\
  ~ In td pass /\ ~ In td (mc_ignore_tables (sc_multiplicity cfg)) /\
  (forall tb, table_of (en_source_schema E) (fk_dst fk) tb -> incl (fk_dst_cols fk) (tb_pk tb)) /\
  forall k, In k (fk_dst_cols fk) -> ~ In k (dget_or (mc_ignore_pk (sc_multiplicity cfg)) td []).
End Copies.
