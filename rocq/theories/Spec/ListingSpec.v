(** Specification vocabulary: two descriptions of a schema, or two planner configurations, that differ only
    in the order in which they list things; and two plans that differ only in the order of the passthrough
    tables.  Nothing here mentions how plans are computed. *)
From Verif Require Import Model.Base Model.PlanModel Model.Metadata Model.Planner Spec.GraphSpec Spec.SchemaSpec Spec.PlannerSpec.
Open Scope list_scope.

Definition same_members {A} (l l' : list A) : Prop := forall x, In x l <-> In x l'.

(** The same table: foreign keys and UNIQUE constraints are listed in any order.  (The order of the columns,
    and of the columns of a key, is part of the table.) *)
Definition same_table (t t' : table) : Prop :=
  tb_name t = tb_name t' /\ tb_cols t = tb_cols t' /\ tb_pk t = tb_pk t' /\
  Permutation (tb_fks t) (tb_fks t') /\ same_members (tb_uniques t) (tb_uniques t').
(** The same tables, listed in any order. *)
Definition same_schema (db db' : list table) : Prop :=
  exists db1, Permutation db db1 /\ Forall2 same_table db1 db'.

(** The same configuration: the entries of its dicts, sets and lists of tables are written in any order, and
    those of lists of patterns and names any number of times. *)
Definition same_config (cfg cfg' : config) : Prop :=
  Permutation (c_targets cfg) (c_targets cfg') /\ Permutation (c_constraints cfg) (c_constraints cfg') /\
  same_members (c_select cfg) (c_select cfg') /\ same_members (c_ignore cfg) (c_ignore cfg') /\
  same_members (c_passthrough cfg) (c_passthrough cfg') /\ same_members (c_ignore_fks cfg) (c_ignore_fks cfg') /\
  Permutation (c_extra_fks cfg) (c_extra_fks cfg') /\
  c_infer cfg = c_infer cfg' /\ c_include_deps cfg = c_include_deps cfg'.

(** The two configurations choose the same tables from the two databases. *)
Definition same_choice (fnm : string -> string -> bool) (cfg : config) (db : list table) (cfg' : config) (db' : list table) : Prop :=
  (forall n, chosen fnm cfg db n <-> chosen fnm cfg' db' n) /\
  forall n t t', chosen fnm cfg db n -> table_of db n t -> table_of db' n t' -> same_table t t'.

(** The same outcome of planning: the same error, or the same queries, in the same order but for the
    passthrough tables, which come first, in any order. *)
Definition same_plan (r r' : res plan_exn plan) : Prop :=
  match r, r' with
  | Ok p, Ok p' => exists pass pass' rest,
      p_queries p = pass ++ rest /\ p_queries p' = pass' ++ rest /\ Permutation pass pass' /\
      p_passthrough p = dkeys pass /\ p_passthrough p' = dkeys pass'
  | Err e, Err e' => e = e'
  | _, _ => False
  end.
