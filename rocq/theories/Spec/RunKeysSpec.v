(** Specification vocabulary for the foreign keys a run follows when it renumbers, multiplies or shifts keys (C135). *)
From Verif Require Import Model.Base Model.Value Model.PlanModel Model.Metadata Model.Planner Model.Sampler.
From Verif Require Import Spec.GraphSpec Spec.SchemaSpec.
Open Scope list_scope.

Section RunKeys.
Variables (fnm : string -> string -> bool) (db : list table) (p : plan) (infer : infer_mode).
(** A table of the source whose name is that of a table of the plan, which is read as a pattern. *)
Definition sampled_table (n : tname) : Prop := matching fnm db (dkeys (p_queries p)) n.
(** [d] is such a table (of the schema [s], in mode "schema") whose primary key is the column [c]. *)
Definition sampled_pk (s c : string) (d : tname) : Prop :=
  exists t, sampled_table d /\ table_of db d t /\ tb_pk t = [c] /\ (infer = InferAll \/ fst d = s).
(** The column [c] of [n] is named like the primary key of one other such table only. *)
Definition inferred_fk (n : tname) (fk : fkey) : Prop :=
  infer <> InferNone /\
  exists c d t, fk = mkFK [c] d [c] /\ d <> n /\ table_of db n t /\ In c (tb_cols t) /\
    sampled_pk (fst n) c d /\ forall d', sampled_pk (fst n) c d' -> d' = d.
(** The foreign keys a run follows: those the database declares, and the inferred ones. *)
Definition followed_fk (n : tname) (fk : fkey) : Prop :=
  sampled_table n /\ ((exists t, table_of db n t /\ In fk (tb_fks t)) \/ inferred_fk n fk).
End RunKeys.
