(** Specification vocabulary for commands run by different processes. *)
From Verif Require Import Model.Base Model.Value Model.PlanModel Model.Materialize Model.Sampler Model.Config Model.ConfigIO.
From Verif Require Import Spec.SqlSem Spec.GraphSpec Spec.SameSpec.

(** What differs between two executions of the program over the same databases: Python's hashes of strings, and with them the orders
    in which the planner and the sampler iterate over sets, the random numbers the database draws and the state the random generator
    of the filters starts with. *)
Record process (G : Type) := mkProcess {
  pr_graph : list string -> list string; pr_names : list tname -> list tname;
  pr_str : list string -> list string; pr_name : list tname -> list tname;
  pr_rnd : phase -> tname -> rnd; pr_start : G }.
Arguments mkProcess {G}. Arguments pr_graph {G}. Arguments pr_names {G}. Arguments pr_str {G}. Arguments pr_name {G}. Arguments pr_rnd {G}. Arguments pr_start {G}.
Definition process_ok {G} (x : process G) : Prop :=
  any_order (pr_graph x) /\ any_order (pr_names x) /\ any_order (pr_str x) /\ any_order (pr_name x) /\ forall ph n, rnd_ok (pr_rnd x ph n).
(** The databases as a process sees them. *)
Definition seen_in {G} (environment : engine -> env G) (x : process G) (e : engine) : env G := in_process (environment e) (pr_str x) (pr_name x) (pr_rnd x).
