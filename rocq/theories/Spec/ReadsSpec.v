(** Specification vocabulary for the source tables a run reads. *)
From Verif Require Import Model.Base Model.Value Model.PlanModel Spec.GraphSpec Spec.SqlSem Spec.SampleSpec.
Open Scope list_scope.

(** A query of the plan mentions [n] itself, not the sample of [n]. *)
Definition mentions_source (queries : dict string table_query) (n : tname) : Prop :=
  exists s q id, In (s, q) queries /\ In id (query_ids q) /\ i_sampled id = false /\ i_name id = n.
