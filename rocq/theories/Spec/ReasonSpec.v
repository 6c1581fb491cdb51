(** Specification vocabulary for why a row is sampled. *)
From Verif Require Import Model.Base Model.Value Model.PlanModel Model.Metadata Model.Planner.
From Verif Require Import Spec.GraphSpec Spec.SchemaSpec Spec.SqlSem Spec.PlannerSpec.
Open Scope list_scope.

Section Reason.
Variables (fnm : string -> string -> bool) (cfg : config) (db : list table) (cmpf : cmpop -> value -> value -> bool) (sample : tname -> list row).
(** The sampled row [r] of [n] is the row of a target, or foreign keys lead, through sampled rows, from the row of a target to it: each
    of the rows refers to the one before, or the one before refers to it. *)
Inductive linked : tname -> row -> Prop :=
| linked_target n g r : is_target cfg n g -> In r (sample n) -> linked n r
| linked_referred n fk r r' : considered fnm cfg db n fk -> linked n r -> In r' (sample (fk_dst fk)) -> refers cmpf fk r r' -> linked (fk_dst fk) r'
| linked_referring n fk r r' : considered fnm cfg db n fk -> linked (fk_dst fk) r' -> In r (sample n) -> refers cmpf fk r r' -> linked n r.
End Reason.
