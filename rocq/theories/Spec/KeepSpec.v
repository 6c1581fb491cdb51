(** What a command line allows to be done to the output (C118). *)
From Verif Require Import Model.Base Model.Value Model.Dest Model.Output Model.Sampler Model.Config Model.ConfigIO Model.Main.
From Verif Require Import Model.Dest.
Open Scope list_scope.

(** The places with the same name are the same. *)
Definition one_place (same : place -> place -> Prop) (s : cli) : Prop := forall p q, same p q -> cl_places s p = cl_places s q.
(** A table that is added to: the old rows are still there, in their places, with new ones after them; where rows may be overwritten, there
    is one row in the place of each old one. *)
Definition added_to (overwriting : Prop) (old new : list row) : Prop :=
  exists kept more, new = kept ++ more /\ length kept = length old /\ (~ overwriting -> kept = old).
(** The configuration asks for rows that exist to be overwritten. *)
Definition replaces (c : subsetter_config) : Prop :=
  exists sec db remap merge, sub_sampler c = Some sec /\ ss_output sec = OsDatabase db remap SReplace merge.
