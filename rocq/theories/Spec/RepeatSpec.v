(** Specification vocabulary for runs that are repeated into the tables they have filled. *)
From Verif Require Import Model.Base Model.Value Model.Names Model.PlanModel Model.Metadata Model.Filters Model.Multiply Model.Materialize Model.Dest Model.Output Model.Sampler.
From Verif Require Import Spec.SchemaSpec Spec.OutputSpec Spec.RunSpec.
Open Scope list_scope.

Section Repeat.
Context {G : Type}.
Variables (E : env G) (cfg : sampler_config) (c : db_config) (p : plan).

(** The values of [t] are not shifted: the run does not merge, or leaves [t] alone when merging. *)
Definition not_shifted (t : string) : Prop := oc_merge c = true -> In t (p_passthrough p).
(** [tb] has a primary key; its rows have values for it. *)
Definition key_given (tb : table) (rows : list row) : Prop :=
  tb_pk tb <> [] /\ forall r k, In r rows -> In k (tb_pk tb) -> rget r k <> VNull.
(** Filters do not touch the columns of the keys of [tb], where the planned table [t] lands; they are part of its result. *)
Definition plain_keys (t : string) (n' : tname) (tb : table) : Prop :=
  forall key k, In key (table_keys tb) -> In k key -> plain_column E cfg p t n' k.
(** No two of the rows have the same primary key. *)
Definition one_row_each (tb : table) (rows : list row) : Prop := NoDup (map (fun r => map (rget r) (tb_pk tb)) rows).
End Repeat.
