(** Specification vocabulary for runs in which no row gets a key that is taken. *)
From Verif Require Import Model.Base Model.Value Model.Names Model.PlanModel Model.SqlAlgebra Model.Metadata Model.Planner Model.Filters Model.Multiply Model.Materialize Model.Dest Model.Output Model.Sampler.
From Verif Require Import Spec.GraphSpec Spec.SchemaSpec Spec.SqlSem Spec.PlannerSpec Spec.FilterSpec Spec.OutputSpec Spec.RunSpec Spec.SampleSpec Spec.WholeSpec Spec.CopiesSpec.
From Verif Require Spec.MultiplySpec.
Open Scope list_scope.

(** Equality of the database is reflexive, except for NULL. *)
Definition eq_reflexive (cmpf : cmpop -> value -> value -> bool) : Prop := forall v, v <> VNull -> cmpf CEq v v = true.
(** No two of the rows are equal, as the database sees it, in all the columns [ks]. *)
Definition distinguishes (cmpf : cmpop -> value -> value -> bool) (ks : list string) (l : list row) : Prop :=
  forall i j r r', nth_error l i = Some r -> nth_error l j = Some r' -> (forall k, In k ks -> matches cmpf (rget r k) (rget r' k)) -> i = j.

Section Finish.
Context {G : Type}.
Variables (E : env G) (cfg : sampler_config) (c : db_config) (p : plan) (ms : meta).
Notation queries := (dkeys (p_queries p)).

(** The rows of the planned table [t], that is [n], do not violate the unique key [ks] of the table [n'] of the destination
    that they go to: the key distinguishes the rows of the source; its columns are copied and not filtered; if [t] is multiplied
    a column of the key is; and the table is empty when copying starts, or a column of the key gets fresh values by merging. *)
Definition key_free (truncate : bool) (w : world) (schema : list table) (t : string) (n n' : tname) (ks : list string) : Prop :=
  distinguishes (en_cmp E) ks (en_source E n) /\
  (forall k, In k ks -> untouched_column E cfg t n' k /\ forall tb, table_of (en_source_schema E) n tb -> In k (tb_cols tb)) /\
  ((1 < mc_multiplier (sc_multiplicity cfg))%Z -> ~ MultiplySpec.excluded (sc_multiplicity cfg) p t ->
     exists k, In k ks /\ MultiplySpec.multiplied ms (sc_multiplicity cfg) p t k) /\
  (starting truncate w n' = [] \/
   oc_merge c = true /\ (0 <= cp_start (sc_compact cfg))%Z /\
   exists k, In k ks /\ fresh_key E cfg c p schema t n n' k /\ forall r z, In r (en_source E n) -> rget r k = VInt z -> (0 <= z)%Z).
(** Every planned table is copied with rows of known keys being skipped, or violates no unique key. *)
Definition conflict_free (truncate : bool) (w : world) (schema : list table) : Prop :=
  forall t n n' tb, In t queries -> named t n -> goes_to (en_resub E) (oc_remap c) n n' -> table_of schema n' tb ->
    strategy_of c p t = SSkip /\ tb_pk tb <> [] \/
    forall ks, In ks (tb_pk tb :: tb_uniques tb) -> ks <> [] -> key_free truncate w schema t n n' ks.

(** Every planned table has a place at the destination: its new name is of the form "schema.table", and no other gets it. *)
Definition placed : Prop :=
  (forall t, In t queries -> exists n', lands (en_resub E) (oc_remap c) t n') /\
  forall a b n', In a queries -> In b queries -> lands (en_resub E) (oc_remap c) a n' -> lands (en_resub E) (oc_remap c) b n' -> a = b.
(** The planned tables that the destination [d] lacks can be created there: their unique keys are over existing columns, and their
    foreign keys refer to planned tables that have the referenced columns at the destination, or are created, too. *)
Definition creatable (d : dest) : Prop :=
  forall t n n' tb, In t queries -> named t n -> goes_to (en_resub E) (oc_remap c) n n' -> table_of (en_source_schema E) n tb ->
    (forall tb', ~ table_of (ds_tables d) n' tb') ->
    (forall u, In u (tb_uniques tb) -> incl u (tb_cols tb)) /\
    forall fk, In fk (tb_fks tb) -> exists s nd', In s queries /\ named s (fk_dst fk) /\ goes_to (en_resub E) (oc_remap c) (fk_dst fk) nd' /\
      forall tbd, table_of (ds_tables d) nd' tbd -> incl (fk_dst_cols fk) (tb_cols tbd).
End Finish.
