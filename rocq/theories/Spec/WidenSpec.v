(** Specification vocabulary for comparing the samples of two configurations, or of two sources. *)
From Coq Require Import QArith.
From Verif Require Import Model.Base Model.Value Model.PlanModel Model.Metadata Model.Planner.
From Verif Require Import Spec.GraphSpec Spec.SchemaSpec Spec.SqlSem Spec.PlannerSpec.
Open Scope list_scope.

(** The configuration with other settings for its targets and other constraints. *)
Definition retargeted (cfg : config) (targets : dict string target) (cs : dict string (list constr)) : config :=
  mkConfig cs (c_select cfg) targets (c_ignore cfg) (c_passthrough cfg) (c_ignore_fks cfg) (c_extra_fks cfg) (c_infer cfg) (c_include_deps cfg).

(** The settings [g'] of a target take every row that [g] may take, whatever the random numbers; no number of rows is asked for
    (and not zero percent of them). *)
Definition takes_more (cmpf : cmpop -> value -> value -> bool) (textf : string -> option (dict string lit) -> row -> tv) (g g' : target) : Prop :=
  tg_amount g' = None /\ (forall q, tg_percent g' = Some q -> Qlt 0 q) /\
  forall u u' r, Qle 0 u' -> Qlt u' 1 -> target_holds cmpf textf g u r -> target_holds cmpf textf g' u' r.

(** The same targets, each of which takes more rows, and for every table only constraints it already had. *)
Definition widened (cmpf : cmpop -> value -> value -> bool) (textf : string -> option (dict string lit) -> row -> tv) (cfg cfg' : config) : Prop :=
  dkeys (c_targets cfg') = dkeys (c_targets cfg) /\
  (forall n g g', is_target cfg n g -> is_target cfg' n g' -> takes_more cmpf textf g g') /\
  (forall n l l', constraints_of cfg n l -> constraints_of cfg' n l' -> incl l' l).

(** No target draws random rows. *)
Definition drawless (cfg : config) : Prop := forall n g, is_target cfg n g -> tg_amount g = None /\ tg_percent g = None.

(** Settings that take more rows, in terms of the configuration: all rows; or no number or percentage of rows, no other SQL condition, only
    patterns that were there already, and only lists of values that contain one that was there. *)
Definition wider_settings (g g' : target) : Prop :=
  tg_amount g' = None /\ tg_percent g' = None /\
  (tg_all g' = true \/
   tg_all g = false /\
   (tg_sql g' = None \/ tg_sql g' = tg_sql g) /\
   (forall c ps' p, In (c, ps') (tg_like g') -> In p ps' -> exists ps, In (c, ps) (tg_like g) /\ In p ps) /\
   (forall c vs', In (c, vs') (tg_in g') -> exists vs, In (c, vs) (tg_in g) /\ incl vs vs')).

(** Settings of the target [n] by which a sample is settled: no percentage below 100; and a number of rows only if nothing that refers to
    the table is sampled before it (or all rows are asked for). *)
Definition settled (fnm : string -> string -> bool) (cfg : config) (db : list table) (p : plan) : Prop :=
  forall n g, is_target cfg n g -> (forall q, tg_percent g = Some q -> Qle 100 q) /\
    (tg_amount g = None \/ tg_all g = true \/ forall c fk, ~ earlier_child fnm cfg db p n c fk).
