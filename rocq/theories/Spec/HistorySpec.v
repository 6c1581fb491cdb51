(** Specification vocabulary for destinations that are written by many runs, one after another (C131, C132). *)
From Verif Require Import Model.Base Model.Value Model.Names Model.PlanModel Model.Metadata Model.Planner Model.Filters Model.Output Model.Sampler.
From Verif Require Import Spec.GraphSpec Spec.SchemaSpec Spec.SqlSem Spec.PlannerSpec Spec.OutputSpec Spec.RunSpec Spec.SampleSpec Spec.MomentsSpec.
From Verif Require Import Model.Dest.
Open Scope list_scope.

(** Any number of steps of the given kind, one after another. *)
Inductive history (step : dest -> dest -> Prop) (d : dest) : dest -> Prop :=
| so_far : history step d d
| and_then d1 d2 : history step d d1 -> step d1 d2 -> history step d d2.

(** Every foreign key of every table holds, and there are no rows but those of tables. *)
Definition consistent (cmpf : cmpop -> value -> value -> bool) (d : dest) : Prop :=
  (forall n tb fk, table_of (ds_tables d) n tb -> In fk (tb_fks tb) -> fk_holds cmpf fk (rows_of d n) (rows_of d (fk_dst fk))) /\
  (forall n, (forall tb, ~ table_of (ds_tables d) n tb) -> rows_of d n = []).

(** A step that respects foreign keys: a run of any plan, from any source and with any configuration, that respects those of the
    destination as in C104, and that completes, fails or is stopped; or something else that leaves the destination consistent. *)
Inductive respecting (cmpf : cmpop -> value -> value -> bool) : dest -> dest -> Prop :=
| respecting_run G (E : env G) cfg c p pcfg truncate create g d w' r d' :
    en_cmp E = cmpf -> good_start E cfg c p pcfg (mkWorld d []) -> sample E cfg p truncate create g (mkWorld d []) = (w', r) ->
    (forall n tb fk, table_of (ds_tables (w_dest w')) n tb -> In fk (tb_fks tb) ->
       respected E cfg c p pcfg truncate (mkWorld d []) (ds_tables (w_dest w')) n fk) ->
    moment E (mkWorld d []) w' d' -> respecting cmpf d d'
| respecting_others d d' : (consistent cmpf d -> consistent cmpf d') -> respecting cmpf d d'.

(** A step that only adds rows: a run of any plan, from any source and with any configuration, to a directory or a database, that
    neither truncates nor replaces rows, and that completes, fails or is stopped; or something else that only adds rows. *)
Inductive adding : dest -> dest -> Prop :=
| adding_run G (E : env G) cfg p create g d w' r d' :
    (forall c, sc_output cfg = ToDatabase c -> oc_strategy c <> SReplace) ->
    sample E cfg p false create g (mkWorld d []) = (w', r) -> moment E (mkWorld d []) w' d' -> adding d d'
| adding_others d d' : (forall n, initial_part (rows_of d n) (rows_of d' n)) -> adding d d'.

(** The rows [new] are the rows [old] and more: their keys are integers, different from each other and greater than all before. *)
Definition numbered_on (k : string) (old new : list row) : Prop :=
  exists more, new = old ++ more /\ NoDup (map (fun r => rget r k) more) /\
    forall r, In r more -> exists z, rget r k = VInt z /\ forall r' y, In r' old -> rget r' k = VInt y -> (y < z)%Z.

(** A step that gives fresh numbers in column [k] of the table [n']: a run that merges a table into [n'] as in C44, and that
    completes, fails or is stopped; or something else that numbers on, such as a run that does not write [n'] at all. *)
Inductive numbering (n' : tname) (k : string) : dest -> dest -> Prop :=
| numbering_run G (E : env G) cfg c p create g d w' r d' t n :
    run_ok E cfg c p d -> NoDup (dkeys (p_queries p)) -> oc_merge c = true -> oc_strategy c <> SReplace ->
    sample E cfg p false create g (mkWorld d []) = (w', r) ->
    In t (dkeys (p_queries p)) -> ~ In t (p_passthrough p) -> named t n -> goes_to (en_resub E) (oc_remap c) n n' ->
    int_key E (ds_tables (w_dest w')) n' k -> (forall tb, table_of (ds_tables (w_dest w')) n' tb -> In k (tb_cols tb)) ->
    plain_column E cfg p t n' k -> proper_keys E cfg p t k ->
    (forall fk nd' kd row y, source_fk E cfg p n fk -> fk_cols fk = [k] -> goes_to (en_resub E) (oc_remap c) (fk_dst fk) nd' ->
       int_key E (ds_tables (w_dest w')) nd' kd -> In row (rows_of d n') -> rget row k = VInt y ->
       exists row', In row' (rows_of d nd') /\ rget row' kd = VInt y) ->
    moment E (mkWorld d []) w' d' -> numbering n' k d d'
| numbering_others d d' : numbered_on k (rows_of d n') (rows_of d' n') -> numbering n' k d d'.
