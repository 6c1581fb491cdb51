(** Specification vocabulary for a destination that several runs and other programs write to at the same time (C133, C134). *)
From Verif Require Import Model.Base Model.Value Model.Names Model.PlanModel Model.Metadata Model.Planner Model.Filters Model.Output Model.Sampler.
From Verif Require Import Spec.GraphSpec Spec.SchemaSpec Spec.SqlSem Spec.PlannerSpec Spec.OutputSpec Spec.RunSpec Spec.SampleSpec Spec.MomentsSpec.
From Verif Require Import Model.Dest.
Open Scope list_scope.

(** A run reads the tables of the destination and the keys in them when it begins; which statements it executes depends on nothing
    else there, and on whether they succeed.  So a run in progress is described by the statements it has executed and those it still
    has to: a run that fails or is killed does not execute the rest. *)
Definition session := (list event * list event)%type.

(** The destination [d0] becomes [d], and the runs begun meanwhile are [l]: a run begins; a statement of one of the runs is executed
    (and committed, as each is); or something else happens.  [begins d todo]: what a run that begins at [d] executes. *)
Inductive meanwhile (dflt : tname -> string -> list row -> row -> value) (begins : dest -> list event -> Prop) (others : dest -> dest -> Prop) (d0 : dest) :
    list session -> dest -> Prop :=
| nothing_yet : meanwhile dflt begins others d0 [] d0
| run_begins l d todo : meanwhile dflt begins others d0 l d -> begins d todo -> meanwhile dflt begins others d0 (l ++ [([], todo)]) d
| run_continues l1 l2 done e todo d d' : meanwhile dflt begins others d0 (l1 ++ (done, e :: todo) :: l2) d -> exec dflt d e = Some d' ->
    meanwhile dflt begins others d0 (l1 ++ (done ++ [e], todo) :: l2) d'
| something_else l d d' : meanwhile dflt begins others d0 l d -> others d d' -> meanwhile dflt begins others d0 l d'.

(** Every foreign key of every table holds. *)
Definition holding (cmpf : cmpop -> value -> value -> bool) (d : dest) : Prop :=
  forall n tb fk, table_of (ds_tables d) n tb -> In fk (tb_fks tb) -> fk_holds cmpf fk (rows_of d n) (rows_of d (fk_dst fk)).

(** A run of any plan, from any source and with any configuration, that neither truncates nor creates tables and respects the
    foreign keys of the destination as in C104. *)
Inductive careful_run dflt (cmpf : cmpop -> value -> value -> bool) (d : dest) : list event -> Prop :=
| careful G (E : env G) cfg c p pcfg g w' r :
    en_dflt E = dflt -> en_cmp E = cmpf -> good_start E cfg c p pcfg (mkWorld d []) -> sample E cfg p false false g (mkWorld d []) = (w', r) ->
    (forall n tb fk, table_of (ds_tables (w_dest w')) n tb -> In fk (tb_fks tb) ->
       respected E cfg c p pcfg false (mkWorld d []) (ds_tables (w_dest w')) n fk) ->
    careful_run dflt cmpf d (trace w').
(** Something that neither removes nor changes rows, and leaves the foreign keys intact if they are. *)
Definition careful_others (cmpf : cmpop -> value -> value -> bool) (d d' : dest) : Prop :=
  ds_tables d' = ds_tables d /\ (forall n, incl (rows_of d n) (rows_of d' n)) /\ (holding cmpf d -> holding cmpf d').

(** A run of any plan, from any source and with any configuration, to a directory or a database, that neither truncates nor
    replaces rows. *)
Inductive keeping_run (d : dest) : list event -> Prop :=
| keeping G (E : env G) cfg p create g w' r :
    (forall c, sc_output cfg = ToDatabase c -> oc_strategy c <> SReplace) -> sample E cfg p false create g (mkWorld d []) = (w', r) ->
    keeping_run d (trace w').
(** Something that neither removes nor changes rows. *)
Definition keeping_others (d d' : dest) : Prop := forall n, incl (rows_of d n) (rows_of d' n).

(** The same of runs to a database that create no tables, and of others that leave the tables as they are. *)
Inductive settled_run dflt (d : dest) : list event -> Prop :=
| settled G (E : env G) cfg c p g w' r :
    en_dflt E = dflt -> run_ok E cfg c p d -> oc_strategy c <> SReplace -> sample E cfg p false false g (mkWorld d []) = (w', r) ->
    settled_run dflt d (trace w').
Definition settled_others (d d' : dest) : Prop := ds_tables d' = ds_tables d /\ keeping_others d d'.
(** The destination [d] has the row [x] in the table [n], as it was given. *)
Definition there_as_given (d : dest) (n : tname) (x : row) : Prop := exists r, In r (rows_of d n) /\ forall k, In k (dkeys x) -> rget r k = rget x k.
