(** Properties C86 and C87: planning and sampling, seen from the destination. *)
From Coq Require Import Lia.
From Verif Require Import Model.Base Model.Value Model.Names Model.PlanModel Model.SqlAlgebra Model.Metadata Model.Planner Model.Filters Model.Multiply Model.Materialize Model.Dest Model.Output Model.Sampler.
From Verif Require Import Spec.GraphSpec Spec.SchemaSpec Spec.SqlSem Spec.PlannerSpec Spec.FilterSpec Spec.OutputSpec Spec.SampleSpec Spec.RunSpec Spec.WholeSpec.
From Verif Require Import Proofs.BaseFacts Proofs.NameFacts Proofs.MetadataMain Proofs.PlannerExamples Proofs.SampleFinal Proofs.SampleExamples Proofs.OutputExamples Proofs.WholeRun Proofs.WholeFk.
From Verif Require Props.PlannerProps Props.WholeProps.
From Verif Require Import Model.Dest.
Open Scope string_scope.
Open Scope list_scope.

Section Props.
Context {G : Type}.
Variables (E : env G) (cfg : sampler_config) (c : db_config) (p : plan) (w : world).
Notation queries := (dkeys (p_queries p)).
Notation schema w := (ds_tables (w_dest w)).
Notation rows w n := (rows_of (w_dest w) n).

(** C86.  For any plan. *)
Theorem C86_destination_is_the_sample : forall truncate create g w' g' t n' tb,
  run_ok E cfg c p (w_dest w) -> trace w = [] -> plain_run cfg c -> sample E cfg p truncate create g w = (w', Ok g') ->
  In t queries -> lands (en_resub E) (oc_remap c) t n' -> table_of (schema w') n' tb -> starts_empty (w_dest w) truncate n' ->
  exists ms compact st mults co, computed_by E cfg p ms compact st mults /\ result_of E cfg p ms compact st t co /\
    Forall2 (fun r row => forall k, In k (co_cols co) -> untouched_column E cfg t n' k -> rget row k = rget r k) (co_rows co) (rows w' n').
Proof. intros until tb. intros H1 H2 H3 H4 H5 H6 H7 H8. exact (plain_destination H1 H2 H3 H4 H5 H6 H7 H8). Qed.

(** C87.  [truncate], or the tables are empty or created by the run. *)
Theorem C87_destination_consistent : forall pcfg truncate create g w' g',
  env_ok E -> planned_by E p pcfg -> no_compaction (sc_compact cfg) -> run_ok E cfg c p (w_dest w) -> trace w = [] -> plain_run cfg c ->
  sample E cfg p truncate create g w = (w', Ok g') ->
  eq_symmetric (en_cmp E) -> source_consistent (en_fnm E) pcfg (en_source_schema E) (en_cmp E) (en_source E) ->
  (forall n g, is_target pcfg n g -> tg_all g = true -> tg_amount g = None) ->
  forall t td fk n n' nd', In t queries -> In td queries -> named t n -> named td (fk_dst fk) ->
    considered (en_fnm E) pcfg (en_source_schema E) n fk ->
    goes_to (en_resub E) (oc_remap c) n n' -> goes_to (en_resub E) (oc_remap c) (fk_dst fk) nd' ->
    (exists tb, table_of (schema w') n' tb) -> (exists tb, table_of (schema w') nd' tb) ->
    starts_empty (w_dest w) truncate n' -> starts_empty (w_dest w) truncate nd' ->
    (forall k, In k (fk_cols fk) -> untouched_column E cfg t n' k) -> (forall k, In k (fk_dst_cols fk) -> untouched_column E cfg td nd' k) ->
    fk_holds (en_cmp E) fk (rows w' n') (rows w' nd').
Proof. exact (@consistent G E cfg c p w). Qed.

(** Together with the assumption of [run_ok] that is about the plan: it holds of the planner's plans. *)
Theorem C87_columns : forall pcfg, env_ok E -> planned_by E p pcfg -> no_compaction (sc_compact cfg) -> distinct_columns E cfg p.
Proof. intros pcfg H1 H2 H3. exact (planned_distinct H1 H2 H3). Qed.
End Props.
Print Assumptions C86_destination_is_the_sample.
Print Assumptions C87_destination_consistent.
Print Assumptions C87_columns.

(** ** A case: the plan of Props/PlannerProps.v copied, with parents renamed, over tables that hold other rows. *)
Definition wplan : plan := PlannerProps.plan_of PlannerProps.cfgA.
Definition wenv : env unit :=
  Sampler.mkEnv ofilters PlannerProps.xfnm osub osets osets PlannerProps.xdb PlannerProps.xsource (fun _ _ => true) (fun _ => false)
    PlannerProps.xcmp PlannerProps.xtext xraw xraw_cols xz xrank true odflt yes (fun _ _ => false) (fun _ => None) (fun _ _ => true) none 1.
Definition wout : db_config := mkDbConfig SQLite [("a.parent", "c.elders")] SError false.
Definition wtables : list table :=
  [ mkTable ("a", "child") ["pid"; "id"; "note"] ["id"] [mkFK ["pid"] ("c", "elders") ["pid"]] [];
    mkTable ("c", "elders") ["pid"; "gid"] ["pid"] [mkFK ["gid"] ("b", "grp") ["gid"]] [];
    mkTable ("b", "grp") ["gid"] ["gid"] [] [] ].
Definition wbefore : world := odest wtables [(("a", "child"), [ [("pid", VNull); ("id", VInt 1); ("note", VNull)] ]); (("b", "grp"), [ [("gid", VInt 100)] ])] [].
Definition wafter : world * res out_exn unit := sample wenv (ocfg wout) wplan true false tt wbefore.

Example C86_case : let '(w', r) := wafter in r = Ok tt /\
  rows_of (w_dest w') ("a", "child") = [ [("pid", VInt 10); ("id", VInt 1); ("note", VNull)] ] /\
  rows_of (w_dest w') ("c", "elders") = [ [("pid", VInt 10); ("gid", VInt 100)] ] /\ rows_of (w_dest w') ("b", "grp") = [ [("gid", VInt 100)] ].
Proof. vm_compute. repeat split. Qed.
Example C87_hypotheses : env_ok wenv /\ planned_by wenv wplan PlannerProps.cfgA /\ no_compaction (sc_compact (ocfg wout)) /\
  run_ok wenv (ocfg wout) wout wplan (w_dest wbefore) /\ trace wbefore = [] /\ plain_run (ocfg wout) wout /\
  eq_symmetric (en_cmp wenv) /\ source_consistent (en_fnm wenv) PlannerProps.cfgA (en_source_schema wenv) (en_cmp wenv) (en_source wenv) /\
  (forall n g, is_target PlannerProps.cfgA n g -> tg_all g = true -> tg_amount g = None) /\
  considered (en_fnm wenv) PlannerProps.cfgA (en_source_schema wenv) ("a", "child") (mkFK ["pid"] ("a", "parent") ["pid"]) /\
  goes_to (en_resub wenv) (oc_remap wout) ("a", "parent") ("c", "elders") /\
  (forall t n k, untouched_column wenv (ocfg wout) t n k).
Proof.
  destruct PlannerProps.A_sampling as (H1 & H2 & H3 & _).
  assert (Hp : planned_by wenv wplan PlannerProps.cfgA).
  { destruct WholeProps.C77_C81_hypotheses as (A1 & A2 & A3 & A4 & A5 & A6 & A7 & _). split; [exact A2|]. split; [exact A3|]. split; [exact A1|]. split; [exact A4|].
    split; [exists PlannerProps.idl, PlannerProps.idl; split; [apply PlannerProps.idl_any|]; split; [apply PlannerProps.idl_any|exact A5]|]. split; [exact A6|].
    intros s Hs. apply (A7 s s Hs). reflexivity. }
  assert (He : env_ok wenv).
  { split; [intros l; apply Permutation_refl|]. split; [exact xz_ok|]. intros ph n ks. destruct (SampleFinal.rank_by_ok xkey ks) as [Hr _]. apply Permutation_length in Hr. rewrite seq_length in Hr. exact Hr. }
  split; [exact He|]. split; [exact Hp|]. split; [repeat split|]. split.
  { constructor; [reflexivity|exact H1|apply db_okb_true; vm_compute; reflexivity|intros l; apply Permutation_refl|intros n s _; apply eqb_true|].
    refine (C87_columns wenv (ocfg wout) wplan _ He Hp _). repeat split. }
  split; [reflexivity|]. split; [split; [reflexivity|split; [reflexivity|cbn; lia]]|]. split; [apply PlannerProps.A_consistent|]. split; [apply PlannerProps.A_consistent|].
  split; [intros n g (s & [Eq|[]] & _) Ha; inversion Eq; subst; discriminate Ha|]. split; [apply PlannerProps.x_fk1|]. split; [|intros t n k; split; [intros f []|reflexivity]].
  apply parse_named. reflexivity.
Qed.
