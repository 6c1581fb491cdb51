(** Properties C77 and C81: the planner's plans, carried out by the sampler. *)
From Verif Require Import Model.Base Model.Value Model.Names Model.PlanModel Model.SqlAlgebra Model.Metadata Model.Planner Model.Materialize Model.Sampler.
From Verif Require Import Spec.GraphSpec Spec.SchemaSpec Spec.SqlSem Spec.PlannerSpec Spec.SampleSpec.
From Verif Require Import Proofs.BaseFacts Proofs.NameFacts Proofs.PlannerExamples Proofs.PlanRun Proofs.SampleFinal Proofs.SampleExamples.
From Verif Require Props.PlannerProps.
Open Scope string_scope.
Open Scope list_scope.

(** C77.  [fnm s s = true]: the planned tables' names, used as patterns by the sampler, match themselves. *)
Theorem C77_foreign_keys_preserved : forall (fnm : string -> string -> bool) cfg db ord ordp p
    source infer cmpf textf rawf raw_cols z rank reopen start ord' insert_order,
  db_ok db -> any_order ord -> any_order ordp -> config_ok cfg -> extras_valid cfg -> targets_fit cfg db ->
  plan_db ord ordp fnm cfg db = Ok p ->
  source_ok id_column db source ->
  (forall s, In s (dkeys (p_queries p)) -> fnm s s = true) ->
  any_order ord' -> (forall ph n, rnd_ok (z ph n)) -> (forall ph n ks, length (rank ph n ks) = length ks) ->
  (forall s, In s insert_order -> exists n, named s n) ->
  exists ms, sampler_meta fnm db (p_queries p) infer = Ok ms /\
  exists st outs, extract source cmpf textf rawf raw_cols z rank reopen ms [] start ord' (p_queries p) insert_order = Ok (st, outs) /\
    map (fun o => render (co_name o)) outs = filter (fun s => dmem (p_queries p) s) insert_order /\
    (eq_symmetric cmpf -> source_consistent fnm cfg db cmpf source ->
     (forall n g, is_target cfg n g -> tg_all g = true -> tg_amount g = None) ->
     forall o o' fk, In o outs -> In o' outs -> considered fnm cfg db (co_name o) fk -> co_name o' = fk_dst fk ->
       fk_holds cmpf fk (co_rows o) (co_rows o')).
Proof. intros until insert_order. intros H1 H2 H3 H4 H5 H6 H7. intros; eapply (full_run_foreign_keys H1 H2 H3 H4 H5 H6 H7); eassumption. Qed.
Print Assumptions C77_foreign_keys_preserved.

(** C81.  [fnm s k = true <-> s = k]: the planned tables' names contain no wildcards.  On MySQL, whose temporary tables
    cannot be opened twice in a statement, compaction is restricted as in C36. *)
Theorem C81_plans_run : forall (fnm : string -> string -> bool) cfg db ord ordp p source infer
    ccfg is_int has_autoinc ms compact cmpf textf rawf raw_cols z rank reopen ord' insert_order,
  db_ok db -> any_order ord -> any_order ordp -> config_ok cfg -> extras_valid cfg -> targets_fit cfg db ->
  plan_db ord ordp fnm cfg db = Ok p ->
  source_ok id_column db source ->
  (forall s k, In k (dkeys (p_queries p)) -> fnm s k = true <-> s = k) ->
  sampler_meta fnm db (p_queries p) infer = Ok ms ->
  NoDup (dkeys (cp_columns ccfg)) ->
  (forall s cs n t c, In (s, cs) (cp_columns ccfg) -> named s n -> table_of db n t -> In c cs -> In c (tb_cols t)) ->
  get_compact_columns ccfg (p_passthrough p) ms is_int has_autoinc = Ok compact ->
  (reopen = false -> one_compacted ms compact /\ no_self_references ms compact (p_queries p)) ->
  any_order ord' -> (forall ph n, rnd_ok (z ph n)) -> (forall ph n ks, length (rank ph n ks) = length ks) ->
  (forall s, In s insert_order -> exists n, named s n) ->
  exists run, extract source cmpf textf rawf raw_cols z rank reopen ms compact (cp_start ccfg) ord' (p_queries p) insert_order = Ok run /\
    Forall (stmt_runs reopen) (executed run).
Proof. intros until insert_order. intros H1 H2 H3 H4 H5 H6 H7. intros; eapply (full_run_total H1 H2 H3 H4 H5 H6 H7); eassumption. Qed.
Print Assumptions C81_plans_run.

(** The plan of Props/PlannerProps.v (a target with a filter, a constraint, a parent and a child, a passthrough table), with and
    without compaction. *)
Definition wmeta : meta := match sampler_meta PlannerProps.xfnm PlannerProps.xdb (p_queries (PlannerProps.plan_of PlannerProps.cfgA)) InferNone with Ok ms => ms | Err _ => [] end.
Definition worder : list string := ["a.child"; "a.parent"; "b.grp"; "b.codes"].
Definition wrun compact := extract PlannerProps.xsource PlannerProps.xcmp PlannerProps.xtext xraw xraw_cols xz xrank true wmeta compact 1 idl (p_queries (PlannerProps.plan_of PlannerProps.cfgA)) worder.
Example C77_case :
  match wrun [] with
  | Ok (_, outs) => map co_rows outs = map (PlannerProps.xsample PlannerProps.cfgA) [("a", "child"); ("a", "parent"); ("b", "grp"); ("b", "codes")]
  | Err _ => False
  end.
Proof. vm_compute. reflexivity. Qed.
Definition wcfg : compact_config := mkCompact false false 1 [("a.parent", ["pid"]); ("b.grp", ["gid"])].
Definition wcompact : dict tname (list string) := [(("a", "parent"), ["pid"]); (("b", "grp"), ["gid"])].
Example C81_case : get_compact_columns wcfg (p_passthrough (PlannerProps.plan_of PlannerProps.cfgA)) wmeta (fun _ _ => true) (fun _ => false) = Ok wcompact /\
  match wrun wcompact with
  | Ok (_, outs) => map co_rows outs =
      [ [ [("id", VInt 1); ("pid", VInt 1)] ]; [ [("pid", VInt 1); ("gid", VInt 1)] ]; [ [("gid", VInt 1)] ]; [ [("code", VInt 7)] ] ]
  | Err _ => False
  end.
Proof. vm_compute. repeat split. Qed.
Example C77_C81_hypotheses : db_ok PlannerProps.xdb /\ config_ok PlannerProps.cfgA /\ extras_valid PlannerProps.cfgA /\
  targets_fit PlannerProps.cfgA PlannerProps.xdb /\
  plan_db PlannerProps.idl PlannerProps.idl PlannerProps.xfnm PlannerProps.cfgA PlannerProps.xdb = Ok (PlannerProps.plan_of PlannerProps.cfgA) /\
  source_ok id_column PlannerProps.xdb PlannerProps.xsource /\
  (forall s k, In k (dkeys (p_queries (PlannerProps.plan_of PlannerProps.cfgA))) -> PlannerProps.xfnm s k = true <-> s = k) /\
  sampler_meta PlannerProps.xfnm PlannerProps.xdb (p_queries (PlannerProps.plan_of PlannerProps.cfgA)) InferNone = Ok wmeta /\
  (forall s cs n t c, In (s, cs) (cp_columns wcfg) -> named s n -> table_of PlannerProps.xdb n t -> In c cs -> In c (tb_cols t)) /\
  (forall n g, is_target PlannerProps.cfgA n g -> tg_all g = true -> tg_amount g = None) /\
  eq_symmetric PlannerProps.xcmp /\ source_consistent PlannerProps.xfnm PlannerProps.cfgA PlannerProps.xdb PlannerProps.xcmp PlannerProps.xsource /\
  one_compacted wmeta wcompact /\ no_self_references wmeta wcompact (p_queries (PlannerProps.plan_of PlannerProps.cfgA)).
Proof.
  destruct PlannerProps.A_sampling as (H1 & H2 & H3 & _).
  split; [exact H1|]. split; [exact H2|]. split; [exact H3|]. split.
  { intros n g t c (s & [E|[]] & Hn) [Ht Ht'] Hc. inversion E; subst s g. clear E. apply (proj2 (parse_named _ _)) in Hn. vm_compute in Hn. inversion Hn as [Ex].
    assert (c = "pid") as ->. { destruct Hc as [(x & [])|(x & [E|[]])]. inversion E. reflexivity. }
    destruct Ht as [<-|[<-|[<-|[<-|[]]]]]; rewrite <- Ht' in Ex; try discriminate Ex; left; reflexivity. }
  split; [vm_compute; reflexivity|]. split.
  { intros t [<-|[<-|[<-|[<-|[]]]]]; (split; [nd|]); (split; [vm_compute; intuition discriminate|]); intros _; nd. }
  split; [intros s k _; unfold PlannerProps.xfnm; apply eqb_true|]. split; [vm_compute; reflexivity|]. split.
  { intros s cs n t c [E|[E|[]]] Hn [Ht Ht'] Hc; inversion E; subst; clear E; apply (proj2 (parse_named _ _)) in Hn; vm_compute in Hn; inversion Hn as [Ex];
      destruct Hc as [<-|[]]; destruct Ht as [<-|[<-|[<-|[<-|[]]]]]; try discriminate Ex; left; reflexivity. }
  split; [intros n g (s & [E|[]] & _) Ha; inversion E; subst; discriminate Ha|]. split; [apply PlannerProps.A_consistent|]. split; [apply PlannerProps.A_consistent|].
  split.
  - intros n m fk a b a' b' Hm Hfk Ha Hb _ _. vm_compute in Hm. destruct Hm as [E|[E|[E|[E|[]]]]]; inversion E; subst; cbn in Hfk; try destruct Hfk as [<-|[]]; try destruct Hfk;
      cbn in Ha, Hb; destruct Ha as [Ha|[]], Hb as [Hb|[]]; congruence.
  - intros n c dc _ (m & fk & Hm & Hfk & Hd & _). vm_compute in Hm. destruct Hm as [E|[E|[E|[E|[]]]]]; inversion E; subst; cbn in Hfk; try destruct Hfk as [<-|[]]; try destruct Hfk; discriminate.
Qed.
