(** Property C123: what a run does depends on the rows of the tables its plan mentions only. *)
From Verif Require Import Model.Base Model.Value Model.Names Model.PlanModel Model.SqlAlgebra Model.Metadata Model.Planner Model.Filters Model.Multiply Model.Materialize Model.Dest Model.Output Model.Sampler.
From Verif Require Import Spec.GraphSpec Spec.SchemaSpec Spec.SqlSem Spec.PlannerSpec Spec.OutputSpec Spec.SampleSpec Spec.RunSpec Spec.WholeSpec Spec.HiddenSpec Spec.ReadsSpec.
From Verif Require Import Proofs.BaseFacts Proofs.NameFacts Proofs.MetadataMain Proofs.SampleExamples Proofs.OutputExamples Proofs.ReadsOnly.
From Verif Require Props.PlannerProps.
From Verif Require Import Model.Dest.
Open Scope list_scope.
Open Scope string_scope.

Section Props.
Context {G : Type}.
Variables (E : env G) (cfg : sampler_config) (p : plan).

(** C123: any plan, also one written by hand.  The source [src] has the same rows as that of [E] in the tables that the plan's
    queries mention as source tables; in others it may have any rows.  (The results of raw SQL queries are the same in both: their
    text is not interpreted.)  The runs do the same, statement by statement, and end in the same state and with the same outcome. *)
Theorem C123_mentioned_tables : forall src, db_ok (en_source_schema E) ->
  (forall n, mentions_source (p_queries p) n -> src n = en_source E n) ->
  forall truncate create g w, sample (with_source E src) cfg p truncate create g w = sample E cfg p truncate create g w.
Proof. intros src Hdb Hs truncate create g w. exact (reads_same cfg Hdb Hs truncate create g w). Qed.

(** C123, for the planner's plans: these are the planned tables. *)
Theorem C123_planned_tables : forall pcfg src, planned_by E p pcfg -> (forall n, planned p n -> src n = en_source E n) ->
  forall truncate create g w, sample (with_source E src) cfg p truncate create g w = sample E cfg p truncate create g w.
Proof. intros pcfg src Hp Hs truncate create g w. exact (planned_reads_same cfg Hp Hs truncate create g w). Qed.
End Props.
Print Assumptions C123_mentioned_tables.
Print Assumptions C123_planned_tables.

(** ** A case: users and their groups are copied, the log of the users' actions is not *)
Definition rdb : list table :=
  [ mkTable ("a", "user") ["id"; "gid"] ["id"] [mkFK ["gid"] ("a", "grp") ["gid"]] []; mkTable ("a", "grp") ["gid"; "title"] ["gid"] [] [];
    mkTable ("a", "log") ["lid"; "id"] ["lid"] [mkFK ["id"] ("a", "user") ["id"]] [] ].
Definition rsource (log grp : list row) (n : tname) : list row :=
  if eqb n ("a", "user") then [ [("id", VInt 5); ("gid", VInt 20)]; [("id", VInt 6); ("gid", VInt 10)]; [("id", VInt 7); ("gid", VNull)] ]
  else if eqb n ("a", "grp") then grp
  else if eqb n ("a", "log") then log
  else [].
Definition rgroups : list row := [ [("gid", VInt 10); ("title", VStr "x")]; [("gid", VInt 20); ("title", VStr "y")]; [("gid", VInt 30); ("title", VStr "z")] ].
Definition rlog : list row := [ [("lid", VInt 1); ("id", VInt 6)]; [("lid", VInt 2); ("id", VInt 6)] ].
Definition rplanner : config := mkConfig [] ["a.user"] [("a.user", mkTarget false None None [] [("id", [LInt 5; LInt 6])] None)] [] [] [] [] InferNone true.
Definition rplan : plan := match plan_db PlannerProps.idl PlannerProps.idl PlannerProps.xfnm rplanner rdb with Ok p => p | Err _ => mkPlan [] [] end.
Definition renv (src : tname -> list row) : env unit :=
  Sampler.mkEnv ofilters PlannerProps.xfnm osub osets osets rdb src (fun _ c => memb c ["id"; "gid"]) (fun _ => false)
    PlannerProps.xcmp PlannerProps.xtext xraw xraw_cols xz xrank true odflt yes (fun _ _ => false) (fun _ => None) (fun _ _ => true) none 1.
Definition rcfg : sampler_config := mkSampler (ToDatabase (mkDbConfig SQLite [] SSkip false)) [] (mkMult 1 [] [] []) InferNone (mkCompact true false 1 []).
Definition rbefore : world := odest rdb [(("a", "log"), [ [("lid", VInt 1); ("id", VInt 1)] ])] [].

Lemma r_source : source_ok id_column rdb (rsource rlog rgroups).
Proof.
  intros t [<-|[<-|[<-|[]]]]; (split; [|split; [vm_compute; intuition discriminate|intros _; vm_compute; repeat constructor; cbn; intuition discriminate]]);
    vm_compute; repeat constructor; cbn; intuition discriminate.
Qed.
Lemma r_planned : planned_by (renv (rsource rlog rgroups)) rplan rplanner.
Proof.
  split; [split; [repeat constructor; intros []|constructor]|]. split; [intros x []|]. split; [apply db_okb_true; vm_compute; reflexivity|]. split.
  { intros n g t c (s & [Eq|[]] & Hn) [Ht Ht'] Hc. injection Eq as <- <-. apply parse_named in Hn. vm_compute in Hn. injection Hn as <-.
    assert (c = "id") as -> by (destruct Hc as [(x & [])|(x & [Eq|[]])]; congruence). destruct Ht as [<-|[<-|[<-|[]]]]; try discriminate Ht'. cbn. tauto. }
  split. { exists PlannerProps.idl, PlannerProps.idl. split; [apply PlannerProps.idl_any|]. split; [apply PlannerProps.idl_any|vm_compute; reflexivity]. }
  split; [exact r_source|]. intros s _. apply eqb_refl.
Qed.
Lemma r_agree log : forall n, planned rplan n -> rsource log rgroups n = en_source (renv (rsource rlog rgroups)) n.
Proof.
  intros n (s & Hn & Hk). vm_compute in Hk. destruct Hk as [<-|[<-|[]]]; apply parse_named in Hn; vm_compute in Hn; injection Hn as <-; reflexivity.
Qed.
(** The hypotheses hold for any rows of the log; the run copies two users and two groups. *)
Example C123_case : forall log, planned_by (renv (rsource rlog rgroups)) rplan rplanner /\
  (forall n, planned rplan n -> rsource log rgroups n = en_source (renv (rsource rlog rgroups)) n) /\ dkeys (p_queries rplan) = ["a.user"; "a.grp"] /\
  let '(w', r) := sample (with_source (renv (rsource rlog rgroups)) (rsource log rgroups)) rcfg rplan false false tt rbefore in r = Ok tt /\
  rows_of (w_dest w') ("a", "user") = [ [("id", VInt 1); ("gid", VInt 2)]; [("id", VInt 2); ("gid", VInt 1)] ] /\
  length (rows_of (w_dest w') ("a", "grp")) = 2.
Proof.
  intros log. split; [exact r_planned|]. split; [exact (r_agree log)|]. split; [vm_compute; reflexivity|].
  rewrite (C123_planned_tables (G := unit) _ rcfg _ rplanner _ r_planned (r_agree log)). vm_compute. repeat split; reflexivity.
Qed.
(** The rows of planned tables do matter. *)
Example C123_planned_matter :
  rows_of (w_dest (fst (sample (renv (rsource rlog [])) rcfg rplan false false tt rbefore))) ("a", "grp") <>
  rows_of (w_dest (fst (sample (renv (rsource rlog rgroups)) rcfg rplan false false tt rbefore))) ("a", "grp").
Proof. vm_compute. discriminate. Qed.
