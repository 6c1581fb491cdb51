(** Which environment variables matter, and what the files of the two ways of sampling say. *)
From Coq Require Import Permutation.
From Verif Require Import Model.Base Model.Value Model.Names Model.PlanModel Model.Metadata Model.Planner Model.Multiply Model.Dest Model.Output Model.Sampler
  Model.Config Model.PlanIO Model.ConfigIO Model.Main.
From Verif Require Import Spec.GraphSpec Spec.SchemaSpec Spec.PlannerSpec Spec.FilterSpec Spec.OutputSpec Spec.RunSpec Spec.SampleSpec Spec.WholeSpec Spec.CompactWholeSpec Spec.SameSpec Spec.ConfigSpec Spec.CliSpec.
From Verif Require Import Proofs.BaseFacts Proofs.ConfigFacts Proofs.ConfigLoad Proofs.CliFacts Proofs.TwoSteps.
From Verif Require Import Model.Dest.
Set Implicit Arguments.
Unset Strict Implicit.
Open Scope string_scope.
Open Scope list_scope.

(** A connection depends on the variables with its prefix. *)
Lemma engine_env getenv getenv' to_int c e : (forall n, getenv (e ++ n)%string = getenv' (e ++ n)%string) ->
  database_engine getenv to_int c (Some e) = database_engine getenv' to_int c (Some e).
Proof.
  intros H. assert (Ho : forall n d, getenv_or getenv (var e n) d = getenv_or getenv' (var e n) d) by (intros n d; unfold getenv_or, var; rewrite H; reflexivity).
  assert (Hg : forall n, getenv (var e n) = getenv' (var e n)) by (intros n; apply H).
  unfold database_engine. cbv zeta. assert (Hu : database_url getenv to_int (dc_dialect c) (Some e) (dc_host c) (dc_port c) (dc_database c) (dc_username c) (dc_password c) =
    database_url getenv' to_int (dc_dialect c) (Some e) (dc_host c) (dc_port c) (dc_database c) (dc_username c) (dc_password c)).
  { unfold database_url. cbv zeta. rewrite !Ho, !Hg. reflexivity. }
  rewrite Hu. assert (Ha : forall dl, get_connect_args getenv (dc_ssl c) dl (Some e) = get_connect_args getenv' (dc_ssl c) dl (Some e)).
  { intros dl. unfold get_connect_args. cbv zeta. rewrite !Ho, !Hg. reflexivity. }
  rewrite Ha. reflexivity.
Qed.

Lemma then_ext A B (m m' : cio A) (k k' : A -> cio B) s : m s = m' s -> (forall a s1, k a s1 = k' a s1) -> then_do m k s = then_do m' k' s.
Proof. intros H K. unfold then_do. rewrite H. destruct (m' s) as [s1 [a|e]]; auto. Qed.

Section Env.
Context {G : Type}.
Variables getenv getenv' : string -> option string.
Variable to_int : string -> option Z.
Variable reachable : engine -> bool.
Variable environment : engine -> env G.
Variables (ord_graph : list string -> list string) (ord_names : list tname -> list tname) (explicit : PlanIO.path -> bool) (start : G)
  (can_open can_write : string -> bool) (partly : string -> content).
Notation main g := (main g to_int reachable environment ord_graph ord_names explicit start can_open can_write partly).
Hypothesis Hsrc : forall n, getenv ("SUBSET_SOURCE_" ++ n)%string = getenv' ("SUBSET_SOURCE_" ++ n)%string.

Lemma connect_env c s : connect_source getenv to_int reachable c s = connect_source getenv' to_int reachable c s.
Proof. unfold connect_source. rewrite (engine_env _ _ Hsrc). reflexivity. Qed.
Lemma make_plan_env c s : make_plan getenv to_int reachable environment ord_graph ord_names c s = make_plan getenv' to_int reachable environment ord_graph ord_names c s.
Proof. unfold make_plan. destruct (sub_planner c); [|reflexivity]. apply then_ext; [apply connect_env|reflexivity]. Qed.

(** C94 *)
Theorem plan_env a out s : ar_action a = APlan out -> main getenv a s = main getenv' a s.
Proof.
  intros Ha. unfold Main.main. rewrite Ha. unfold main_plan. erewrite then_ext; [reflexivity|reflexivity|]. intros c s1. apply then_ext; [apply make_plan_env|reflexivity].
Qed.
Section Dst.
Hypothesis Hdst : forall n, getenv ("SUBSET_DESTINATION_" ++ n)%string = getenv' ("SUBSET_DESTINATION_" ++ n)%string.
Lemma run_sampler_env c p t cr s : run_sampler getenv to_int reachable environment start c p t cr s = run_sampler getenv' to_int reachable environment start c p t cr s.
Proof.
  unfold run_sampler. apply then_ext; [apply connect_env|]. intros e s1. destruct (sub_sampler c) as [sec|]; [|reflexivity].
  destruct (ss_output sec) as [dir|db remap st merge]; [reflexivity|]. rewrite (engine_env _ db Hdst). reflexivity.
Qed.
Theorem sampling_env a s : main getenv a s = main getenv' a s.
Proof.
  destruct (ar_action a) as [out|plan t cr|t cr] eqn:Ha; [exact (plan_env s Ha)|..]; unfold Main.main; rewrite Ha.
  - unfold main_sample. erewrite then_ext; [reflexivity|reflexivity|]. intros c s1. apply then_ext; [reflexivity|]. intros d s2. apply then_ext; [reflexivity|]. intros p s3. apply run_sampler_env.
  - unfold main_subset. erewrite then_ext; [reflexivity|reflexivity|]. intros c s1. apply then_ext; [apply make_plan_env|]. intros p s3. apply run_sampler_env.
Qed.
(** Where output goes does not depend on the variables of the source. *)
Theorem place_env c pl : output_place getenv to_int c pl <-> output_place getenv' to_int c pl.
Proof. unfold output_place. split; intros (s & A & B); exists s; (split; [exact A|]); destruct (ss_output s); try exact B; destruct B as (e & B & C); exists e; (split; [|exact C]); rewrite <- B; [symmetry|]; apply (engine_env _ _ Hdst). Qed.
End Dst.
End Env.

Lemma planner_part files x c : forall s, configured s (mkArgs files x) c -> forall y, configured s (mkArgs files y) c.
Proof. intros s H y. exact H. Qed.
Lemma configured_valid s a c pc : configured s a c -> distinct_keys s a -> sub_planner c = Some pc -> config_ok pc /\ extras_valid pc.
Proof. intros (ds & S & L) W Hp. exact (accepted_planner (W ds S) L Hp). Qed.
Lemma planned G getenv to_int reachable (environment : engine -> env G) ord_graph ord_names s a c p pc e :
  any_order ord_graph -> any_order ord_names -> configured s a c -> distinct_keys s a -> sub_planner c = Some pc -> source_of getenv to_int c e ->
  plans getenv to_int reachable environment ord_graph ord_names c p -> sound_source (environment e) pc p -> planned_by (environment e) p pc.
Proof.
  intros O1 O2 Hc W Hpc Hs (pc' & e' & P1 & P2 & _ & P4) (S1 & S2 & S3 & S4). rewrite Hpc in P1. injection P1 as <-. unfold source_of in *. rewrite Hs in P2. injection P2 as <-.
  destruct (configured_valid Hc W Hpc) as [V1 V2]. split; [exact V1|]. split; [exact V2|]. split; [exact S1|]. split; [exact S2|]. split; [exists ord_graph, ord_names; auto|]. split; assumption.
Qed.
