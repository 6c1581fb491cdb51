(** Sampling a plan read from a file gives what sampling the plan itself gives. *)
From Coq Require Import Lia Permutation.
From Verif Require Import Model.Base Model.Value Model.Names Model.PlanModel Model.SqlAlgebra Model.Metadata Model.Planner Model.Filters Model.Multiply Model.Materialize Model.Dest Model.Output Model.Sampler Model.Config Model.PlanIO Model.ConfigIO Model.Main.
From Verif Require Import Spec.GraphSpec Spec.SchemaSpec Spec.SqlSem Spec.PlannerSpec Spec.FilterSpec Spec.OutputSpec Spec.SampleSpec Spec.RunSpec Spec.WholeSpec Spec.CliSpec.
From Verif Require Import Proofs.BaseFacts Proofs.NameFacts Proofs.PlanRun Proofs.SampleFinal Proofs.OutputDirectory Proofs.WholeRun Proofs.WholeFk Proofs.PlanIOPlanner Proofs.CliFacts.
From Verif Require Import Model.Dest.
Set Implicit Arguments.
Unset Strict Implicit.
Open Scope string_scope.
Open Scope list_scope.

Lemma existsb_perm A (f : A -> bool) l l' : Permutation l l' -> existsb f l = existsb f l'.
Proof.
  intros H. destruct (existsb f l) eqn:E; symmetry.
  - apply existsb_exists in E. destruct E as (x & Hx & Hf). apply existsb_exists. exists x. split; [exact (Permutation_in _ H Hx)|exact Hf].
  - apply Bool.not_true_iff_false. intros E'. apply existsb_exists in E'. destruct E' as (x & Hx & Hf). apply Bool.not_true_iff_false in E. apply E. apply existsb_exists.
    exists x. split; [exact (Permutation_in _ (Permutation_sym H) Hx)|exact Hf].
Qed.
Lemma perm_meta fnm db qs qs' infer : Permutation qs qs' -> sampler_meta fnm db qs infer = sampler_meta fnm db qs' infer.
Proof.
  intros H. unfold sampler_meta, from_engine.
  assert (E : filter (fun kt : string * table => existsb (fun p => fnm (fst kt) p) (dkeys qs)) (metadata_tables db) = filter (fun kt => existsb (fun p => fnm (fst kt) p) (dkeys qs')) (metadata_tables db)).
  { apply filter_ext. intros kt. apply existsb_perm. apply Permutation_map. exact H. }
  rewrite E. reflexivity.
Qed.

Lemma exports_export G (E : env G) cfg q ms compact st mults ts g files g' t rows : exports E cfg q ms compact st mults true ts g files g' -> In (t, rows) files ->
  exists g1 g2, export E cfg q ms compact st mults true t g1 rows g2.
Proof.
  intros H. remember true as whole eqn:Ew. induction H as [| | |whole t0 ts g rows0 g1 l g2 H1 H2 IH]; intros Hi; [destruct Hi|destruct Hi|discriminate|].
  destruct Hi as [Hi|Hi]; [|exact (IH Ew Hi)]. injection Hi as -> ->. exists g, g1. rewrite Ew. exact H1.
Qed.

(** ** The commands *)
Lemma inputs_same files files' stdin stdin' ps : ~ In "-" ps -> (forall f, In f ps -> files f = files' f) -> inputs files stdin ps = inputs files' stdin' ps.
Proof.
  intros Hd Hf. revert stdin stdin'. induction ps as [|p ps IH]; intros stdin stdin'; [reflexivity|]. cbn [inputs]. destruct (String.eqb p "-") eqn:Ep.
  - apply String.eqb_eq in Ep. subst p. elim Hd. left. reflexivity.
  - rewrite (Hf p (or_introl eq_refl)). f_equal. apply IH; intros; [intros X; apply Hd; right; exact X|apply Hf; right; assumption].
Qed.
Lemma left_over_same stdin ps : ~ In "-" ps -> left_over stdin ps = stdin.
Proof. intros H. unfold left_over. destruct (memb "-" ps) eqn:E; [|reflexivity]. apply memb_true in E. contradiction. Qed.
Lemma configured_fun s a c c' : configured s a c -> configured s a c' -> c = c'.
Proof. intros (ds & S & C) (ds' & S' & C'). rewrite (say_fun S S') in C. congruence. Qed.

Section Commands.
Context {G : Type}.
Variable getenv : string -> option string.
Variable to_int : string -> option Z.
Variable reachable : engine -> bool.
Variable environment : engine -> env G.
Variables (ord_graph : list string -> list string) (ord_names : list tname -> list tname) (explicit : PlanIO.path -> bool) (start : G)
  (can_open can_write : string -> bool) (partly : string -> content).
Notation plans := (plans getenv to_int reachable environment ord_graph ord_names).
Notation runs := (runs getenv to_int reachable environment start).
Notation output_place := (output_place getenv to_int).

Lemma plans_fun c p p' : plans c p -> plans c p' -> p = p'.
Proof. intros (pc & e & A & B & C & D) (pc' & e' & A' & B' & C' & D'). rewrite A in A'. injection A' as <-. unfold source_of in B, B'. rewrite B in B'. injection B' as <-. congruence. Qed.
Lemma place_fun c pl pl' : output_place c pl -> output_place c pl' -> pl = pl'.
Proof.
  intros (s & A & B) (s' & A' & B'). rewrite A in A'. injection A' as <-. destruct (ss_output s); [congruence|]. destruct B as (e & B & ->). destruct B' as (e' & B' & ->). rewrite B in B'. now injection B' as <-.
Qed.
End Commands.
