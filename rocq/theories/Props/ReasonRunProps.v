(** Properties C124, C125 and C126 of whole runs, seen from the destinations. *)
From Coq Require Import Lia QArith Permutation.
From Verif Require Import Model.Base Model.Value Model.Names Model.PlanModel Model.SqlAlgebra Model.Metadata Model.Planner Model.Filters Model.Multiply Model.Materialize Model.Dest Model.Output Model.Sampler.
From Verif Require Import Spec.GraphSpec Spec.SchemaSpec Spec.SqlSem Spec.PlannerSpec Spec.FilterSpec Spec.OutputSpec Spec.SampleSpec Spec.RunSpec Spec.WholeSpec Spec.WidenSpec Spec.AgainSpec Spec.ReasonSpec.
From Verif Require Import Proofs.BaseFacts Proofs.NameFacts Proofs.PlannerExamples Proofs.OutputExamples Proofs.ReasonsRun.
From Verif Require Props.PlannerProps Props.WholeRunProps Props.WidenProps.
From Verif Require Import Props.AgainProps.
From Verif Require Import Model.Dest.
Open Scope string_scope.
Open Scope list_scope.

Section Props.
Context {G G' : Type}.
Variables (E : env G) (E' : env G').
Notation rows w n := (rows_of (w_dest w) n).

(** C124.  [copies] and [arrives] are those of Spec/AgainSpec.v; [arr n] is the table in which the rows of [n] arrive. *)
Theorem C124_runs : forall pcfg cfg c p truncate create w w' (arr : tname -> tname),
  copies E pcfg cfg c p truncate create w w' -> (forall n, planned p n -> arrives E cfg c p truncate w w' n (arr n)) -> eq_symmetric (en_cmp E) ->
  forall n r, connected (en_fnm E) pcfg (en_source_schema E) n -> In r (rows w' (arr n)) ->
    linked (en_fnm E) pcfg (en_source_schema E) (en_cmp E) (fun n => rows w' (arr n)) n r.
Proof. intros pcfg cfg c p truncate create w w' arr H Ha Hs n r. exact (dest_linked H Ha Hs (r := r)). Qed.

(** C125.  Two runs of the same plan on the same source. *)
Theorem C125_runs : forall pcfg cfg cfg' c c' p truncate truncate' create create' w w' v v',
  copies E pcfg cfg c p truncate create w w' -> copies E' pcfg cfg' c' p truncate' create' v v' ->
  en_source_schema E' = en_source_schema E -> en_cmp E' = en_cmp E -> en_text E' = en_text E -> en_source E' = en_source E -> eq_symmetric (en_cmp E) ->
  (forall n tb r, planned p n -> table_of (en_source_schema E) n tb -> In r (en_source E n) -> map fst r = tb_cols tb) ->
  (forall n g tb, planned p n -> is_target pcfg n g -> table_of (en_source_schema E) n tb ->
    exists n1 n2 l, arrives E cfg c p truncate w w' n n1 /\ arrives E' cfg' c' p truncate' v v' n n2 /\
      Permutation l (rows w' n1) /\ Forall2 (same_values (tb_cols tb)) l (rows v' n2)) ->
  forall n n1 n2 tb, planned p n -> table_of (en_source_schema E) n tb ->
    arrives E cfg c p truncate w w' n n1 -> arrives E' cfg' c' p truncate' v v' n n2 ->
  exists l, Permutation l (rows w' n1) /\ Forall2 (same_values (tb_cols tb)) l (rows v' n2).
Proof.
  intros pcfg cfg cfg' c c' p t t' cr cr' w w' v v' H H' H1 H2 H3 H4 H5 H6 H7 n n1 n2 tb Hp Htb Ha Ha'.
  exact (runs_decided H H' H1 H2 H3 H4 H5 H6 H7 Hp Htb Ha Ha').
Qed.

(** C126.  Passthrough tables, and targets that ask for all rows without an amount. *)
Theorem C126_whole_tables : forall pcfg cfg c p truncate create w w' n n' tb,
  copies E pcfg cfg c p truncate create w w' ->
  passed_through (en_fnm E) pcfg (en_source_schema E) n \/ (planned p n /\ exists g, is_target pcfg n g /\ tg_all g = true /\ tg_amount g = None) ->
  table_of (en_source_schema E) n tb -> arrives E cfg c p truncate w w' n n' ->
  exists l, Permutation l (en_source E n) /\ Forall2 (same_values (tb_cols tb)) l (rows w' n').
Proof. intros pcfg cfg c p truncate create w w' n n' tb H Hn Htb Ha. exact (whole_arrives H Hn Htb Ha). Qed.
End Props.
Print Assumptions C124_runs.
Print Assumptions C125_runs.
Print Assumptions C126_whole_tables.

(** ** Cases: the runs of Props/AgainProps.v *)
Definition plainly : world := fst (run PlannerProps.xsource out2 planA).
Lemma first_copies : copies (venv PlannerProps.xsource) PlannerProps.cfgA (ocfg out1) out1 planA false true empty first.
Proof. apply C119_hypotheses. Qed.
Lemma plainly_copies : copies (venv PlannerProps.xsource) PlannerProps.cfgA (ocfg out2) out2 planA false true empty plainly.
Proof. apply v_copies; [exact x_source_ok|left; reflexivity|right; left; reflexivity|vm_compute; reflexivity]. Qed.
Lemma first_arrives n : planned planA n -> arrives (venv PlannerProps.xsource) (ocfg out1) out1 planA false empty first n (to out1 n).
Proof.
  intros Hp. pose proof (v_planned _ _ (or_introl eq_refl) Hp) as Hin. apply v_arrives; [left; reflexivity|exact Hin|]. destruct Hin as [<-|[<-|[<-|[<-|[]]]]]; vm_compute; reflexivity.
Qed.
Lemma plainly_arrives n : planned planA n -> arrives (venv PlannerProps.xsource) (ocfg out2) out2 planA false empty plainly n n.
Proof.
  intros Hp. pose proof (v_planned _ _ (or_introl eq_refl) Hp) as Hin. apply (v_arrives PlannerProps.xsource out2); [right; left; reflexivity|exact Hin|]. destruct Hin as [<-|[<-|[<-|[<-|[]]]]]; vm_compute; reflexivity.
Qed.
(** C124: the parents arrive in another table; the child's row is linked with the parent's there. *)
Example C124_run_case : In [("id", VInt 1); ("pid", VInt 10)] (rows_of (w_dest first) ("a", "child")) /\ rows_of (w_dest first) ("c", "elders") = [ [("pid", VInt 10); ("gid", VInt 100)] ] /\
  linked PlannerProps.xfnm PlannerProps.cfgA PlannerProps.xdb PlannerProps.xcmp (fun n => rows_of (w_dest first) (to out1 n)) ("a", "child") [("id", VInt 1); ("pid", VInt 10)].
Proof.
  assert (Hr : In [("id", VInt 1); ("pid", VInt 10)] (rows_of (w_dest first) ("a", "child"))) by (vm_compute; tauto). split; [exact Hr|]. split; [vm_compute; reflexivity|].
  exact (C124_runs _ _ _ _ _ _ _ _ _ (to out1) first_copies first_arrives PlannerProps.xcmp_sym ("a", "child") _ (proj1 PlannerProps.A_child) Hr).
Qed.
(** C125: a run with a remapped table and one without, which drew the same parent. *)
Example C125_run_case : forall n tb, planned planA n -> table_of PlannerProps.xdb n tb ->
  exists l, Permutation l (rows_of (w_dest first) (to out1 n)) /\ Forall2 (same_values (tb_cols tb)) l (rows_of (w_dest plainly) n).
Proof.
  intros n tb Hp Htb. refine (C125_runs _ _ _ _ _ _ _ _ _ _ _ _ _ _ _ _ first_copies plainly_copies eq_refl eq_refl eq_refl eq_refl PlannerProps.xcmp_sym _ _ n (to out1 n) n tb Hp Htb (first_arrives _ Hp) (plainly_arrives _ Hp)).
  - apply C119_hypotheses.
  - intros m g t Hm (s & [Es|[]] & Hn) Ht. injection Es as <- <-. apply (proj2 (parse_named _ _)) in Hn. vm_compute in Hn. injection Hn as <-.
    exists (to out1 ("a", "parent")), ("a", "parent"), (rows_of (w_dest first) ("c", "elders")). split; [exact (first_arrives _ Hm)|]. split; [exact (plainly_arrives _ Hm)|].
    split; [apply Permutation_refl|]. vm_compute rows_of. constructor; [intros k _; reflexivity|constructor].
Qed.
(** C126: the codes are passed through. *)
Example C126_case : passed_through PlannerProps.xfnm PlannerProps.cfgA PlannerProps.xdb ("b", "codes") /\ rows_of (w_dest first) ("b", "codes") = [ [("code", VInt 7)] ] /\
  arrives (venv PlannerProps.xsource) (ocfg out1) out1 planA false empty first ("b", "codes") ("b", "codes").
Proof.
  split; [|split; [vm_compute; reflexivity|]].
  - split; [|exists "b.codes"; split; [left; reflexivity|apply parse_named; reflexivity]].
    eapply (@chosen_by PlannerProps.xfnm PlannerProps.cfgA PlannerProps.xdb _ "b.codes" "b.codes"); [do 3 right; left; reflexivity|reflexivity|reflexivity|right; left; reflexivity|reflexivity].
  - apply (first_arrives ("b", "codes")). exists "b.codes". split; [apply parse_named; reflexivity|vm_compute; tauto].
Qed.
