(** Properties C131 and C132: destinations that are written by many runs, one after another. *)
From Coq Require Import Lia.
From Verif Require Import Model.Base Model.Value Model.Names Model.PlanModel Model.Metadata Model.Planner Model.Filters Model.Multiply Model.Output Model.Sampler.
From Verif Require Import Spec.GraphSpec Spec.SchemaSpec Spec.SqlSem Spec.PlannerSpec Spec.OutputSpec Spec.RunSpec Spec.SampleSpec Spec.MomentsSpec Spec.HistorySpec.
From Verif Require Import Proofs.BaseFacts Proofs.NameFacts Proofs.SampleExamples Proofs.OutputExamples Proofs.History.
From Verif Require Props.PlannerProps Props.OutputProps Props.MomentsProps.
From Verif Require Import Model.Dest.
Open Scope string_scope.
Open Scope list_scope.

(** C131 *)
Theorem C131_history_consistent : forall cmpf d d', history (respecting cmpf) d d' -> consistent cmpf d -> consistent cmpf d'.
Proof. exact history_consistent. Qed.
(** C132 *)
Theorem C132_nothing_lost : forall d d' n, history adding d d' -> initial_part (rows_of d n) (rows_of d' n).
Proof. exact history_adds. Qed.
Theorem C132_numbers_once : forall n' k d d', history (numbering n' k) d d' -> numbered_on k (rows_of d n') (rows_of d' n').
Proof. exact history_numbers. Qed.
Print Assumptions C131_history_consistent.
Print Assumptions C132_nothing_lost.
Print Assumptions C132_numbers_once.

Lemma stopped {G} (E : env G) w w' n d : replay (en_dflt E) (w_dest w) (firstn n (trace w')) d -> moment E w w' d.
Proof. intros H. exists (firstn n (trace w')). split; [exists (skipn n (trace w')); symmetry; apply firstn_skipn|exact H]. Qed.
Ltac replays := vm_compute; repeat (econstructor; [vm_compute; reflexivity|]); constructor.

(** ** C131: a run that truncates is stopped before the children are written; it is run again without truncating *)
Definition h0 : dest := w_dest MomentsProps.mbefore.
Definition h1 : dest := mkDest MomentsProps.mtables
  [(("a", "child"), []); (("c", "elders"), [ [("pid", VInt 10); ("gid", VInt 100)] ]); (("b", "grp"), [ [("gid", VInt 100)] ]); (("z", "audit"), [])] [] [].
Definition hlast : world * res out_exn unit :=
  sample MomentsProps.menv (MomentsProps.mcfg SSkip) MomentsProps.mplan false false tt (mkWorld h1 []).
Definition h2 : dest := w_dest (fst hlast).
Example C131_case : history (respecting PlannerProps.xcmp) h0 h2 /\ consistent PlannerProps.xcmp h0 /\
  rows_of h2 ("a", "child") = [ [("pid", VInt 10); ("id", VInt 1); ("note", VNull)] ] /\ rows_of h2 ("c", "elders") = rows_of h1 ("c", "elders").
Proof.
  split; [|split; [split|split; vm_compute; reflexivity]].
  - eapply and_then; [eapply and_then; [apply so_far|]|].
    + destruct (MomentsProps.mafter SError true) as [w' r] eqn:Er. assert (Ew : w' = fst (MomentsProps.mafter SError true)) by (rewrite Er; reflexivity).
      eapply respecting_run with (d' := h1) (truncate := true) (create := false) (g := tt) (w' := w') (r := r); [|apply (MomentsProps.m_good SError); reflexivity|exact Er| |]; [reflexivity| |].
      * rewrite Ew, (MomentsProps.m_tables SError true (or_introl (conj eq_refl eq_refl))). intros n tb fk Ht Hf. exact (MomentsProps.m_respected SError true _ n tb fk Ht Hf).
      * rewrite Ew. apply (stopped _ _ _ 6). replays.
    + destruct hlast as [w' r] eqn:Er. assert (Ew : w' = fst hlast) by (rewrite Er; reflexivity).
      eapply respecting_run with (d' := h2) (truncate := false) (create := false) (g := tt) (w' := w') (r := r); [|apply (MomentsProps.m_good SSkip); reflexivity|exact Er| |]; [reflexivity| |].
      * rewrite Ew. replace (ds_tables (w_dest (fst hlast))) with MomentsProps.mtables by (vm_compute; reflexivity).
        intros n tb fk Ht Hf. exact (MomentsProps.m_respected SSkip false _ n tb fk Ht Hf).
      * rewrite Ew. apply (stopped _ _ _ 9). replays.
  - exact MomentsProps.m_before.
  - intros n Hn. assert (Hin : ~ In n (map tb_name MomentsProps.mtables)) by (intros F; apply in_map_iff in F; destruct F as (tb & A & B); exact (Hn tb (conj B A))).
    unfold h0, rows_of, dget_or. cbn in Hin |- *. repeat match goal with |- context [eq_dec n ?m] => destruct (eq_dec n m) as [Heq|_]; [elim Hin; rewrite Heq; tauto|] end. reflexivity.
Qed.

(** ** C132: orders are merged into the destination twice; the first time the run is stopped after two of its three orders *)
Notation two := ["users"; "orders"].
Notation oE := (oenv yes none).
Definition o0 : dest := w_dest OutputProps.old_dest.
Definition o1 : dest := mkDest oschema
  [(("s", "users"), [OutputProps.user 1 "x"; OutputProps.user 7 "y"; OutputProps.user 9 "a"; OutputProps.user 10 "b"]);
   (("s", "orders"), [OutputProps.order 5 1; OutputProps.order 16 10; OutputProps.order 17 9]); (("s", "profile"), [OutputProps.prof 1]); (("s", "photo"), [OutputProps.pict 3 1])]
  [(("s", "users"), 10%Z)] [].
Definition olast : world * res out_exn unit := orun OutputProps.merging two false false (mkWorld o1 []).
Definition o2 : dest := w_dest (fst olast).
Lemma o_step d w' r d' : ds_tables d = oschema -> orun OutputProps.merging two false false (mkWorld d []) = (w', r) -> ds_tables (w_dest w') = oschema ->
  moment oE (mkWorld d []) w' d' -> adding d d' /\ numbering ("s", "orders") "id" d d'.
Proof.
  intros Hd Hs Hw Hm. unfold orun in Hs. split.
  - eapply adding_run; [|exact Hs|exact Hm]. intros c [= <-]. discriminate.
  - eapply numbering_run with (t := "s.orders") (n := ("s", "orders")) (c := OutputProps.merging) (p := oplan two); [|vm_compute; nd|reflexivity|discriminate|exact Hs|vm_compute; tauto|intros []|apply parse_named; reflexivity|
      apply parse_named; reflexivity| | | | | |exact Hm].
    + change d with (w_dest (mkWorld d [])). apply orun_ok; [vm_compute; reflexivity|cbn [w_dest]; rewrite Hd; vm_compute; reflexivity].
    + rewrite Hw. exists orders. split; [split; [vm_compute; auto 9|reflexivity]|split; reflexivity].
    + rewrite Hw. intros tb [Ht Hn]. destruct Ht as [<-|[<-|[<-|[<-|[<-|[]]]]]]; try discriminate Hn. left. reflexivity.
    + split; [|split; [intros f []|reflexivity]]. intros ms compact st mults co H1 H2. OutputProps.result_is H1 H2. left. reflexivity.
    + intros ms compact st mults co H1 H2. OutputProps.result_is H1 H2. split; [|split; [nd|left; reflexivity]].
      intros r0 [<-|[<-|[<-|[]]]]; eexists; (split; [reflexivity|lia]).
    + intros fk nd' kd row y (ms & m & H1 & H2 & H3) Hc. vm_compute in H1. injection H1 as <-. vm_compute in H2. injection H2 as <-. destruct H3 as [<-|[]]. discriminate Hc.
Qed.
Example C132_case : history adding o0 o2 /\ history (numbering ("s", "orders") "id") o0 o2 /\
  map (fun r => rget r "id") (rows_of o2 ("s", "orders")) = map VInt [5; 16; 17; 28; 29; 30]%Z.
Proof.
  assert (A : adding o0 o1 /\ numbering ("s", "orders") "id" o0 o1).
  { destruct (orun OutputProps.merging two false false (mkWorld o0 [])) as [w' r] eqn:Er. assert (Ew : w' = fst (orun OutputProps.merging two false false (mkWorld o0 []))) by (rewrite Er; reflexivity).
    eapply o_step; [reflexivity|exact Er|rewrite Ew; vm_compute; reflexivity|]. rewrite Ew. apply (stopped _ _ _ 3). replays. }
  assert (B : adding o1 o2 /\ numbering ("s", "orders") "id" o1 o2).
  { destruct olast as [w' r] eqn:Er. assert (Ew : w' = fst olast) by (rewrite Er; reflexivity).
    eapply o_step; [reflexivity|exact Er|rewrite Ew; vm_compute; reflexivity|]. rewrite Ew. apply (stopped _ _ _ 9). replays. }
  split; [|split; [|vm_compute; reflexivity]]; (eapply and_then; [eapply and_then; [apply so_far|]|]); [apply A|apply B|apply A|apply B].
Qed.
