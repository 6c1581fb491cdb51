(** Properties C124 and C125: why rows are sampled, and what is left to chance. *)
From Coq Require Import QArith Permutation.
From Verif Require Import Model.Base Model.Value Model.Names Model.PlanModel Model.Metadata Model.Planner.
From Verif Require Import Spec.GraphSpec Spec.SchemaSpec Spec.SqlSem Spec.PlannerSpec Spec.ReasonSpec.
From Verif Require Import Proofs.BaseFacts Proofs.NameFacts Proofs.PlannerExamples Proofs.Reasons.
From Verif Require Import Props.PlannerProps.
Open Scope list_scope.
Open Scope string_scope.

(** C124.  [sampling] (PlannerProps.v): [sample] holds, for every planned table, the rows its query selects. *)
Theorem C124_rows_linked : forall (fnm : string -> string -> bool) cfg db p cmpf textf source sample,
  sampling fnm cfg db p cmpf textf source sample -> eq_symmetric cmpf ->
  forall n r, connected fnm cfg db n -> In r (sample n) -> linked fnm cfg db cmpf sample n r.
Proof. intros fnm cfg db p cmpf textf source sample (H1 & H2 & H3 & (ord & ordp & H4 & H5 & H6) & H7) Hs n r. exact (all_linked H1 H4 H5 H6 H2 H3 Hs H7 (r := r)). Qed.
Print Assumptions C124_rows_linked.
(** If the targets select nothing, nothing is sampled but the passthrough tables. *)
Theorem C124_no_target_rows : forall (fnm : string -> string -> bool) cfg db p cmpf textf source sample,
  sampling fnm cfg db p cmpf textf source sample -> eq_symmetric cmpf -> (forall n g, is_target cfg n g -> sample n = []) ->
  forall n, connected fnm cfg db n -> sample n = [].
Proof. intros fnm cfg db p cmpf textf source sample (H1 & H2 & H3 & (ord & ordp & H4 & H5 & H6) & H7) Hs Ht n Hc. exact (nothing H1 H4 H5 H6 H2 H3 Hs H7 Ht Hc). Qed.
Print Assumptions C124_no_target_rows.

(** C125.  Two samples taken with the same plan, each with its own random numbers. *)
Theorem C125_targets_decide : forall (fnm : string -> string -> bool) cfg db p cmpf textf source sample sample',
  sampling fnm cfg db p cmpf textf source sample -> sampling fnm cfg db p cmpf textf source sample' -> eq_symmetric cmpf ->
  (forall n g, is_target cfg n g -> Permutation (sample n) (sample' n)) ->
  forall n, planned p n -> Permutation (sample n) (sample' n).
Proof.
  intros fnm cfg db p cmpf textf source sample sample' (H1 & H2 & H3 & (ord & ordp & H4 & H5 & H6) & H7) (_ & _ & _ & _ & H7') Hs Ht n Hp.
  exact (targets_decide H1 H4 H5 H6 H2 H3 Hs H7 H7' (fun n g _ H => Ht n g H) Hp).
Qed.
Print Assumptions C125_targets_decide.

(** ** Cases *)
(** C124: the case of PlannerProps.v; a row of the child table and one of the group are linked with the target's row. *)
Example C124_case : sampling xfnm cfgA xdb (plan_of cfgA) xcmp xtext xsource (xsample cfgA) /\ eq_symmetric xcmp /\
  connected xfnm cfgA xdb ("a", "child") /\ In [("id", VInt 1); ("pid", VInt 10)] (xsample cfgA ("a", "child")) /\
  connected xfnm cfgA xdb ("b", "grp") /\ In [("gid", VInt 100)] (xsample cfgA ("b", "grp")) /\
  (forall g, ~ is_target cfgA ("b", "grp") g).
Proof.
  split; [exact A_sampling|]. split; [exact xcmp_sym|]. split; [apply A_child|]. split; [vm_compute; tauto|]. split; [apply A_grp|]. split; [vm_compute; tauto|apply A_grp].
Qed.
(** A group to which nothing sampled leads would not be linked: the definition is not void. *)
Example C124_not_linked : ~ linked xfnm cfgA xdb xcmp (fun n => if eqb n ("b", "grp") then xsource n else xsample cfgA n) ("b", "grp") [("gid", VInt 200)].
Proof.
  assert (H : forall n r, linked xfnm cfgA xdb xcmp (fun n => if eqb n ("b", "grp") then xsource n else xsample cfgA n) n r ->
    (n = ("b", "grp") -> r = [("gid", VInt 100)]) /\ (n = ("a", "parent") -> rget r "gid" = VInt 100)).
  { intros n r Hl. induction Hl as [n g r Ht Hr|n fk r r' Hc _ [_ IH] Hr Href|n fk r r' Hc _ [IH _] Hr Href].
    - destruct (eqb n ("b", "grp")) eqn:En; [exfalso; apply (proj1 (eqb_true n ("b", "grp"))) in En; subst n; exact (proj1 (proj2 A_grp) g Ht)|].
      split; intros ->; [discriminate En|]. vm_compute in Hr. destruct Hr as [<-|[]]. reflexivity.
    - apply x_considered in Hc. destruct Hc as [[-> ->]|[-> ->]]; cbn [fk_dst] in *; split; try discriminate; intros _.
      + vm_compute in Hr. destruct Hr as [<-|[]]. reflexivity.
      + specialize (IH eq_refl). inversion Href as [|c d lc ld (_ & _ & He) _]; subst. rewrite IH in He. vm_compute in Hr. destruct Hr as [<-|[<-|[<-|[]]]]; [reflexivity|vm_compute in He; discriminate He..].
    - apply x_considered in Hc. destruct Hc as [[-> ->]|[-> ->]]; split; try discriminate; intros _. vm_compute in Hr. destruct Hr as [<-|[]]. reflexivity. }
  intros Hl. destruct (H _ _ Hl) as [E _]. specialize (E eq_refl). discriminate E.
Qed.
(** C124: a target that selects nothing. *)
Definition tgN : target := mkTarget false None None [] [("pid", [LInt 99])] None.
Definition cfgN : config := xcfg [("a.parent", tgN)] [].
Example C124_nothing_case : sampling xfnm cfgN xdb (plan_of cfgN) xcmp xtext xsource (xsample cfgN) /\ (forall n g, is_target cfgN n g -> xsample cfgN n = []) /\
  connected xfnm cfgN xdb ("a", "child") /\ map (xsample cfgN) [("a", "parent"); ("a", "child"); ("b", "grp"); ("b", "codes")] = [[]; []; []; [ [("code", VInt 7)] ]].
Proof.
  split; [apply check_sampling; [vm_compute; reflexivity|repeat constructor; intros []|constructor]|]. split.
  { intros n g (s & [E|[]] & Hn). injection E as <- <-. apply parse_named in Hn. vm_compute in Hn. injection Hn as <-. vm_compute. reflexivity. }
  split; [|vm_compute; reflexivity]. eapply connected_step; [|right; apply x_edge1].
  assert (Ht : is_target cfgN ("a", "parent") tgN) by (eapply target_by; [left; reflexivity|reflexivity]). exact (connected_target Ht (x_parent _ _)).
Qed.

(** C125: other random numbers.  A target with a fixed choice gives the same rows in other orders; one with an amount draws other rows, and
    everything else follows. *)
Definition z1 : rnd := mkRnd (fun _ _ _ => 0%Q) (fun l => rev l).
Lemma z1_ok : rnd_ok z1.
Proof. split; [intros; split; [apply Qle_refl|reflexivity]|intros; apply Permutation_sym, Permutation_rev]. Qed.
Definition tgT : target := mkTarget false None None [] [("pid", [LInt 10; LInt 20])] None.
Definition cfgT : config := xcfg [("a.parent", tgT)] [].
Definition other_sample cfg : tname -> list row := sample_of xcmp xtext xsource z1 (plan_of cfg).
Lemma other_sampling targets : (match plan_db idl idl xfnm (xcfg targets []) xdb with Ok p => populatedb xcmp xtext xsource z1 (other_sample (xcfg targets [])) p | Err _ => false end) = true ->
  NoDup (dkeys targets) -> sampling xfnm (xcfg targets []) xdb (plan_of (xcfg targets [])) xcmp xtext xsource (other_sample (xcfg targets [])).
Proof.
  intros Hc Ht. split; [exact xdb_ok|]. split; [split; [exact Ht|constructor]|]. split; [intros x []|]. split.
  - exists idl, idl. split; [apply idl_any|]. split; [apply idl_any|]. unfold plan_of. destruct (plan_db idl idl xfnm (xcfg targets []) xdb); [reflexivity|discriminate].
  - unfold other_sample, plan_of in *. destruct (plan_db idl idl xfnm (xcfg targets []) xdb) eqn:E; [|discriminate]. eapply populatedb_true; [exact z1_ok|exact Hc].
Qed.
Example C125_case : sampling xfnm cfgT xdb (plan_of cfgT) xcmp xtext xsource (xsample cfgT) /\ sampling xfnm cfgT xdb (plan_of cfgT) xcmp xtext xsource (other_sample cfgT) /\
  (forall n g, is_target cfgT n g -> Permutation (xsample cfgT n) (other_sample cfgT n)) /\ length (xsample cfgT ("a", "child")) = 2.
Proof.
  split; [apply check_sampling; [vm_compute; reflexivity|repeat constructor; intros []|constructor]|]. split; [apply other_sampling; [vm_compute; reflexivity|repeat constructor; intros []]|].
  split; [|vm_compute; reflexivity]. intros n g (s & [E|[]] & Hn). injection E as <- <-. apply parse_named in Hn. vm_compute in Hn. injection Hn as <-. vm_compute. apply Permutation_refl.
Qed.
Definition cfgU : config := xcfg [("a.parent", mkTarget false None (Some 1%Z) [] [("pid", [LInt 10; LInt 20])] None)] [].
Example C125_targets_differ : sampling xfnm cfgU xdb (plan_of cfgU) xcmp xtext xsource (xsample cfgU) /\ sampling xfnm cfgU xdb (plan_of cfgU) xcmp xtext xsource (other_sample cfgU) /\
  xsample cfgU ("a", "child") = [ [("id", VInt 1); ("pid", VInt 10)] ] /\ other_sample cfgU ("a", "child") = [ [("id", VInt 2); ("pid", VInt 20)] ].
Proof.
  split; [apply check_sampling; [vm_compute; reflexivity|repeat constructor; intros []|constructor]|]. split; [apply other_sampling; [vm_compute; reflexivity|repeat constructor; intros []]|].
  vm_compute. split; reflexivity.
Qed.
