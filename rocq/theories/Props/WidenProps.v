(** Property theorems C115, C116: larger samples from wider targets, fewer constraints and more source rows. *)
From Coq Require Import QArith Permutation.
From Verif Require Import Model.Base Model.Value Model.PlanModel Model.Metadata Model.Planner.
From Verif Require Import Spec.GraphSpec Spec.SchemaSpec Spec.SqlSem Spec.PlannerSpec Spec.WidenSpec.
From Verif Require Import Proofs.BaseFacts Proofs.NameFacts Proofs.MetadataMain Proofs.PlannerFinal Proofs.PlannerWrap Proofs.PlannerExamples Proofs.Widen Proofs.Again Props.PlannerProps.
Open Scope string_scope.
Open Scope list_scope.
Open Scope Z_scope.

(** C115.  The source of the second sample may be any that still has the rows of the first. *)
Theorem C115_wider_larger : forall (fnm : string -> string -> bool) cfg targets cs db p p' cmpf textf source source' sample sample',
  sampling fnm cfg db p cmpf textf source sample ->
  sampling fnm (retargeted cfg targets cs) db p' cmpf textf source' sample' ->
  eq_symmetric cmpf -> widened cmpf textf cfg (retargeted cfg targets cs) -> (forall n, planned p n -> incl (sample n) (source' n)) ->
  forall n, planned p n -> planned p' n /\ incl (sample n) (sample' n).
Proof.
  intros fnm cfg ts cs db p p' cmpf textf source source' sample sample' (H1 & H2 & H3 & (ord & ordp & H4 & H5 & H6) & H7) (_ & H2' & _ & (ord' & ordp' & H4' & H5' & H6') & H7') Hsym Hw Hsrc n.
  exact (@larger fnm cfg db ts cs ord ord' ordp ordp' H1 H4 H4' H5 H5' p p' H6 H6' H2 H2' H3 cmpf textf source source' sample sample' H7 H7' Hsym Hw n Hsrc).
Qed.
Print Assumptions C115_wider_larger.

Theorem C115_settings : forall cmpf textf g g', wider_settings g g' -> takes_more cmpf textf g g'.
Proof. exact wider_takes_more. Qed.
Print Assumptions C115_settings.

Theorem C115_more_source : forall (fnm : string -> string -> bool) cfg db p p' cmpf textf source source' sample sample',
  sampling fnm cfg db p cmpf textf source sample -> sampling fnm cfg db p' cmpf textf source' sample' ->
  eq_symmetric cmpf -> drawless cfg -> (forall n, planned p n -> incl (sample n) (source' n)) ->
  forall n, planned p n -> planned p' n /\ incl (sample n) (sample' n).
Proof.
  intros fnm cfg db p p' cmpf textf source source' sample sample' H H' Hsym Hd Hsrc n.
  rewrite <- (retargeted_self cfg) in H'. apply (C115_wider_larger _ _ _ _ _ _ _ _ _ _ _ _ _ H H' Hsym); [|exact Hsrc].
  rewrite retargeted_self. exact (drawless_widened cmpf textf (proj1 (proj2 H)) Hd).
Qed.
Print Assumptions C115_more_source.

(** C119.  In full: [settled] asks for no percentages below 100 only. *)
Theorem C119_sample_of_sample_partial : forall (fnm : string -> string -> bool) cfg db p p' cmpf textf source source' sample sample',
  sampling fnm cfg db p cmpf textf source sample -> sampling fnm cfg db p' cmpf textf source' sample' ->
  eq_symmetric cmpf -> settled fnm cfg db p -> (forall n, planned p n -> Permutation (source' n) (sample n)) ->
  forall n, planned p n -> planned p' n /\ Permutation (sample' n) (sample n).
Proof.
  intros fnm cfg db p p' cmpf textf source source' sample sample' (H1 & H2 & H3 & (ord & ordp & H4 & H5 & H6) & H7) (_ & _ & _ & (ord' & ordp' & H4' & H5' & H6') & H7') Hsym Hset Hsrc n.
  exact (@again fnm cfg db ord ord' ordp ordp' H1 H4 H4' H5 H5' p p' H6 H6' H2 H3 cmpf textf source source' sample sample' H7 H7' Hsym Hset Hsrc n).
Qed.
Print Assumptions C119_sample_of_sample_partial.

(** C116 *)
Theorem C116_added_target_partial : forall (fnm : string -> string -> bool) cfg more db p p' cmpf textf source sample sample',
  sampling fnm cfg db p cmpf textf source sample ->
  sampling fnm (retargeted cfg (c_targets cfg ++ more) (c_constraints cfg)) db p' cmpf textf source sample' ->
  forall n g, is_target cfg n g -> tg_amount g = None -> tg_percent g = None -> (forall c fk, ~ earlier_child fnm cfg db p n c fk) ->
  incl (sample n) (sample' n).
Proof.
  intros fnm cfg more db p p' cmpf textf source sample sample' (H1 & H2 & H3 & (ord & ordp & H4 & H5 & H6) & H7) (_ & H2' & _ & (ord' & ordp' & H4' & H5' & H6') & H7').
  exact (@added_keeps fnm cfg db more ord ord' ordp ordp' H1 H4 H4' H5 H5' p p' H6 H6' H2 H2' H3 cmpf textf source sample sample' H7 H7').
Qed.
Print Assumptions C116_added_target_partial.

(** C116: of the group 100 and everything that belongs to it, the child 1 and its parent are lost when the child 2 is asked for as well. *)
Definition tgG : target := mkTarget false None None [] [("gid", [LInt 100])] None.
Definition tgId (l : list lit) : target := mkTarget false None None [] [("id", l)] None.
Definition cfgG : config := xcfg [("b.grp", tgG)] [].
Definition cfgG2 : config := xcfg [("b.grp", tgG); ("a.child", tgId [LInt 2])] [].
Example G_sampling : sampling xfnm cfgG xdb (plan_of cfgG) xcmp xtext xsource (xsample cfgG).
Proof. apply check_sampling; [vm_compute; reflexivity|repeat constructor; intros []|constructor]. Qed.
Example G2_sampling : sampling xfnm cfgG2 xdb (plan_of cfgG2) xcmp xtext xsource (xsample cfgG2).
Proof. apply check_sampling; [vm_compute; reflexivity|repeat constructor; vm_compute; intros H; repeat (destruct H as [H|H]; try discriminate); exact H|constructor]. Qed.

Theorem C116_added_target_refuted : exists (fnm : string -> string -> bool) cfg s g db p p' cmpf textf source sample sample' n r,
  sampling fnm cfg db p cmpf textf source sample /\
  sampling fnm (retargeted cfg (c_targets cfg ++ [(s, g)]) (c_constraints cfg)) db p' cmpf textf source sample' /\
  eq_symmetric cmpf /\ drawless (retargeted cfg (c_targets cfg ++ [(s, g)]) (c_constraints cfg)) /\
  planned p n /\ In r (sample n) /\ ~ In r (sample' n).
Proof.
  exists xfnm, cfgG, "a.child", (tgId [LInt 2]), xdb, (plan_of cfgG), (plan_of cfgG2), xcmp, xtext, xsource, (xsample cfgG), (xsample cfgG2), ("a", "child"), [("id", VInt 1); ("pid", VInt 10)].
  split; [exact G_sampling|]. split; [exact G2_sampling|]. split; [exact xcmp_sym|]. split.
  - intros n g (s & [E|[E|[]]] & _); injection E as _ <-; split; reflexivity.
  - split; [|split; [vm_compute; tauto|]].
    + exists "a.child". split; [apply named_parse; reflexivity|]. vm_compute. tauto.
    + vm_compute. intros [C|[]]. discriminate.
Qed.
Print Assumptions C116_added_target_refuted.

(** C119: the child 1, and any one parent, without a percentage.  The parent 30 is drawn, besides the child's parent 10; of the two, the parent 10 is drawn next. *)
Definition tgH : target := mkTarget false None (Some 1) [] [] None.
Definition cfgH : config := xcfg [("a.child", tgD1); ("a.parent", tgH)] [].
Definition zrev : rnd := mkRnd (fun _ _ _ => 0%Q) (fun l => rev l).
Lemma zrev_ok : rnd_ok zrev.
Proof. split; [intros; split; [apply Qle_refl|reflexivity]|intros; apply Permutation_sym, Permutation_rev]. Qed.
Definition sampleH : tname -> list row := sample_of xcmp xtext xsource zrev (plan_of cfgH).
Definition sampleH2 : tname -> list row := sample_of xcmp xtext sampleH z0 (plan_of cfgH).
Theorem C119_sample_of_sample_refuted : exists (fnm : string -> string -> bool) cfg db p cmpf textf source sample sample' n r,
  sampling fnm cfg db p cmpf textf source sample /\ sampling fnm cfg db p cmpf textf sample sample' /\
  eq_symmetric cmpf /\ (forall m g, is_target cfg m g -> tg_percent g = None) /\ planned p n /\ In r (sample n) /\ ~ In r (sample' n).
Proof.
  exists xfnm, cfgH, xdb, (plan_of cfgH), xcmp, xtext, xsource, sampleH, sampleH2, ("a", "parent"), [("pid", VInt 30); ("gid", VInt 300)].
  assert (H : sampling xfnm cfgH xdb (plan_of cfgH) xcmp xtext xsource (xsample cfgH)).
  { apply check_sampling; [vm_compute; reflexivity|repeat constructor; vm_compute; intros H; repeat (destruct H as [H|H]; try discriminate); exact H|constructor]. }
  destruct H as (H1 & H2 & H3 & H4 & _). split; [|split; [|split; [exact xcmp_sym|split; [|split; [|split]]]]].
  - split; [exact H1|]. split; [exact H2|]. split; [exact H3|]. split; [exact H4|]. eapply populatedb_true; [exact zrev_ok|vm_compute; reflexivity].
  - split; [exact H1|]. split; [exact H2|]. split; [exact H3|]. split; [exact H4|]. eapply populatedb_true; [exact z0_ok|vm_compute; reflexivity].
  - intros m g (s & [E|[E|[]]] & _); injection E as _ <-; reflexivity.
  - exists "a.parent". split; [apply named_parse; reflexivity|]. vm_compute. tauto.
  - vm_compute. tauto.
  - vm_compute. intros [C|[]]. discriminate.
Qed.
Print Assumptions C119_sample_of_sample_refuted.

(** ** Cases *)

(** C115: at most one of the parents 10 and 20, of their children only the child 1; then all of the parents 10, 20 and 30 and all of their children. *)
Definition tgP : target := mkTarget false None None [] [("pid", [LInt 10; LInt 20; LInt 30])] None.
Definition cfgA2 : config := retargeted cfgA [("a.parent", tgP)] [].
Example A2_sampling : sampling xfnm cfgA2 xdb (plan_of cfgA2) xcmp xtext xsource (xsample cfgA2).
Proof. apply (check_sampling [("a.parent", tgP)] []); [vm_compute; reflexivity|repeat constructor; intros []|constructor]. Qed.
Example A2_settings : wider_settings tgA tgP.
Proof.
  split; [reflexivity|]. split; [reflexivity|]. right. split; [reflexivity|]. split; [left; reflexivity|]. split; [intros c ps p []|].
  intros c vs [E|[]]. injection E as <- <-. exists [LInt 10; LInt 20]. split; [left; reflexivity|]. intros v [<-|[<-|[]]]; cbn; auto.
Qed.
Lemma target_one (s : string) (g0 : target) cs n g : is_target (xcfg [(s, g0)] cs) n g -> g = g0.
Proof. intros (s' & [E|[]] & _). injection E as _ <-. reflexivity. Qed.
Example A2_widened : widened xcmp xtext cfgA cfgA2.
Proof.
  split; [reflexivity|]. split.
  - intros n g g' H H'. pose proof (target_one _ _ _ _ _ H) as ->. pose proof (target_one _ _ [] _ _ H') as ->. exact (wider_takes_more xcmp xtext A2_settings).
  - intros n l l' _ (s & _ & [[]|[E _]]). rewrite E. intros c [].
Qed.
Lemma A_from_source n : planned (plan_of cfgA) n -> incl (xsample cfgA n) (xsource n).
Proof. destruct A_sampling as (H1 & _ & _ & (ord & ordp & H4 & H5 & H6) & H7). intros Hp r Hr. exact (rows_from_source H1 H4 H5 H6 H7 Hp Hr). Qed.
Example A2_larger : forall n, planned (plan_of cfgA) n -> planned (plan_of cfgA2) n /\ incl (xsample cfgA n) (xsample cfgA2 n).
Proof. exact (C115_wider_larger _ _ _ _ _ _ _ _ _ _ _ _ _ A_sampling A2_sampling xcmp_sym A2_widened (fun n H => A_from_source n H)). Qed.
Example A2_sample : map (fun n => length (xsample cfgA2 n)) [("a", "parent"); ("a", "child"); ("b", "grp"); ("b", "codes")] = [3; 2; 3; 1]%nat.
Proof. vm_compute. reflexivity. Qed.

(** C115: a new parent and its child arrive, before the others. *)
Definition ysource (n : tname) : list row :=
  if eqb n ("a", "child") then [("id", VInt 4); ("pid", VInt 40)] :: xsource n
  else if eqb n ("a", "parent") then [("pid", VInt 40); ("gid", VInt 100)] :: xsource n
  else xsource n.
Definition ysample : tname -> list row := sample_of xcmp xtext ysource z0 (plan_of cfgG).
Example Y_sampling : sampling xfnm cfgG xdb (plan_of cfgG) xcmp xtext ysource ysample.
Proof.
  destruct G_sampling as (H1 & H2 & H3 & H4 & _). split; [exact H1|]. split; [exact H2|]. split; [exact H3|]. split; [exact H4|].
  eapply populatedb_true; [exact z0_ok|]. vm_compute. reflexivity.
Qed.
Example Y_more n : incl (xsource n) (ysource n).
Proof. unfold ysource. destruct (eqb n ("a", "child")); [apply incl_tl, incl_refl|]. destruct (eqb n ("a", "parent")); [apply incl_tl, incl_refl|apply incl_refl]. Qed.
Example Y_larger : forall n, planned (plan_of cfgG) n -> planned (plan_of cfgG) n /\ incl (xsample cfgG n) (ysample n).
Proof.
  apply (C115_more_source _ _ _ _ _ _ _ _ _ _ _ G_sampling Y_sampling xcmp_sym);
    [|intros n Hp; destruct G_sampling as (H1 & _ & _ & (ord & ordp & H4 & H5 & H6) & H7); intros r Hr; apply Y_more; exact (rows_from_source H1 H4 H5 H6 H7 Hp Hr)].
  intros n g H. rewrite (target_one _ _ _ _ _ H). split; reflexivity.
Qed.
Example Y_sample : length (xsample cfgG ("a", "child")) = 1%nat /\ length (ysample ("a", "child")) = 2%nat.
Proof. vm_compute. split; reflexivity. Qed.

(** C116: the rows of the target b.grp are kept when a.child becomes a target too. *)
Example G_kept : incl (xsample cfgG ("b", "grp")) (xsample cfgG2 ("b", "grp")).
Proof.
  apply (C116_added_target_partial xfnm cfgG [("a.child", tgId [LInt 2])] _ _ _ _ _ _ _ _ G_sampling G2_sampling _ tgG); [|reflexivity|reflexivity|].
  - eapply target_by; [left; reflexivity|reflexivity].
  - intros c fk (_ & _ & Hc & Hd & (sa & sb & Ha & Hb & Hbf)). apply x_considered in Hc. destruct Hc as [[-> ->]|[-> ->]]; [discriminate Hd|].
    rewrite (proj1 Ha), (proj1 Hb) in Hbf.
    replace (dkeys (p_queries (plan_of cfgG))) with ["b.codes"; "b.grp"; "a.parent"; "a.child"] in Hbf by (vm_compute; reflexivity).
    destruct Hbf as (l1 & l2 & l3 & He). cbn in He.
    do 4 (destruct l1 as [|? l1]; cbn in He; [inversion He; subst; try (destruct l2 as [|? [|? ?]]; discriminate)|inversion He; clear He; subst; rename H1 into He]).
    destruct l1; discriminate.
Qed.
