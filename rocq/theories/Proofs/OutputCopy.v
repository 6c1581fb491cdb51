(** Copying the tables of a plan, one after the other. *)
From Coq Require Import Lia.
From Verif Require Import Model.Base Model.Value Model.Names Model.PlanModel Model.Solver Model.Metadata Model.Filters Model.Multiply Model.Materialize Model.Dest Model.Output Model.Sampler.
From Verif Require Import Spec.GraphSpec Spec.SchemaSpec Spec.OutputSpec Spec.RunSpec.
From Verif Require Import Proofs.BaseFacts Proofs.NameFacts Proofs.FilterFacts Proofs.OutputRows Proofs.OutputRun.
Set Implicit Arguments. Unset Strict Implicit.
Open Scope list_scope.

(** ** Prefixes *)
Lemma initial_map {A B} (f : A -> B) l tr : initial_part tr (map f l) -> exists l1, initial_part l1 l /\ tr = map f l1.
Proof.
  intros (rest & H). symmetry in H. apply map_eq_app in H || (symmetry in H; apply map_eq_app in H).
  destruct H as (l1 & l2 & -> & <- & _). exists l1. split; [now exists l2|reflexivity].
Qed.
Lemma initial_app {A} (tr l1 l2 : list A) : initial_part tr (l1 ++ l2) -> initial_part tr l1 \/ exists tr', tr = l1 ++ tr' /\ initial_part tr' l2.
Proof.
  intros (rest & H). revert tr H. induction l1 as [|a l1 IH]; intros tr H; cbn [app] in H.
  - right. exists tr. split; [reflexivity|]. now exists rest.
  - destruct tr as [|b tr]; [left; exists (a :: l1); reflexivity|]. cbn [app] in H. inversion H. subst b.
    destruct (IH tr) as [(r' & Hr)|(tr' & -> & Hr)]; [assumption|left; exists r'; now rewrite Hr|right; exists tr'; split; [reflexivity|exact Hr]].
Qed.
Lemma initial_refl {A} (l : list A) : initial_part l l.
Proof. exists []. now rewrite app_nil_r. Qed.
Lemma initial_trans {A} (a b c : list A) : initial_part a b -> initial_part b c -> initial_part a c.
Proof. intros (x & ->) (y & ->). exists (x ++ y). now rewrite app_assoc. Qed.

Lemma writes_prefix size n rows tr tr0 : writes size n rows tr -> initial_part tr0 tr -> writes size n rows tr0.
Proof.
  intros (how & bs & tail & -> & Hi & Hall & Ht) Hp. apply initial_app in Hp. destruct Hp as [Hp|(tr' & -> & Hp)].
  - apply initial_map in Hp. destruct Hp as (b1 & (b2 & ->) & ->). exists how, b1, []. rewrite app_nil_r. split; [reflexivity|].
    split; [|split; [apply Forall_app in Hall; apply Hall|now left]].
    eapply initial_trans; [|exact Hi]. rewrite concat_app. now exists (concat b2).
  - exists how, bs, tr'. split; [reflexivity|]. split; [exact Hi|]. split; [exact Hall|].
    destruct Ht as [->|(z & -> & Hz)].
    + left. destruct Hp as (x & Hx). symmetry in Hx. now apply app_eq_nil in Hx.
    + destruct Hp as (x & Hx). destruct tr' as [|e tr']; [now left|]. inversion Hx. subst e. right. exists z.
      destruct tr'; [tauto|]. discriminate.
Qed.
Lemma writes_all_part size n rows tr : writes_all size n rows tr -> writes size n rows tr.
Proof.
  intros (how & bs & tail & -> & <- & Hall & Ht). exists how, bs, tail. split; [reflexivity|]. split; [apply initial_refl|]. split; [exact Hall|].
  destruct Ht as [->|(z & ->)]; [now left|right; exists z; tauto].
Qed.
Lemma progress_prefix size l tr : progress size l tr -> forall tr0, initial_part tr0 tr -> progress size l tr0.
Proof.
  induction 1 as [l|n rows l tr Hw|n rows l tr tr' Hw _ IH]; intros tr0 Hp.
  - destruct Hp as (x & Hx). symmetry in Hx. apply app_eq_nil in Hx. destruct Hx as [-> _]. constructor.
  - apply progress_part. eapply writes_prefix; eassumption.
  - apply initial_app in Hp. destruct Hp as [Hp|(t2 & -> & Hp)].
    + apply progress_part. eapply writes_prefix; [apply writes_all_part; exact Hw|exact Hp].
    + apply progress_next; [exact Hw|now apply IH].
Qed.

(** ** What progress means for the rows written *)
Lemma batches_app tr1 tr2 n : batches (tr1 ++ tr2) n = batches tr1 n ++ batches tr2 n.
Proof. unfold batches. apply flat_map_app. Qed.
Lemma written_app tr1 tr2 n : written (tr1 ++ tr2) n = written tr1 n ++ written tr2 n.
Proof. unfold written. rewrite batches_app. apply concat_app. Qed.
Lemma batches_inserts n how bs : batches (map (EvInsert n how) bs) n = bs.
Proof. induction bs as [|b bs IH]; [reflexivity|]. unfold batches in *. cbn [map flat_map]. rewrite IH. destruct (eq_dec n n); [reflexivity|congruence]. Qed.
Lemma batches_other n n' how bs : n' <> n -> batches (map (EvInsert n how) bs) n' = [].
Proof. intros Hne. induction bs as [|b bs IH]; [reflexivity|]. unfold batches in *. cbn [map flat_map]. rewrite IH. destruct (eq_dec n n'); [congruence|reflexivity]. Qed.

Lemma writes_written size n rows tr : writes size n rows tr ->
  initial_part (written tr n) rows /\ Forall (fun b => b <> [] /\ length b <= size) (batches tr n) /\ forall n', n' <> n -> batches tr n' = [].
Proof.
  intros (how & bs & tail & -> & Hi & Hall & Ht).
  assert (Htail : forall n', batches tail n' = []) by (destruct Ht as [->|(z & -> & _)]; reflexivity).
  unfold written. rewrite batches_app, Htail, app_nil_r, batches_inserts. split; [exact Hi|]. split; [exact Hall|].
  intros n' Hne. rewrite batches_app, Htail, app_nil_r. now apply batches_other.
Qed.
Lemma writes_all_written size n rows tr : writes_all size n rows tr -> written tr n = rows.
Proof.
  intros (how & bs & tail & -> & <- & Hall & Ht).
  assert (Htail : forall n', batches tail n' = []) by (destruct Ht as [->|(z & ->)]; reflexivity).
  unfold written. rewrite batches_app, Htail, app_nil_r, batches_inserts. reflexivity.
Qed.

Lemma progress_written size l tr : progress size l tr -> NoDup (map fst l) ->
  (forall n, Forall (fun b => b <> [] /\ length b <= size) (batches tr n)) /\
  (forall n, ~ In n (map fst l) -> batches tr n = []) /\
  exists done_ rest, l = done_ ++ rest /\ (forall n rows, In (n, rows) done_ -> written tr n = rows) /\
    match rest with
    | [] => True
    | (n, rows) :: later => initial_part (written tr n) rows /\ forall n' rows', In (n', rows') later -> batches tr n' = []
    end.
Proof.
  induction 1 as [l|n rows l tr Hw|n rows l tr tr' Hw Hp IH]; intros Hn.
  - split; [constructor|]. split; [reflexivity|]. exists [], l. split; [reflexivity|]. split; [intros ? ? []|].
    destruct l as [|[n rows] l]; [exact I|]. split; [exists rows; reflexivity|reflexivity].
  - cbn [map fst] in Hn. apply NoDup_cons_iff in Hn. destruct Hn as [Hni Hn]. destruct (writes_written Hw) as (H1 & H2 & H3). split; [|split].
    + intros n'. destruct (eq_dec n' n) as [->|Hne]; [exact H2|rewrite (H3 n' Hne); constructor].
    + intros n' Hx. apply H3. intros ->. apply Hx. now left.
    + exists [], ((n, rows) :: l). split; [reflexivity|]. split; [intros ? ? []|]. split; [exact H1|].
      intros n' rows' Hin. apply H3. intros ->. apply Hni. apply in_map_iff. exists (n, rows'). tauto.
  - cbn [map fst] in Hn. apply NoDup_cons_iff in Hn. destruct Hn as [Hni Hn]. destruct (IH Hn) as (H1 & H2 & done_ & rest & -> & Hd & Hr).
    destruct (writes_written (writes_all_part Hw)) as (_ & H4 & H5). pose proof (writes_all_written Hw) as Hall.
    assert (Hother : forall n', n' <> n -> batches (tr ++ tr') n' = batches tr' n') by (intros n' Hne; rewrite batches_app, (H5 n' Hne); reflexivity).
    assert (Hw' : forall n', n' <> n -> written (tr ++ tr') n' = written tr' n') by (intros n' Hne; unfold written; now rewrite Hother).
    assert (Hne : forall n' rows', In (n', rows') (done_ ++ rest) -> n' <> n).
    { intros n' rows' Hin ->. apply Hni. apply in_map_iff. exists (n, rows'). tauto. }
    split; [|split].
    + intros n'. rewrite batches_app. apply Forall_app. split; [|apply H1]. destruct (eq_dec n' n) as [->|Hx]; [exact H4|rewrite (H5 n' Hx); constructor].
    + intros n' Hx. rewrite Hother; [apply H2; intros Hy; apply Hx; now right|intros ->; apply Hx; now left].
    + exists ((n, rows) :: done_), rest. split; [reflexivity|]. split.
      * intros n' rows' [He|Hin].
        -- inversion He. subst. rewrite written_app. unfold written at 2. rewrite (H2 n' Hni). cbn [concat]. now rewrite app_nil_r.
        -- rewrite Hw'; [now apply Hd|]. apply (Hne n' rows'). apply in_or_app. now left.
      * destruct rest as [|[n1 rows1] later]; [exact I|]. destruct Hr as [Hr1 Hr2]. split.
        -- rewrite Hw'; [exact Hr1|]. apply (Hne n1 rows1). apply in_or_app. right. now left.
        -- intros n' rows' Hin. rewrite Hother; [now apply (Hr2 n' rows')|]. apply (Hne n' rows'). apply in_or_app. right. now right.
Qed.

(** ** The loop over the tables *)
Section Copy.
Context {G : Type}.
Variable E : env G.
Variable cfg : sampler_config.
Variable p : plan.
Variables (ms : meta) (compact : dict tname (list string)) (st : tstate) (mults : dict string (list string)).
Variables (c : db_config) (o : db_output).
Notation transfer := (transfer E cfg p ms compact st mults c (ou_offsets o)).
Notation transfers := (transfers E cfg p ms compact st mults c (ou_offsets o)).
Hypothesis Hdist : forall t co, result_of E cfg p ms compact st t co -> NoDup (co_cols co).
Let size := S (en_buffer E).

Hypothesis Hmeta : meta_ok (ou_meta o).

Lemma copy_one_spec t g w w' r : In t (dkeys (p_queries p)) -> copy_one E cfg (OutDatabase c o) p ms compact st mults g t w = (w', r) ->
  exists tr, trace w' = trace w ++ tr /\
  (forall g', r = Ok g' -> exists n' rows, transfer true t g n' rows g' /\ In n' (dkeys (ou_meta o)) /\ writes_all size n' rows tr) /\
  (forall e, r = Err e -> tr = [] \/ exists n' rows g', transfer false t g n' rows g' /\ In n' (dkeys (ou_meta o)) /\ writes size n' rows tr).
Proof.
  intros Hin H. unfold copy_one in H.
  apply bind_io_inv in H. destruct H as [(w1 & co & H1 & H)|(e & H1 & ->)].
  2:{ apply lift_inv in H1. destruct H1 as [-> _]. exists []. rewrite app_nil_r. split; [reflexivity|]. split; [discriminate|now left]. }
  apply lift_inv in H1. destruct H1 as [-> Hco]. unfold of_samp in Hco.
  destruct (copy_table _ _ _ _ _ _ _ _ _ _ _ _ _ _) as [co'|] eqn:Hct; [|discriminate]. inv Hco.
  destruct co as [co|].
  2:{ exfalso. unfold copy_table in Hct. apply bind_Ok in Hct. destruct Hct as (n & _ & Hct). apply key_dget in Hin. destruct Hin as (q & Hq). rewrite Hq in Hct.
      apply bind_Ok in Hct. destruct Hct as (x & _ & Hx). discriminate. }
  apply bind_io_inv in H. destruct H as [(w1 & [chain cols] & H1 & H)|(e & H1 & ->)].
  2:{ apply lift_inv in H1. destruct H1 as [-> _]. exists []. rewrite app_nil_r. split; [reflexivity|]. split; [discriminate|now left]. }
  apply lift_inv in H1. destruct H1 as [-> Hch]. unfold of_filter in Hch.
  destruct (construct_chain _ _ _) as [x|] eqn:Hcc; [|discriminate]. inv Hch.
  cbn [output_result_set] in H.
  apply (database_output_spec Hcc) in H; [|apply Hdist with t; exact Hct|].
  2:{ intros x Hx. apply in_map_iff in Hx. destruct Hx as (y & <- & _). apply map_length. }
  destruct H as [((e & ->) & Htr)|H].
  { exists []. rewrite app_nil_r. split; [exact Htr|]. split; [discriminate|now left]. }
  destruct H as (n' & tm & l1 & l2 & outs & g1 & bs & tail & Hn' & Htm & Hincl & Heach & Hcop & Hinit & Hall & Htr & Htail & Hci & Hok).
  set (plain := plain_columns (en_computed E) n' cols) in *.
  set (how := match conflict_insert (oc_dialect c) (used_strategy c (p_passthrough p) (co_name co)) (tm_table tm) plain with Ok h => h | Err _ => Fail end).
  assert (Hmap : map (sent c (used_strategy c (p_passthrough p) (co_name co)) (tm_table tm) plain) bs = map (EvInsert n' how) (map (map (as_row plain)) bs)).
  { rewrite map_map. apply map_ext. intros b. unfold sent. fold how. f_equal. apply dget_In in Htm. exact (proj2 Hmeta _ _ Htm). }
  rewrite Hmap in Htr.
  assert (Hkey : In n' (dkeys (ou_meta o))) by (apply dget_In in Htm; apply in_map_iff; exists (n', tm); tauto).
  assert (Htrans : forall whole, (whole = true -> l2 = []) -> transfer whole t g n' (map (as_row plain) outs) g1).
  { intros whole Hw. exists co, chain, cols, l1, l2, outs. split; [exact Hct|]. split; [exact Hcc|]. split; [now apply remap_goes|].
    split; [exact Heach|]. split; [exact Hw|]. split; [exact Hcop|reflexivity]. }
  assert (Hall' : Forall (fun b => b <> [] /\ length b <= size) (map (map (as_row plain)) bs)).
  { apply Forall_map. eapply Forall_impl; [|exact Hall]. cbn beta. intros b [Hb Hl]. rewrite map_length. split; [|exact Hl].
    destruct b; [congruence|discriminate]. }
  exists (map (EvInsert n' how) (map (map (as_row plain)) bs) ++ tail). split; [exact Htr|]. split.
  - intros g' ->. destruct (Hok g' eq_refl) as (-> & Hcat & -> & _). exists n', (map (as_row plain) outs). split; [now apply Htrans|]. split; [exact Hkey|].
    exists how, (map (map (as_row plain)) bs), tail. split; [reflexivity|]. split; [rewrite <- Hcat; symmetry; apply concat_map|]. split; [exact Hall'|].
    destruct Htail as [->|(z & -> & _)]; eauto.
  - intros e _. right. exists n', (map (as_row plain) outs), g1. split; [apply Htrans; discriminate|]. split; [exact Hkey|].
    exists how, (map (map (as_row plain)) bs), tail. split; [reflexivity|].
    split. { destruct Hinit as (rest & ->). exists (map (as_row plain) rest). rewrite map_app, concat_map. reflexivity. }
    split; [exact Hall'|]. destruct Htail as [->|(z & -> & Hcat & _)]; [now left|]. right. exists z. split; [reflexivity|]. rewrite <- Hcat. symmetry. apply concat_map.
Qed.

Lemma copy_results_spec : forall order g w w' r, incl order (dkeys (p_queries p)) ->
  copy_results E cfg (OutDatabase c o) p ms compact st mults order g w = (w', r) ->
  exists l g' tr, trace w' = trace w ++ tr /\ transfers (succeeded r) order g l g' /\ progress size l tr /\
    (forall n, In n (map fst l) -> In n (dkeys (ou_meta o))) /\
    (forall g0, r = Ok g0 -> g0 = g' /\ forall n rows, In (n, rows) l -> NoDup (map fst l) -> written tr n = rows).
Proof.
  unfold copy_results. induction order as [|t order IH]; intros g w w' r Hincl H; cbn [for_io] in H.
  - inv H. exists [], g, []. rewrite app_nil_r. split; [reflexivity|]. split; [constructor|]. split; [constructor|]. split; [intros n []|]. intros g0 He. inv He. split; [reflexivity|intros n rows []].
  - apply bind_io_inv in H. destruct H as [(w1 & g1 & H1 & H)|(e & H1 & ->)].
    + apply copy_one_spec in H1; [|apply Hincl; now left]. destruct H1 as (tr1 & Htr1 & Hok & _). destruct (Hok g1 eq_refl) as (n' & rows & Hx & Hk & Hw).
      apply IH in H; [|intros x Hx'; apply Hincl; now right]. destruct H as (l & g' & tr & Htr & Hts & Hp & Hks & Hfin).
      exists ((n', rows) :: l), g', (tr1 ++ tr). split; [rewrite Htr, Htr1, app_assoc; reflexivity|]. split; [econstructor; eassumption|].
      split; [now apply progress_next|]. split; [intros n [<-|Hn]; [exact Hk|now apply Hks]|].
      intros g0 He. destruct (Hfin g0 He) as [-> Hf]. split; [reflexivity|]. intros n rows' Hin Hn. cbn [map fst] in Hn. apply NoDup_cons_iff in Hn. destruct Hn as [Hni Hn].
      rewrite written_app. destruct Hin as [He'|Hin].
      * inversion He'. subst. rewrite (writes_all_written Hw). destruct (progress_written Hp Hn) as (_ & Hno & _). unfold written. rewrite (Hno n Hni). cbn [concat]. apply app_nil_r.
      * destruct (writes_written (writes_all_part Hw)) as (_ & _ & Hoth). unfold written at 1. rewrite Hoth; [now apply Hf|].
        intros ->. apply Hni. apply in_map_iff. exists (n', rows'). tauto.
    + apply copy_one_spec in H1; [|apply Hincl; now left]. destruct H1 as (tr1 & Htr1 & _ & Herr). destruct (Herr e eq_refl) as [->|(n' & rows & g' & Hx & Hk & Hw)].
      * exists [], g, []. split; [exact Htr1|]. split; [constructor|]. split; [constructor|]. split; [intros n []|discriminate].
      * exists [(n', rows)], g', tr1. split; [exact Htr1|]. split; [now constructor|]. split; [now constructor|]. split; [intros n [<-|[]]; exact Hk|discriminate].
Qed.
End Copy.
