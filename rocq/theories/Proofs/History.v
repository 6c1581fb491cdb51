(** Proofs about histories of runs (C131, C132). *)
From Coq Require Import Lia.
From Verif Require Import Model.Base Model.Value Model.Names Model.PlanModel Model.Metadata Model.Planner Model.Filters Model.Output Model.Sampler.
From Verif Require Import Spec.GraphSpec Spec.SchemaSpec Spec.SqlSem Spec.PlannerSpec Spec.OutputSpec Spec.RunSpec Spec.SampleSpec Spec.MomentsSpec Spec.KeepSpec Spec.HistorySpec.
From Verif Require Import Proofs.BaseFacts Proofs.OutputMain Proofs.OutputEvents Proofs.OutputKeys Proofs.OutputMore Proofs.Repeat Proofs.KeepRun Proofs.Moments.
From Verif Require Import Model.Dest.
Set Implicit Arguments. Unset Strict Implicit.
Open Scope list_scope.

Lemma exec_tables dflt d e d' : exec dflt d e = Some d' -> incl (ds_tables d) (ds_tables d').
Proof.
  intros H. destruct e as [ts|m|m how rs|m v|q|q r]; cbn in H.
  - injection H as <-. cbn. apply incl_appl, incl_refl.
  - injection H as <-. apply incl_refl.
  - destruct (find_table _ m); [|discriminate]. destruct (insert_rows _ _ _ _ _); [|discriminate]. injection H as <-. apply incl_refl.
  - destruct (serial_table _ m) as [m'|]; [|discriminate]. injection H as <-. unfold set_seq. destruct (dmem _ _); apply incl_refl.
  - injection H as <-. apply incl_refl.
  - injection H as <-. apply incl_refl.
Qed.
Lemma replay_incl dflt d tr d' : replay dflt d tr d' -> incl (ds_tables d) (ds_tables d').
Proof. induction 1 as [d|d e d1 tr d2 Hx Hr IH]; [apply incl_refl|]. eapply incl_tran; [exact (exec_tables Hx)|exact IH]. Qed.
Lemma table_incl l l' n tb : incl l l' -> table_of l n tb -> table_of l' n tb.
Proof. intros Hi [H1 H2]. split; [exact (Hi _ H1)|exact H2]. Qed.
Lemma find_table_of ts n t : find_table ts n = Some t -> table_of ts n t.
Proof. unfold find_table. intros H. apply find_some in H. destruct H as [H1 H2]. split; [exact H1|]. apply (proj1 (eqb_true _ _)) in H2. exact H2. Qed.

(** Rows are rows of tables. *)
Definition stored (d : dest) : Prop := forall n, (forall tb, ~ table_of (ds_tables d) n tb) -> rows_of d n = [].
Lemma exec_stored dflt d e d' : exec dflt d e = Some d' -> stored d -> stored d'.
Proof.
  intros H Hs n Hn. assert (Ho : rows_of d n = []) by (apply Hs; intros tb Ht; exact (Hn tb (table_incl (exec_tables H) Ht))).
  destruct e as [ts|m|m how rs|m v|q|q r]; cbn in H.
  - injection H as <-. exact Ho.
  - injection H as <-. destruct (eq_dec n m) as [->|Hne]; [apply rows_with_same|rewrite rows_with_other by exact Hne; exact Ho].
  - destruct (find_table _ m) as [t|] eqn:Ef; [|discriminate]. destruct (insert_rows _ _ _ _ _) as [l|]; [|discriminate]. injection H as <-.
    destruct (eq_dec n m) as [->|Hne]; [elim (Hn t); exact (find_table_of Ef)|rewrite rows_with_other by exact Hne; exact Ho].
  - destruct (serial_table _ m) as [m'|]; [|discriminate]. injection H as <-. unfold rows_of. rewrite (proj1 (proj2 (set_seq_same d m' v))). exact Ho.
  - injection H as <-. exact Ho.
  - injection H as <-. exact Ho.
Qed.
Lemma replay_stored dflt d tr d' : replay dflt d tr d' -> stored d -> stored d'.
Proof. induction 1 as [d|d e d1 tr d2 Hx Hr IH]; [auto|]. intros H. exact (IH (exec_stored Hx H)). Qed.

Lemma respecting_keeps cmpf d d' : respecting cmpf d d' -> consistent cmpf d -> consistent cmpf d'.
Proof.
  intros H. destruct H as [G E cfg c p pcfg truncate create g d w' r d' <- Hg Hs Hr Hm|d d' H]; [|exact H]. intros [Hk Hst].
  destruct Hm as (tr & Hi & Hrep).
  assert (Hok : run_ok E cfg c p d) by (destruct Hg as (_ & _ & Hok & _); exact Hok).
  split; [|exact (replay_stored Hrep Hst)]. intros n tb fk Ht Hf.
  assert (Ht' : table_of (ds_tables (w_dest w')) n tb).
  { assert (Hfull : replay (en_dflt E) d (trace w') (w_dest w')) by exact (run_replay (w := mkWorld d []) eq_refl Hs).
    destruct Hi as (rest & Hi). rewrite Hi in Hfull. apply replay_inv_app in Hfull. destruct Hfull as (d1 & R1 & R2). rewrite (replay_fun Hrep R1) in Ht. exact (table_incl (replay_incl R2) Ht). }
  refine (moment_fk Hg Hs Ht' Hf (Hr n tb fk Ht' Hf) _ (ex_intro _ tr (conj Hi Hrep))). cbn [w_dest].
  destruct (in_dec eq_dec n (map tb_name (ds_tables d))) as [Hin|Hin].
  - apply in_map_iff in Hin. destruct Hin as (tb0 & Hn0 & Hin).
    assert (Hfull : replay (en_dflt E) d (trace w') (w_dest w')) by exact (run_replay (w := mkWorld d []) eq_refl Hs).
    assert (tb0 = tb) as -> by exact (OutputDb.table_of_fun (tables_distinct (w := mkWorld d []) Hok eq_refl Hs) (table_incl (replay_incl Hfull) (conj Hin Hn0)) Ht').
    exact (Hk n tb fk (conj Hin Hn0) Hf).
  - rewrite (Hst n); [apply fk_none|]. intros tb0 [A B]. apply Hin. rewrite <- B. apply in_map. exact A.
Qed.
Theorem history_consistent cmpf d d' : history (respecting cmpf) d d' -> consistent cmpf d -> consistent cmpf d'.
Proof. intros H Hc. induction H as [|d1 d2 H IH Hs]; [exact Hc|exact (respecting_keeps Hs IH)]. Qed.

(** Nothing is lost. *)
Lemma adding_keeps d d' n : adding d d' -> initial_part (rows_of d n) (rows_of d' n).
Proof.
  intros H. destruct H as [G E cfg p create g d w' r d' Hr Hs (tr & Hi & Hrep)|d d' H]; [|exact (H n)].
  destruct (@sample_does G E cfg p false create g _ _ _ Hs) as [(tr' & Htr & _ & Hall) _]. cbn in Htr. destruct Hi as (rest & Hi).
  assert (Hadd : added_to False (rows_of d n) (rows_of d' n)).
  { refine (replay_added Hrep _ n). intros e He. rewrite Forall_forall in Hall. specialize (Hall e). rewrite <- Htr, Hi in Hall. specialize (Hall (in_or_app _ _ _ (or_introl He))).
    destruct e as [ts|m|m how rs|m v|q|q r0]; try exact I; cbn in Hall; [discriminate|]. intros Ho. destruct (sc_output cfg) as [dir|c] eqn:Eo; [elim Hall|].
    destruct how; try (elim Ho; fail). exact (Hr c eq_refl Hall). }
  destruct Hadd as (kept & more & Hn & _ & Hk). rewrite (Hk (fun F => F)) in Hn. exists more. exact Hn.
Qed.
Theorem history_adds d d' n : history adding d d' -> initial_part (rows_of d n) (rows_of d' n).
Proof.
  intros H. induction H as [|d1 d2 H (l1 & E1) Hs]; [exists []; now rewrite app_nil_r|]. destruct (adding_keeps n Hs) as (l2 & E2). exists (l1 ++ l2). now rewrite E2, E1, app_assoc.
Qed.

(** Numbers. *)
Section Numbers.
Variable dflt : tname -> string -> list row -> row -> value.
Variable k : string.
Notation key := (fun r : row => rget r k).
Lemma complete_int t l r z : In k (tb_cols t) -> rget r k = VInt z -> rget (complete dflt t l r) k = VInt z.
Proof.
  unfold complete. intros Hin Hr. generalize (tb_cols t), Hin. intros cols. clear Hin. induction cols as [|c cols IH]; intros Hin; [elim Hin|]. cbn [map].
  unfold rget, dget_or in *. cbn [dget]. destruct (eq_dec k c) as [<-|Hne].
  - destruct (dget r k); [exact Hr|discriminate].
  - destruct Hin as [Hc|Hin]; [congruence|]. exact (IH Hin).
Qed.
Definition int_keys (l : list row) : Prop := forall r, In r l -> exists z, rget r k = VInt z.
Definition part_of_keys (more rs : list row) : Prop := int_keys more /\ (NoDup (map key rs) -> NoDup (map key more)) /\ incl (map key more) (map key rs).
Lemma part_nil rs : part_of_keys [] rs.
Proof. split; [intros r []|]. split; [intros _; constructor|intros x []]. Qed.
Lemma part_app m1 m2 r1 r2 : part_of_keys m1 r1 -> part_of_keys m2 r2 -> part_of_keys (m1 ++ m2) (r1 ++ r2).
Proof.
  intros (A1 & B1 & C1) (A2 & B2 & C2). split; [|split].
  - intros r Hr. apply in_app_or in Hr. destruct Hr as [Hr|Hr]; [exact (A1 r Hr)|exact (A2 r Hr)].
  - rewrite !map_app. intros Hn. apply NoDup_app_iff in Hn. destruct Hn as (N1 & N2 & N3). apply NoDup_app_iff. split; [exact (B1 N1)|]. split; [exact (B2 N2)|].
    intros x Hx Hx'. exact (N3 x (C1 x Hx) (C2 x Hx')).
  - rewrite !map_app. apply incl_app; [apply incl_appl; exact C1|apply incl_appr; exact C2].
Qed.
Lemma insert_part t how : ~ overwrites how -> In k (tb_cols t) -> forall rs l l', insert_rows dflt t how l rs = Some l' -> int_keys rs ->
  exists more, l' = l ++ more /\ part_of_keys more rs.
Proof.
  intros Ho Hk. induction rs as [|r rs IH]; intros l l' H Hi; cbn [insert_rows] in H; [injection H as <-; exists []; split; [now rewrite app_nil_r|apply part_nil]|].
  destruct (insert_row t how l (complete dflt t l r)) as [l1|] eqn:E1; [|discriminate]. destruct (IH _ _ H (fun r' Hr' => Hi r' (or_intror Hr'))) as (m2 & E2 & P2).
  assert (H1 : exists m1, l1 = l ++ m1 /\ part_of_keys m1 [r]).
  { destruct (Hi r (or_introl eq_refl)) as (z & Hz).
    assert (Hadd : part_of_keys [complete dflt t l r] [r]).
    { split; [intros r' [<-|[]]; exists z; exact (complete_int l Hk Hz)|]. cbn. rewrite (complete_int l Hk Hz), Hz. split; [auto|apply incl_refl]. }
    unfold insert_row in E1. destruct how as [| |any cs]; [| |elim Ho; exact I]; destruct (existsb _ _); try discriminate; injection E1 as <-;
      first [exists []; split; [now rewrite app_nil_r|apply part_nil]|exists [complete dflt t l r]; split; [reflexivity|exact Hadd]]. }
  destruct H1 as (m1 & -> & P1). exists (m1 ++ m2). split; [rewrite E2; now rewrite app_assoc|]. exact (part_app P1 P2).
Qed.
Lemma replay_part n tr : forall d d', replay dflt d tr d' ->
  (forall e, In e tr -> match e with EvDelete _ => False | EvInsert _ how _ => ~ overwrites how | _ => True end) ->
  (forall tb, table_of (ds_tables d') n tb -> In k (tb_cols tb)) -> int_keys (written tr n) -> exists more, rows_of d' n = rows_of d n ++ more /\ part_of_keys more (written tr n).
Proof.
  induction tr as [|e tr IH]; intros d d' Hr He Hk Hi; inversion Hr as [|d0 e0 d1 tr0 d2 Hx Hr']; subst; [exists []; split; [now rewrite app_nil_r|apply part_nil]|].
  assert (Hw : written (e :: tr) n = written [e] n ++ written tr n) by (unfold written, batches; cbn [flat_map]; rewrite app_nil_r, concat_app; reflexivity).
  rewrite Hw in *.
  destruct (IH _ _ Hr' (fun e' Hin => He e' (or_intror Hin)) Hk (fun r Hin => Hi r (in_or_app _ _ _ (or_intror Hin)))) as (m2 & E2 & P2).
  assert (H1 : exists m1, rows_of d1 n = rows_of d n ++ m1 /\ part_of_keys m1 (written [e] n)).
  { specialize (He e (or_introl eq_refl)). assert (Hsame : rows_of d1 n = rows_of d n -> exists m1, rows_of d1 n = rows_of d n ++ m1 /\ part_of_keys m1 (written [e] n))
      by (intros ->; exists []; split; [now rewrite app_nil_r|apply part_nil]).
    destruct e as [ts|m|m how rs|m v|q|q r]; cbn in Hx; try (elim He; fail); try (injection Hx as <-; apply Hsame; reflexivity).
    - destruct (find_table _ m) as [t|] eqn:Ef; [|discriminate]. destruct (insert_rows dflt t how (rows_of d m) rs) as [l|] eqn:Ei; [|discriminate]. injection Hx as <-.
      destruct (eq_dec n m) as [<-|Hne]; [|apply Hsame; rewrite rows_with_other by exact Hne; reflexivity]. rewrite rows_with_same.
      assert (Hwr : written [EvInsert n how rs] n = rs) by (unfold written, batches; cbn; destruct (eq_dec n n); [cbn; now rewrite app_nil_r|congruence]). rewrite Hwr in *.
      refine (insert_part He _ Ei (fun r Hin => Hi r (in_or_app _ _ _ (or_introl Hin)))). apply Hk. apply find_table_of in Ef.
      refine (table_incl (replay_incl Hr') _). exact Ef.
    - destruct (serial_table _ m) as [m'|]; [|discriminate]. injection Hx as <-. apply Hsame. unfold rows_of. rewrite (proj1 (proj2 (set_seq_same d m' v))). reflexivity. }
  destruct H1 as (m1 & E1 & P1). exists (m1 ++ m2). split; [rewrite E2, E1; now rewrite app_assoc|exact (part_app P1 P2)].
Qed.
End Numbers.
Lemma written_app tr tr' n : written (tr ++ tr') n = written tr n ++ written tr' n.
Proof. unfold written, batches. rewrite flat_map_app, concat_app. reflexivity. Qed.
Lemma numbered_refl k l : numbered_on k l l.
Proof. exists []. split; [now rewrite app_nil_r|]. split; [constructor|intros r []]. Qed.
Lemma numbered_trans k a b c : numbered_on k a b -> numbered_on k b c -> numbered_on k a c.
Proof.
  intros (m1 & -> & N1 & H1) (m2 & -> & N2 & H2). exists (m1 ++ m2). split; [now rewrite app_assoc|]. split.
  - rewrite map_app. apply NoDup_app_iff. split; [exact N1|]. split; [exact N2|]. intros x Hx Hx'. apply in_map_iff in Hx, Hx'. destruct Hx as (r & <- & Hr), Hx' as (r' & Eq & Hr').
    destruct (H1 r Hr) as (z & Hz & _), (H2 r' Hr') as (z' & Hz' & Hlt). specialize (Hlt r z (in_or_app _ _ _ (or_intror Hr)) Hz). rewrite Hz, Hz' in Eq. injection Eq as ->. lia.
  - intros r Hr. apply in_app_or in Hr. destruct Hr as [Hr|Hr]; [exact (H1 r Hr)|]. destruct (H2 r Hr) as (z & Hz & Hlt). exists z. split; [exact Hz|].
    intros r' y Hr' Hy. exact (Hlt r' y (in_or_app _ _ _ (or_introl Hr')) Hy).
Qed.
Lemma numbering_numbers n' k d d' : numbering n' k d d' -> numbered_on k (rows_of d n') (rows_of d' n').
Proof.
  intros H. destruct H as [G E cfg c p create g d w' r d' t n Hok Hnd Hm Hrep Hs Ht Hp Hn Hb Hk Hc Hpl Hpr Hfk (tr & Hi & Hre)|d d' H]; [|exact H].
  destruct (merge_fresh_consistent (w := mkWorld d []) Hok eq_refl Hnd Hm Hs Ht Hp Hn Hb Hk Hpl Hpr) as (d0 & Hd0 & Hgt & Hnw).
  { intros d1 fk nd' kd row y Hd1 F1 F2 F3 F4 Hin Hy. assert (Hsame := fun n => untruncated_starts (w := mkWorld d []) Hok eq_refl n Hs Hd1). cbn [w_dest] in Hsame.
    rewrite Hsame in Hin. destruct (Hfk fk nd' kd row y F1 F2 F3 F4 Hin Hy) as (row' & R1 & R2). exists row'. rewrite Hsame. auto. }
  assert (Hold := untruncated_starts (w := mkWorld d []) Hok eq_refl n' Hs Hd0). cbn [w_dest] in Hold. rewrite Hold in Hgt.
  destruct (@sample_does G E cfg p false create g _ _ _ Hs) as [(tr' & Htr & _ & Hall) _]. cbn in Htr. destruct Hi as (rest & Hi). rewrite Hi in *. rewrite written_app in Hgt, Hnw.
  destruct (@replay_part (en_dflt E) k n' tr d d' Hre) as (more & Hmore & P1 & P2 & P3).
  - intros e He. rewrite Forall_forall in Hall. specialize (Hall e). rewrite <- Htr in Hall. specialize (Hall (in_or_app _ _ _ (or_introl He))).
    destruct e as [ts|m|m how rs|m v|q|q r0]; try exact I; cbn in Hall; [discriminate|]. intros Ho. rewrite (ro_output Hok) in Hall. destruct how; try (elim Ho; fail). exact (Hrep Hall).
  - intros tb Htb. apply Hc. assert (Hfull : replay (en_dflt E) d (trace w') (w_dest w')) by exact (run_replay (w := mkWorld d []) eq_refl Hs).
    rewrite Hi in Hfull. apply replay_inv_app in Hfull. destruct Hfull as (d1 & R1 & R2). rewrite (replay_fun Hre R1) in Htb. exact (table_incl (replay_incl R2) Htb).
  - intros r0 Hr0. destruct (Hgt r0 (in_or_app _ _ _ (or_introl Hr0))) as (z & Hz & _). eauto.
  - exists more. split; [exact Hmore|]. split; [apply P2; rewrite map_app in Hnw; apply NoDup_app_iff in Hnw; exact (proj1 Hnw)|].
    intros r0 Hr0. destruct (P1 r0 Hr0) as (z & Hz). exists z. split; [exact Hz|].
    assert (Hin := P3 _ (in_map (fun r => rget r k) _ _ Hr0)). apply in_map_iff in Hin. destruct Hin as (r1 & Hr1 & Hin). destruct (Hgt r1 (in_or_app _ _ _ (or_introl Hin))) as (z1 & Hz1 & Hlt).
    rewrite Hz1, Hz in Hr1. injection Hr1 as <-. exact Hlt.
Qed.
Theorem history_numbers n' k d d' : history (numbering n' k) d d' -> numbered_on k (rows_of d n') (rows_of d' n').
Proof. intros H. induction H as [|d1 d2 H IH Hs]; [apply numbered_refl|exact (numbered_trans IH (numbering_numbers Hs))]. Qed.
