(** Runs that are repeated into the tables they have filled. *)
From Coq Require Import Lia Relations.
From Verif Require Import Model.Base Model.Value Model.Names Model.PlanModel Model.SqlAlgebra Model.Metadata Model.Planner Model.Filters Model.Multiply Model.Materialize Model.Dest Model.Output Model.Sampler.
From Verif Require Import Spec.GraphSpec Spec.SchemaSpec Spec.FilterSpec Spec.OutputSpec Spec.RunSpec Spec.RerunSpec Spec.ConflictSpec Spec.WholeSpec Spec.CopiesSpec Spec.RepeatSpec.
From Verif Require Import Proofs.BaseFacts Proofs.NameFacts Proofs.MetadataFacts Proofs.PlanRun Proofs.OutputRows Proofs.OutputDb Proofs.OutputCreate Proofs.OutputRun Proofs.OutputCopy Proofs.OutputSample Proofs.OutputMain
  Proofs.OutputColumn Proofs.OutputMerge Proofs.OutputKeys Proofs.OutputEvents Proofs.ConflictFacts Proofs.OutputMore Proofs.OutputRerun Proofs.WholeRun Proofs.WholeFk Proofs.WholeCopies Proofs.CopiesInsert Proofs.FilterFacts Proofs.RepeatRows.
From Verif Require Import Model.Dest.
Set Implicit Arguments.
Unset Strict Implicit.
Open Scope list_scope.

Section Run.
Context {G : Type}.
Variables (E : env G) (cfg : sampler_config) (p : plan) (c : db_config) (w : world).
Notation queries := (dkeys (p_queries p)).
Notation to := (lands (en_resub E) (oc_remap c)).
Hypothesis Hok : run_ok E cfg c p (w_dest w).
Hypothesis Hnil : trace w = [].

Lemma no_delete create g w' r n : sample E cfg p false create g w = (w', r) -> ~ In (EvDelete n) (trace w').
Proof.
  intros Hs Hin. destruct (run_trace Hok Hnil Hs) as (ts & dn & tw & d1 & d2 & o1 & Htr1 & Hi & _ & _ & _ & _ & Hrest).
  assert (Hdn : In (EvDelete n) (map EvDelete dn ++ tw)).
  { destruct Htr1 as [[Htr1 _]|Htr1]; rewrite Htr1 in Hin; [exact Hin|]. destruct Hin as [F|Hin]; [discriminate|exact Hin]. }
  assert (Hne : map EvDelete dn ++ tw <> []) by (intros F; rewrite F in Hdn; elim Hdn). destruct (Hrest (or_introl Hne)) as (_ & del & l2 & Edel & Hdel & _).
  unfold deletes in Hdel. rewrite Edel in Hdel. apply app_eq_nil in Hdel. destruct Hdel as [-> _]. cbn in Hdn. rewrite Forall_forall in Hi. exact (Hi _ Hdn).
Qed.
(** Without truncation copying starts with the rows that were there, however the run ends. *)
Lemma untruncated_starts create g w' r d n : sample E cfg p false create g w = (w', r) -> copying_starts E w w' d -> rows_of d n = rows_of (w_dest w) n.
Proof.
  intros Hs (pre & post & Htr & Hpre & Hpost & Hrep). apply (replay_keeps Hrep). intros e He. specialize (Hpre e He). destruct e as [ts|n0|n0 how rows|n0 z|pa|pa r0]; cbn in Hpre; try contradiction; [exact I|].
  intros _. apply (no_delete Hs (n := n0)). rewrite Htr. apply in_or_app. now left.
Qed.
Lemma untruncated_cases create g w' r n : sample E cfg p false create g w = (w', r) ->
  rows_of (w_dest w') n = rows_of (w_dest w) n \/ exists t, In t queries /\ to t n.
Proof.
  intros Hs. destruct (batches (trace w') n) as [|b bs] eqn:Eb.
  - left. apply (replay_keeps (run_replay Hnil Hs)). intros e He. destruct e as [ts|n0|n0 how rows|n0 z|pa|pa r0]; try exact I; [elim (no_delete Hs He)|]. intros ->.
    assert (F : In rows (batches (trace w') n)); [|rewrite Eb in F; elim F]. apply in_flat_map. eexists. split; [exact He|]. cbn. destruct (eq_dec n n); [now left|congruence].
  - right. assert (Hb : In b (batches (trace w') n)) by (rewrite Eb; now left). apply in_flat_map in Hb. destruct Hb as (e & He & Hb).
    destruct (run_events Hok Hnil Hs) as [(cf & Hev) _]. rewrite Forall_forall in Hev. specialize (Hev e He).
    destruct e as [ts|n0|n0 how rows|n0 z|pa|pa r0]; try (elim Hb). destruct (eq_dec n0 n) as [->|]; [|elim Hb]. destruct Hev as (t & tb & Ht & Hto & _). eauto.
Qed.
End Run.

Lemma computed_fun {G} (E : env G) cfg p ms ms' compact compact' st st' mults mults' : computed_by E cfg p ms compact st mults -> computed_by E cfg p ms' compact' st' mults' ->
  ms' = ms /\ compact' = compact /\ st' = st /\ mults' = mults.
Proof.
  intros (A & B & C & D) (A' & B' & C' & D'). rewrite A in A'. injection A' as <-. rewrite B in B'. injection B' as <-. rewrite C in C'. injection C' as <-. rewrite D in D'. injection D' as <-. auto.
Qed.

Section Twice.
Context {G : Type}.
Variables (E : env G) (cfg : sampler_config) (p : plan) (c : db_config).
Notation queries := (dkeys (p_queries p)).
Notation to := (lands (en_resub E) (oc_remap c)).
Notation schema w := (ds_tables (w_dest w)).
Variables (accepts : dest -> event -> bool) (currval : tname -> option Z).
Notation E2 := (later E accepts currval).
Variables (truncate create1 create2 : bool) (g1 g1' g2 : G) (w1 w1' w2 w2' : world) (r2 : res out_exn G).
Hypothesis Hok1 : run_ok E cfg c p (w_dest w1).
Hypothesis Hnil1 : trace w1 = [].
Hypothesis Hs1 : sample E cfg p truncate create1 g1 w1 = (w1', Ok g1').
Hypothesis Hok2 : run_ok E cfg c p (w_dest w2).
Hypothesis Hnil2 : trace w2 = [].
Hypothesis Hs2 : sample E2 cfg p false create2 g2 w2 = (w2', r2).
Hypothesis Hq : NoDup queries.
Variables (t : string) (n' : tname) (tb : table).
Hypothesis Ht : In t queries.
Hypothesis Hto : to t n'.
Hypothesis Htb1 : table_of (schema w1') n' tb.
Hypothesis Htb2 : table_of (schema w2) n' tb.
Hypothesis Hns : not_shifted c p t.

Lemma ok2 : run_ok E2 cfg c p (w_dest w2).
Proof. destruct Hok2 as [A B C D F H]. constructor; assumption. Qed.
Lemma table_later : table_of (schema w2') n' tb.
Proof.
  destruct (run_trace ok2 Hnil2 Hs2) as (ts & dn & tw & d1 & d2 & o1 & _ & _ & Hdb & _). rewrite Hdb. destruct Htb2 as [A B]. split; [apply in_or_app; now left|exact B].
Qed.

(** Each row of the second run is one of the first, in the columns that are not changed. *)
Lemma same_rows x2 : In x2 (written (trace w2') n') ->
  exists x1, In x1 (written (trace w1') n') /\ forall k, plain_column E cfg p t n' k -> In k (dkeys x1) /\ In k (dkeys x2) /\ rget x1 k = rget x2 k.
Proof.
  intros Hx. assert (Hbeg2 : began w2' r2).
  { left. unfold written, batches in Hx. apply in_concat in Hx. destruct Hx as (b & Hb & _). apply in_flat_map in Hb. destruct Hb as (e & He & Hb). exists e. split; [exact He|]. destruct e; cbn; tauto. }
  assert (Hbeg1 : began w1' (Ok g1' : res out_exn G)) by (right; eauto).
  destruct (run_given Hok1 Hnil1 Hs1 Hbeg1) as (ms & compact & st & mults & offs1 & Hcw1 & Hinj1 & _ & Hg1).
  destruct (run_given ok2 Hnil2 Hs2 Hbeg2) as (ms2 & compact2 & st2 & mults2 & offs2 & Hcw2 & Hinj2 & Hg2 & _).
  destruct (Hg1 t n' tb Ht Hto Htb1 (or_introl (ex_intro _ g1' eq_refl))) as (co & Hres1 & HF1).
  assert (Hne : written (trace w2') n' <> []) by (intros F; rewrite F in Hx; elim Hx).
  destruct (Hg2 t n' Ht Hto Hne) as (co2 & Hres2 & l1 & l2 & Hec & HF2).
  destruct (computed_fun (proj1 Hcw1) (proj1 Hcw2 : computed_by E cfg p ms2 compact2 st2 mults2)) as (-> & -> & -> & ->).
  assert (co2 = co) by exact (result_fun Hres2 Hres1). subst co2.
  assert (Hoff : forall k, off offs1 n' k = None /\ off offs2 n' k = None).
  { intros k. destruct (oc_merge c) eqn:Em.
    - pose proof Hto as (n & Hn & Hg). specialize (Hns Em). split.
      + apply (stays_off Hok1 Hq Hinj1 Hcw1 Em Ht Hn Hg). exists tb. split; [exact Htb1|now left].
      + apply (stays_off ok2 Hq Hinj2 Hcw2 Em Ht Hn Hg). exists tb. split; [exact table_later|now left].
    - destruct Hcw1 as (_ & H1 & _), Hcw2 as (_ & H2 & _). rewrite (H1 Em), (H2 Em). split; reflexivity. }
  destruct (Forall2_In_r HF2 Hx) as (ri & Hri & H2). assert (Hri1 : In ri (each_copy (times cfg mults t) (co_rows co))) by (rewrite Hec; apply in_or_app; now left).
  destruct (Forall2_In_l HF1 Hri1) as (x1 & Hx1 & H1). exists x1. split; [exact Hx1|]. intros k (Hk & Hf & Hcomp). specialize (Hk _ _ _ _ _ (proj1 Hcw1) Hres1).
  destruct (H1 k Hk (conj Hf Hcomp)) as [K1 V1]. destruct (H2 k Hk (conj Hf Hcomp)) as [K2 V2]. split; [exact K1|]. split; [exact K2|].
  destruct (Hoff k) as [O1 O2]. rewrite (copy_value_off _ _ _ _ O1) in V1. rewrite (copy_value_off _ _ _ _ O2) in V2. congruence.
Qed.

(** C109: rows with existing keys are left out *)
Theorem repeated_skip : strategy_of c p t = SSkip -> plain_keys E cfg p t n' tb -> key_given tb (rows_of (w_dest w1') n') ->
  (forall r, In r (rows_of (w_dest w1') n') -> In r (rows_of (w_dest w2) n')) -> rows_of (w_dest w2') n' = rows_of (w_dest w2) n'.
Proof.
  intros Hst Hpl (Hpk & Hnn) Hstill. destruct (table_run ok2 Hnil2 Hs2 Ht Hto table_later) as (d2 & Hd2 & R2). rewrite (untruncated_starts ok2 Hnil2 n' Hs2 Hd2) in R2.
  destruct R2 as [(_ & R2)|(how2 & cols2 & I2 & _ & Ic2 & K2 & R2)]; [exact R2|].
  destruct (written (trace w2') n') as [|row rows] eqn:Ew; [cbn in R2; congruence|]. rewrite <- Ew in K2, R2.
  assert (Hskip : forall cols how, conflict_insert (oc_dialect c) (strategy_of c p t) tb cols = Ok how -> how = LeaveOut).
  { intros cols how Hc. rewrite Hst in Hc. unfold conflict_insert in Hc. destruct (is_nil (tb_pk tb)) eqn:En; [destruct (tb_pk tb); [congruence|discriminate]|].
    apply bind_Ok in Hc. destruct Hc as ([s np] & Hx & Hy). apply bind_Ok in Hx. destruct Hx as (u & _ & Hx). injection Hx as <- <-. destruct (oc_dialect c); try discriminate; now injection Hy as <-. }
  rewrite (Hskip _ _ I2) in R2. change (en_dflt E2) with (en_dflt E) in R2.
  destruct (table_run Hok1 Hnil1 Hs1 Ht Hto Htb1) as (d1 & _ & R1).
  rewrite left_out_same in R2; [congruence|]. intros x2 l0 Hx2. destruct (same_rows Hx2) as (x1 & Hx1 & Heq).
  destruct R1 as [(W1 & _)|(how1 & cols1 & I1 & _ & Ic1 & K1 & R1)]; [rewrite W1 in Hx1; elim Hx1|]. rewrite (Hskip _ _ I1) in R1.
  destruct (left_out_covers Hpk R1 Hnn Hx1) as (l1 & r & Hr & Hc). exists r. split; [exact (Hstill r Hr)|].
  rewrite <- Hc. apply clashes_cong. intros key k Hkey Hk. destruct (Heq k (Hpl key k Hkey Hk)) as (D1 & D2 & V). rewrite (K1 x1 Hx1) in D1. rewrite (K2 x2 Hx2) in D2.
  rewrite (complete_get (en_dflt E) Ic1 l1 (K1 x1 Hx1) D1), (complete_get (en_dflt E) Ic2 l0 (K2 x2 Hx2) D2). symmetry. exact V.
Qed.

(** ... or replaced *)
Theorem repeated_replace : strategy_of c p t = SReplace -> tb_uniques tb = [] -> plain_keys E cfg p t n' tb ->
  key_given tb (written (trace w1') n') -> one_row_each tb (written (trace w1') n') -> keys_unique tb (rows_of (w_dest w2) n') ->
  (forall r, In r (rows_of (w_dest w1') n') -> In r (rows_of (w_dest w2) n')) ->
  Forall2 (fun r r' => forall k, plain_column E cfg p t n' k -> rget r k = rget r' k) (rows_of (w_dest w2) n') (rows_of (w_dest w2') n').
Proof.
  intros Hst Hun Hpl (Hpk & Hnn) Hd Hu Hstill. destruct (table_run ok2 Hnil2 Hs2 Ht Hto table_later) as (d2 & Hd2 & R2). rewrite (untruncated_starts ok2 Hnil2 n' Hs2 Hd2) in R2.
  assert (Hrefl : forall l, Forall2 (alike (plain_column E cfg p t n')) l l) by (induction l; constructor; [intros k _; reflexivity|assumption]).
  destruct R2 as [(_ & R2)|(how2 & cols2 & I2 & _ & Ic2 & K2 & R2)]; [rewrite R2; apply Hrefl|]. rewrite Hst in I2. change (en_dflt E2) with (en_dflt E) in R2.
  destruct (table_run Hok1 Hnil1 Hs1 Ht Hto Htb1) as (d1 & _ & R1).
  assert (Hkp : forall k, In k (tb_pk tb) -> plain_column E cfg p t n' k) by (intros k; apply Hpl; now left).
  apply (replace_same (dflt := en_dflt E) I2 Ic2 Hpk Hun Hkp (rs := written (trace w2') n') (l := rows_of (w_dest w2) n')); [|exact Hu|apply Hrefl|exact R2].
  intros x2 Hx2. split; [exact (K2 x2 Hx2)|]. destruct (same_rows Hx2) as (x1 & Hx1 & Heq).
  assert (Ekey : map (rget x2) (tb_pk tb) = map (rget x1) (tb_pk tb)) by (apply map_rget; intros k Hk; symmetry; exact (proj2 (proj2 (Heq k (Hkp k Hk))))).
  assert (Hproper : forall x, In x (written (trace w1') n') -> proper (map (rget x) (tb_pk tb))).
  { intros x Hx F. apply in_map_iff in F. destruct F as (k & Hv & Hk). exact (Hnn x k Hx Hk Hv). }
  split; [rewrite Ekey; exact (Hproper x1 Hx1)|].
  destruct R1 as [(W1 & _)|(how1 & cols1 & I1 & _ & Ic1 & K1 & R1)]; [rewrite W1 in Hx1; elim Hx1|]. rewrite Hst in I1.
  destruct (replace_covers I1 Ic1 Hpk Hun (fun x Hx => conj (K1 x Hx) (Hproper x Hx)) Hd R1) as [A _]. destruct (A x1 Hx1) as (o & Ho & Hg). exists o. split; [exact (Hstill o Ho)|].
  intros k Hk. destruct (Heq k Hk) as (D1 & D2 & V). rewrite (K1 x1 Hx1) in D1. rewrite (K2 x2 Hx2) in D2. split; [exact D2|]. rewrite (Hg k D1). exact V.
Qed.
End Twice.

(** The whole run *)
Theorem repeated_skip_run {G} (E : env G) cfg p c accepts currval truncate create1 create2 g1 g1' g2 w1 w1' w2 w2' r2 :
  run_ok E cfg c p (w_dest w1) -> trace w1 = [] -> sample E cfg p truncate create1 g1 w1 = (w1', Ok g1') ->
  run_ok E cfg c p (w_dest w2) -> trace w2 = [] -> sample (later E accepts currval) cfg p false create2 g2 w2 = (w2', r2) -> NoDup (dkeys (p_queries p)) ->
  oc_strategy c = SSkip -> oc_merge c = false -> ds_tables (w_dest w2) = ds_tables (w_dest w1') ->
  (forall n tb, table_of (ds_tables (w_dest w1')) n tb -> forall r, In r (rows_of (w_dest w1') n) -> In r (rows_of (w_dest w2) n)) ->
  (forall t n tb, In t (dkeys (p_queries p)) -> lands (en_resub E) (oc_remap c) t n -> table_of (ds_tables (w_dest w1')) n tb -> plain_keys E cfg p t n tb /\ key_given tb (rows_of (w_dest w1') n)) ->
  forall n tb, table_of (ds_tables (w_dest w1')) n tb -> rows_of (w_dest w2') n = rows_of (w_dest w2) n.
Proof.
  intros Hok1 Hnil1 Hs1 Hok2 Hnil2 Hs2 Hq Hst Hm Hsch Hstill Hall n tb Htb.
  assert (Hok2' : run_ok (later E accepts currval) cfg c p (w_dest w2)) by (destruct Hok2; constructor; assumption).
  destruct (untruncated_cases Hok2' Hnil2 n Hs2) as [Hsame|(t & Ht & Hto)]; [exact Hsame|]. destruct (Hall t n tb Ht Hto Htb) as [Hpl Hkey].
  apply (@repeated_skip G E cfg p c accepts currval truncate create1 create2 g1 g1' g2 w1 w1' w2 w2' r2 Hok1 Hnil1 Hs1 Hok2 Hnil2 Hs2 Hq t n tb Ht Hto Htb); [now rewrite Hsch|intros F; congruence| |exact Hpl|exact Hkey|exact (Hstill n tb Htb)].
  unfold strategy_of. rewrite Hm, Hst. destruct (in_dec string_dec t (p_passthrough p)); reflexivity.
Qed.

(** ** An interrupted run and its repetition *)
Section Prefix.
Context {G : Type}.
Variables (E : env G) (cfg : sampler_config) (p : plan) (c : db_config) (w : world).
Notation queries := (dkeys (p_queries p)).
Notation to := (lands (en_resub E) (oc_remap c)).
Notation schema w := (ds_tables (w_dest w)).
Hypothesis Hok : run_ok E cfg c p (w_dest w).
Hypothesis Hnil : trace w = [].
Hypothesis Hq : NoDup queries.
Variables (truncate create : bool) (g : G) (w' : world) (r : res out_exn G).
Hypothesis Hs : sample E cfg p truncate create g w = (w', r).
Variables (t : string) (n : tname) (tb : table).
Hypothesis Ht : In t queries.
Hypothesis Hto : to t n.
Hypothesis Htb : table_of (schema w') n tb.
Hypothesis Hns : not_shifted c p t.

(** The rows written, in the columns that are not changed. *)
Lemma run_written : (exists g', r = Ok g') \/ written (trace w') n <> [] ->
  exists ms compact st mults co l1 l2, computed_by E cfg p ms compact st mults /\ result_of E cfg p ms compact st t co /\
    each_copy (times cfg mults t) (co_rows co) = l1 ++ l2 /\ ((exists g', r = Ok g') -> l2 = []) /\
    Forall2 (fun ri row => forall k, plain_column E cfg p t n k -> In k (dkeys row) /\ copy_value (mult_cols mults t) [] (times cfg mults t) (snd ri) k (rget (fst ri) k) = Some (rget row k))
      l1 (written (trace w') n).
Proof.
  intros Hcase. assert (Hbeg : began w' r).
  { destruct Hcase as [Hr|Hne]; [right; exact Hr|left]. destruct (written (trace w') n) as [|x xs] eqn:Ew; [congruence|]. assert (Hx : In x (written (trace w') n)) by (rewrite Ew; now left).
    unfold written, batches in Hx. apply in_concat in Hx. destruct Hx as (b & Hb & _). apply in_flat_map in Hb. destruct Hb as (e & He & Hb). exists e. split; [exact He|]. destruct e; cbn; tauto. }
  destruct (run_given Hok Hnil Hs Hbeg) as (ms & compact & st & mults & offs & Hcw & Hinj & Hg2 & Hg1).
  assert (Hoff : forall k, off offs n k = None).
  { intros k. destruct (oc_merge c) eqn:Em.
    - pose proof Hto as (m & Hn & Hg). specialize (Hns Em). apply (stays_off Hok Hq Hinj Hcw Em Ht Hn Hg). exists tb. split; [exact Htb|now left].
    - destruct Hcw as (_ & H1 & _). rewrite (H1 Em). reflexivity. }
  assert (H : exists co l1 l2, result_of E cfg p ms compact st t co /\ each_copy (times cfg mults t) (co_rows co) = l1 ++ l2 /\ ((exists g', r = Ok g') -> l2 = []) /\ copied_rows E cfg mults offs t n co l1 (written (trace w') n)).
  { destruct r as [g'|e].
    - destruct (Hg1 t n tb Ht Hto Htb (or_introl (ex_intro _ g' eq_refl))) as (co & Hres & HF). exists co, (each_copy (times cfg mults t) (co_rows co)), []. rewrite app_nil_r. auto.
    - destruct Hcase as [(g' & F)|Hne]; [discriminate|]. destruct (Hg2 t n Ht Hto Hne) as (co & Hres & l1 & l2 & Hec & HF). exists co, l1, l2. split; [exact Hres|]. split; [exact Hec|]. split; [intros (g' & F); discriminate|exact HF]. }
  destruct H as (co & l1 & l2 & Hres & Hec & Hl2 & HF). exists ms, compact, st, mults, co, l1, l2. split; [exact (proj1 Hcw)|]. split; [exact Hres|]. split; [exact Hec|]. split; [exact Hl2|].
  eapply Forall2_impl2; [|exact HF]. cbn beta. intros ri row H k (Hk & Hf & Hcomp). specialize (Hk _ _ _ _ _ (proj1 Hcw) Hres). destruct (H k Hk (conj Hf Hcomp)) as [K V]. split; [exact K|].
  rewrite (copy_value_off _ _ _ _ (Hoff k)) in V. exact V.
Qed.

(** What the table holds after a part of the statements, if rows with existing keys are left out. *)
Hypothesis Hst : strategy_of c p t = SSkip.
Hypothesis Hpk : tb_pk tb <> [].
Lemma skip_how cols how : conflict_insert (oc_dialect c) (strategy_of c p t) tb cols = Ok how -> how = LeaveOut.
Proof.
  intros Hc. rewrite Hst in Hc. unfold conflict_insert in Hc. destruct (is_nil (tb_pk tb)) eqn:En; [destruct (tb_pk tb); [congruence|discriminate]|].
  apply bind_Ok in Hc. destruct Hc as ([s np] & Hx & Hy). apply bind_Ok in Hx. destruct Hx as (u & _ & Hx). injection Hx as <- <-. destruct (oc_dialect c); try discriminate; now injection Hy as <-.
Qed.
Lemma prefix_rows tr d : initial_part tr (trace w') -> replay (en_dflt E) (w_dest w) tr d -> truncate = false \/ (exists e, In e tr /\ ~ preparing e) ->
  insert_rows (en_dflt E) tb LeaveOut (if truncate then [] else rows_of (w_dest w) n) (written tr n) = Some (rows_of d n) /\
  (forall row, In row (written tr n) -> incl (dkeys row) (tb_cols tb)).
Proof.
  intros (rest & Hrest) Hrep Hcase. pose proof (tables_distinct Hok Hnil Hs) as Hnd.
  destruct (run_events Hok Hnil Hs) as [(cf & Hev) _]. rewrite Forall_forall in Hev.
  assert (Hall : forall how rows, In (EvInsert n how rows) (trace w') -> how = LeaveOut /\ forall row, In row rows -> incl (dkeys row) (tb_cols tb)).
  { intros how rows He. destruct (Hev _ He) as (t' & tb' & Ht' & Hto' & Htb' & A & _ & C & D). assert (t' = t) by (apply (lands_inj Hok Hnil Hs He ltac:(discriminate) (t := t') (t' := t) (n' := n)); assumption). subst t'.
    rewrite (table_of_fun Hnd Htb' Htb) in *. split; [exact (skip_how A)|]. intros row Hrow. rewrite (D row Hrow). exact C. }
  assert (Hin : forall e, In e tr -> In e (trace w')) by (intros e He; rewrite Hrest; apply in_or_app; now left).
  split.
  2:{ intros row Hrow. unfold written, batches in Hrow. apply in_concat in Hrow. destruct Hrow as (b & Hb & Hrow). apply in_flat_map in Hb. destruct Hb as (e & He & Hb).
      destruct e as [|n0|n0 how rows| | |]; try (elim Hb). destruct (eq_dec n0 n) as [->|]; [|elim Hb]. destruct Hb as [->|[]]. exact (proj2 (Hall _ _ (Hin _ He)) row Hrow). }
  destruct (table_run Hok Hnil Hs Ht Hto Htb) as (d0 & Hd0 & _). pose proof Hd0 as (pre & post & Htr & Hpre & Hpost & Hrp).
  assert (Hsplit : (exists q, pre = tr ++ q) \/ exists tr', tr = pre ++ tr' /\ exists q, post = tr' ++ q).
  { rewrite Htr in Hrest. clear - Hrest. revert tr Hrest. induction pre as [|e pre IH]; intros tr H; [right; exists tr; split; [reflexivity|eauto]|].
    destruct tr as [|e' tr]; [left; eexists; reflexivity|]. cbn in H. injection H as <- H. destruct (IH tr H) as [(q & ->)|(tr' & -> & q & ->)]; [left; exists q; reflexivity|right; exists tr'; split; [reflexivity|eauto]]. }
  assert (Hprep : (forall e, In e tr -> preparing e) -> written tr n = []).
  { intros H. unfold written. assert (Eb : batches tr n = []); [|now rewrite Eb]. clear - H. induction tr as [|e tr IH]; [reflexivity|]. change (batches (e :: tr) n) with (batches ([e] ++ tr) n). rewrite batches_app, IH by (intros x Hx; apply H; now right). specialize (H e (or_introl eq_refl)). destruct e; cbn in *; tauto. }
  destruct Hsplit as [(q & Eq)|(tr' & -> & q & Eq)].
  - assert (Htp : forall e, In e tr -> preparing e) by (intros e He; apply Hpre; rewrite Eq; apply in_or_app; now left). rewrite (Hprep Htp). cbn [insert_rows].
    destruct Hcase as [->|(e & He & Hne)]; [|elim (Hne (Htp e He))]. f_equal. symmetry. apply (replay_keeps Hrep). intros e He. specialize (Htp e He). destruct e as [ts|n0|n0 how rows|n0 z|pa|pa r0]; cbn in Htp; try contradiction; [exact I|].
    elim (no_delete Hok Hnil Hs (Hin _ He)).
  - destruct (replay_inv_app Hrep) as (d1 & R1 & R2). rewrite (replay_fun R1 Hrp) in R2. clear R1 d1.
    assert (Hi : Forall inserting tr').
    { apply Forall_forall. intros e He. specialize (Hpost e). rewrite Eq in Hpost. specialize (Hpost (in_or_app _ _ _ (or_introl He))). specialize (Hin e (in_or_app _ _ _ (or_intror He))).
      destruct (run_trace Hok Hnil Hs) as (ts & dn & tw & d1 & d2 & o1 & Htr1 & Hi & _). rewrite Forall_forall in Hi.
      assert (Hx : In e (map EvDelete dn ++ tw) \/ exists ts, e = EvCreate ts).
      { destruct Htr1 as [[Htr1 _]|Htr1]; rewrite Htr1 in Hin; [now left|]. destruct Hin as [<-|Hin]; [right; eauto|now left]. }
      destruct Hx as [Hx|(ts' & ->)]; [|elim Hpost; exact I]. apply in_app_or in Hx. destruct Hx as [Hx|Hx]; [|exact (Hi e Hx)]. apply in_map_iff in Hx. destruct Hx as (m & <- & _). elim Hpost. exact I. }
    assert (Hw : written (pre ++ tr') n = written tr' n).
    { unfold written. rewrite batches_app, concat_app. assert (Eb : batches pre n = []); [|now rewrite Eb]. clear - Hpre. induction pre as [|e l IH]; [reflexivity|]. change (batches (e :: l) n) with (batches ([e] ++ l) n). rewrite batches_app, IH by (intros x Hx; apply Hpre; now right). specialize (Hpre e (or_introl eq_refl)). destruct e; cbn in *; tauto. }
    rewrite Hw.
    assert (Hl0 : rows_of d0 n = if truncate then [] else rows_of (w_dest w) n).
    { destruct truncate eqn:Et.
      - destruct Hcase as [F|(e & He & Hne)]; [discriminate|]. apply (begun_rows Hok Hnil Hs (or_introl (ex_intro _ e (conj (Hin e He) Hne))) Hd0 (to_tgt Ht Hto) Htb).
      - exact (untruncated_starts Hok Hnil n Hs Hd0). }
    rewrite <- Hl0. apply (replay_rows R2 Hi).
    + assert (Hdt : ds_tables d0 = ds_tables (w_dest w')).
      { pose proof (run_replay Hnil Hs) as Hfull. rewrite Htr in Hfull. destruct (replay_inv_app Hfull) as (d1 & F1 & F2). rewrite (replay_fun F1 Hrp) in F2. symmetry. apply (replay_tables F2).
        intros ts Hc. exact (Hpost _ Hc I). }
      rewrite Hdt. exact (find_table_of Hnd Htb).
    + intros how rows He. apply (Hall how rows). apply Hin. apply in_or_app. now right.
Qed.
End Prefix.

(** C110 *)
Theorem resumed_skip {G} (E : env G) cfg p c accepts1 currval1 accepts2 currval2 truncate create create1 create2 g g1 g2 g' g2' w wa w1 r1 tr d w2 t n tb :
  run_ok E cfg c p (w_dest w) -> trace w = [] -> NoDup (dkeys (p_queries p)) ->
  sample E cfg p truncate create g w = (wa, Ok g') ->
  sample (later E accepts1 currval1) cfg p truncate create1 g1 w = (w1, r1) -> initial_part tr (trace w1) -> replay (en_dflt E) (w_dest w) tr d ->
  truncate = false \/ (exists e, In e tr /\ ~ preparing e) ->
  run_ok E cfg c p d -> sample (later E accepts2 currval2) cfg p false create2 g2 (mkWorld d []) = (w2, Ok g2') ->
  In t (dkeys (p_queries p)) -> lands (en_resub E) (oc_remap c) t n -> table_of (ds_tables (w_dest wa)) n tb -> table_of (ds_tables d) n tb ->
  not_shifted c p t -> strategy_of c p t = SSkip -> plain_keys E cfg p t n tb -> key_given tb (rows_of (w_dest wa) n) ->
  Forall2 (fun r r' => forall k, plain_column E cfg p t n k -> rget r k = rget r' k) (rows_of (w_dest wa) n) (rows_of (w_dest w2) n).
Proof.
  intros Hok Hnil Hq Ha H1 Hip Hrep Hcase Hokd H2 Ht Hto Htba Htbd Hns Hst Hpl (Hpk & Hnn).
  assert (Hok1 : run_ok (later E accepts1 currval1) cfg c p (w_dest w)) by (destruct Hok; constructor; assumption).
  assert (Hok2 : run_ok (later E accepts2 currval2) cfg c p (w_dest (mkWorld d []))) by (destruct Hokd; constructor; assumption).
  assert (Htb1 : table_of (ds_tables (w_dest w1)) n tb).
  { destruct Hip as (rest & Hr). pose proof (run_replay Hnil H1) as Hf. rewrite Hr in Hf. destruct (replay_inv_app Hf) as (d1 & F1 & F2). rewrite (replay_fun F1 Hrep) in F2. clear F1 d1.
    destruct Htbd as [A B]. split; [|exact B]. clear - F2 A. revert A. induction F2 as [|d0 e d1 tr0 d2 Hx _ IH]; [auto|]. intros A. apply IH. destruct e as [ts|n0|n0 how rows|n0 z|pa|pa r0]; try (rewrite (proj1 (setval_same Hx)); exact A); cbn [exec] in Hx.
    - injection Hx as <-. cbn. apply in_or_app. now left.
    - injection Hx as <-. exact A.
    - destruct (find_table (ds_tables d0) n0); [|discriminate]. destruct (insert_rows _ _ _ _ _); [|discriminate]. injection Hx as <-. exact A.
    - injection Hx as <-. exact A.
    - injection Hx as <-. exact A. }
  assert (Htb2 : table_of (ds_tables (w_dest w2)) n tb).
  { destruct (run_trace Hok2 eq_refl H2) as (ts & dn & tw & d1 & d2 & o1 & _ & _ & Hdb & _). rewrite Hdb. destruct Htbd as [A B]. split; [apply in_or_app; now left|exact B]. }
  assert (Hall : forall tr0 : list event, initial_part tr0 tr0) by (intros tr0; exists []; now rewrite app_nil_r).
  (* the uninterrupted run *)
  destruct (run_written Hok Hnil Hq Ha Ht Hto Htba Hns (or_introl (ex_intro _ g' eq_refl))) as (ms & compact & st & mults & co & la & la2 & Hcb & Hres & Hec & Hla & HFa). rewrite (Hla (ex_intro _ g' eq_refl)), app_nil_r in Hec. subst la. clear Hla la2.
  assert (HA : insert_rows (en_dflt E) tb LeaveOut (if truncate then [] else rows_of (w_dest w) n) (written (trace wa) n) = Some (rows_of (w_dest wa) n) /\ forall row, In row (written (trace wa) n) -> incl (dkeys row) (tb_cols tb)).
  { destruct (table_run Hok Hnil Ha Ht Hto Htba) as (d0 & Hd0 & R). rewrite (begun_rows Hok Hnil Ha (or_intror (ex_intro _ g' eq_refl)) Hd0 (to_tgt Ht Hto) Htba) in R.
    destruct R as [(Ew & R)|(how & cols & I & _ & Ic & K & R)]; [rewrite Ew, R; split; [reflexivity|intros row []]|]. rewrite (skip_how Hst Hpk I) in R. split; [exact R|]. intros row Hrow. rewrite (K row Hrow). exact Ic. }
  (* the interrupted run *)
  destruct (prefix_rows Hok1 Hnil H1 Ht Hto Htb1 Hst Hpk Hip Hrep Hcase) as [HB HBc]. change (en_dflt (later E accepts1 currval1)) with (en_dflt E) in HB.
  (* the repetition *)
  destruct (run_written Hok2 eq_refl Hq H2 Ht Hto Htb2 Hns (or_introl (ex_intro _ g2' eq_refl))) as (ms2 & compact2 & st2 & mults2 & co2 & lb & lb2 & Hcb2 & Hres2 & Hec2 & Hlb & HF2). rewrite (Hlb (ex_intro _ g2' eq_refl)), app_nil_r in Hec2. subst lb. clear Hlb lb2.
  destruct (computed_fun Hcb (Hcb2 : computed_by E cfg p ms2 compact2 st2 mults2)) as (-> & -> & -> & ->). assert (co2 = co) by exact (result_fun Hres2 Hres). subst co2.
  assert (H2r : insert_rows (en_dflt E) tb LeaveOut (rows_of d n) (written (trace w2) n) = Some (rows_of (w_dest w2) n)).
  { exact (proj1 (prefix_rows Hok2 eq_refl H2 Ht Hto Htb2 Hst Hpk (Hall _) (run_replay (w := mkWorld d []) eq_refl H2) (or_introl eq_refl))). }
  set (P := plain_column E cfg p t n). set (L := each_copy (times cfg mults t) (co_rows co)) in *.
  set (val := fun (ri : row * Z) (row : row) => forall k, P k -> In k (dkeys row) /\ copy_value (mult_cols mults t) [] (times cfg mults t) (snd ri) k (rget (fst ri) k) = Some (rget row k)).
  assert (Hl1 : exists l1 l2, L = l1 ++ l2 /\ Forall2 val l1 (written tr n)).
  { destruct (written tr n) as [|x xs] eqn:Ew; [exists [], L; split; [reflexivity|constructor]|]. destruct Hip as (rest & Hr).
    assert (Hw : written (trace w1) n = (x :: xs) ++ written rest n) by (rewrite Hr, written_app, Ew; reflexivity).
    destruct (run_written Hok1 Hnil Hq H1 Ht Hto Htb1 Hns) as (ms1 & compact1 & st1 & mults1 & co1 & l1 & l2 & Hcb1 & Hres1 & Hec1 & _ & HF1); [right; rewrite Hw; discriminate|].
    destruct (computed_fun Hcb (Hcb1 : computed_by E cfg p ms1 compact1 st1 mults1)) as (-> & -> & -> & ->). assert (co1 = co) by exact (result_fun Hres1 Hres). subst co1.
    rewrite Hw in HF1. apply Forall2_app_inv_r in HF1. destruct HF1 as (a1 & a2 & HFx & _ & ->). exists a1, (a2 ++ l2). split; [rewrite app_assoc; exact Hec1|exact HFx]. }
  destruct Hl1 as (l1 & l2 & El & HF1). rewrite El in HFa, HF2. apply Forall2_app_inv_l in HFa. destruct HFa as (pa & ra & Hpa & Hra & Ewa). apply Forall2_app_inv_l in HF2. destruct HF2 as (p2 & q2 & Hp2 & Hq2 & Ew2).
  assert (Hrel : forall l xs ys, (forall x, In x xs -> incl (dkeys x) (tb_cols tb)) -> Forall2 val l xs -> Forall2 val l ys -> Forall2 (given_alike tb P) xs ys).
  { clear. intros l xs ys Hc HX. revert ys. induction HX as [|ri x l xs Hx HX IH]; intros ys HY; inversion HY as [|? y ? ys' Hy HY']; subst; constructor.
    - intros k Hk. destruct (Hx k Hk) as [K1 V1]. destruct (Hy k Hk) as [K2 V2]. split; [exact K1|]. split; [exact K2|]. split; [exact (Hc x (or_introl eq_refl) k K1)|congruence].
    - apply IH; [intros z Hz; apply Hc; now right|exact HY']. }
  destruct HA as [HA HAc]. rewrite Ewa in HA, HAc. rewrite Ew2 in H2r.
  destruct (@left_out_resumed (en_dflt E) tb P pa ra (written tr n) p2 q2 _ _ _ Hpl Hpk HA Hnn HB) as (L2 & HL2 & Hagree).
  - apply (Hrel l1); [intros x Hx; apply HAc; apply in_or_app; now left|exact Hpa|exact HF1].
  - apply (Hrel l1); [intros x Hx; apply HAc; apply in_or_app; now left|exact Hpa|exact Hp2].
  - apply (Hrel l2); [intros x Hx; apply HAc; apply in_or_app; now right|exact Hra|exact Hq2].
  - pose proof (eq_trans (eq_sym H2r) HL2) as Heq. injection Heq as <-. exact Hagree.
Qed.
