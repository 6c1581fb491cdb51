(** sampler.py: the properties of whole runs (C33-C36, C40-C43). *)
From Coq Require Import Lia.
From Verif Require Import Model.Base Model.Solver Model.Value Model.Names Model.PlanModel Spec.SqlSem Model.SqlAlgebra Model.PlanBuild
  Model.Metadata Model.Materialize Spec.GraphSpec Spec.SchemaSpec Spec.PlannerSpec Spec.SampleSpec
  Proofs.BaseFacts Proofs.NameFacts Proofs.GraphFacts Proofs.BuildFacts Proofs.BuildRefs Proofs.MaterializeOrder Proofs.MaterializeRun
  Proofs.MetadataFacts Proofs.SemCong Proofs.SampleRun Proofs.CompactRun Proofs.SampleTotal.
Set Implicit Arguments.
Unset Strict Implicit.

#[local] Arguments rn_meta {id reopen ms source compact queries} _.
#[local] Arguments rn_keys {id reopen ms source compact queries} _.
#[local] Arguments rn_rows {id reopen ms source compact queries} _.
#[local] Arguments rn_names {id reopen ms source compact queries} _.
#[local] Arguments rn_reads {id reopen ms source compact queries} _.
#[local] Arguments rn_union {id reopen ms source compact queries} _.
#[local] Arguments rn_fits {id reopen ms source compact queries} _.
#[local] Arguments rn_inside {id reopen ms source compact queries} _.
#[local] Arguments rn_acyclic {id reopen ms source compact queries} _.
#[local] Arguments rn_compact {id reopen ms source compact queries} _.
#[local] Arguments rn_governs {id reopen ms source compact queries} _.
#[local] Arguments rn_one {id reopen ms source compact queries} _.

Lemma before_prefix {A} `{EqDec A} (l1 l2 : list A) x y : NoDup (l1 ++ y :: l2) -> before (l1 ++ y :: l2) x y -> In x l1.
Proof.
  intros Hn Hb. apply NoDup_app_iff in Hn. destruct Hn as (_ & Hn2 & Hdis). apply before_app_inv in Hb. destruct Hb as [Hb|[[Hb _]|Hb]].
  - exact (before_In_l Hb).
  - exact Hb.
  - exfalso. apply before_cons_inv in Hb. apply NoDup_cons_iff in Hn2. destruct Hn2 as [Hn2 _].
    destruct Hb as [[-> Hb]|Hb]; [contradiction|]. apply Hn2. exact (before_In_r Hb).
Qed.

(** Permuting a plan changes none of its properties. *)
Section Permuted.
Variables queries queries' : dict string table_query.
Hypothesis HP : Permutation queries queries'.
Lemma perm_In s q : In (s, q) queries' -> In (s, q) queries.
Proof. apply Permutation_in. symmetry. exact HP. Qed.
Lemma perm_keys : Permutation (dkeys queries) (dkeys queries').
Proof. apply Permutation_map. exact HP. Qed.
Lemma perm_key s : In s (dkeys queries') -> In s (dkeys queries).
Proof. apply Permutation_in. symmetry. exact perm_keys. Qed.
Lemma perm_has n : has_query queries' n -> has_query queries n.
Proof. intros (s & H1 & H2). exists s. split; [exact H1|exact (perm_key H2)]. Qed.
Lemma perm_has' n : has_query queries n -> has_query queries' n.
Proof. intros (s & H1 & H2). exists s. split; [exact H1|]. exact (Permutation_in _ perm_keys H2). Qed.
Lemma perm_reads n d : reads_sample queries' n d -> reads_sample queries n d.
Proof. intros (s & q & id & H1 & H2). exists s, q, id. split; [exact (perm_In H1)|exact H2]. Qed.
Lemma perm_reads' n d : reads_sample queries n d -> reads_sample queries' n d.
Proof. intros (s & q & id & H1 & H2). exists s, q, id. split; [exact (Permutation_in _ HP H1)|exact H2]. Qed.
Lemma perm_needed ms compact d : needed ms compact queries' d -> needed ms compact queries d.
Proof.
  intros [(n & H)|(n & m & fk & c & cs & H & H')]; [left; exists n; exact (perm_reads H)|right]. exists n, m, fk, c, cs. split; [exact (perm_has H)|exact H'].
Qed.
Lemma perm_runnable id reopen ms source compact : runnable id reopen ms source compact queries -> runnable id reopen ms source compact queries'.
Proof.
  intros [H1 H2 H3 H4 H5 H6 H7 H8 H9 H10 H11 H12]. constructor; try assumption.
  - destruct H4 as [A B]. split; [exact (Permutation_NoDup perm_keys A)|]. intros s Hs. exact (B s (perm_key Hs)).
  - intros s q n Hin. exact (H5 s q n (perm_In Hin)).
  - intros s q st Hin. exact (H6 s q st (perm_In Hin)).
  - intros s q n Hin. exact (H7 s q n (perm_In Hin)).
  - intros n d Hr. exact (perm_has' (H8 n d (perm_reads Hr))).
  - intros n Hc. apply (H9 n). unfold on_cycle in *. eapply path_mono; [|exact Hc]. exact perm_reads.
  - intros n c d dc Hh Hg. destruct (H11 n c d dc (perm_has Hh) Hg) as [A B]. split; [exact (perm_has' A)|exact B].
Qed.
End Permuted.

Section Run.
Variables (source : tname -> list row) (cmpf : cmpop -> value -> value -> bool)
          (textf : string -> option (dict string lit) -> row -> tv)
          (rawf : string -> option (dict string lit) -> list row)
          (raw_cols : string -> option (dict string lit) -> list string)
          (rank : phase -> tname -> list (list value) -> list nat) (reopen : bool)
          (ms : meta) (compact : dict tname (list string)) (start : Z).
Hypothesis Hrank : forall p n ks, length (rank p n ks) = length ks.

Definition mats z ord := materialize_tables source cmpf textf rawf z rank reopen ms compact start ord.
Definition smp z queries := run_sample source cmpf textf rawf z queries.

Lemma runnable_wf queries : runnable id_column reopen ms source compact queries -> plan_wf queries.
Proof. intros H. exact (fit_wf (rn_names H) (rn_reads H) (rn_fits H)). Qed.

Lemma runnable_mats z ord queries order : any_order ord -> (forall p n, rnd_ok (z p n)) -> runnable id_column reopen ms source compact queries ->
  materialization_order ord ms compact queries = Ok order -> exists st, mats z ord queries = Ok st /\ inv reopen ms compact order st.
Proof.
  intros Ho Hz H E. exact (mats_total cmpf textf rawf reopen start Ho (rn_meta H) (rn_keys H) (rn_rows H) (rn_names H) (rn_reads H) (rn_union H) (rn_fits H) (rn_compact H) Hz Hrank E).
Qed.
Theorem runnable_total z ord queries insert_order : any_order ord -> (forall p n, rnd_ok (z p n)) -> runnable id_column reopen ms source compact queries ->
  (forall s, In s insert_order -> exists n, named s n) ->
  exists st outs, extract source cmpf textf rawf raw_cols z rank reopen ms compact start ord queries insert_order = Ok (st, outs).
Proof.
  intros Ho Hz H Hi. exact (run_total cmpf textf rawf raw_cols start Ho (rn_meta H) (rn_keys H) (rn_rows H) (rn_names H) (rn_reads H) (rn_union H) (rn_fits H) (rn_compact H) Hz Hrank
    (rn_governs H) (rn_one H) (rn_inside H) (rn_acyclic H) Hi).
Qed.

(** C35 *)
Section Two.
Variables (z z' : phase -> tname -> rnd) (ord ord' : list tname -> list tname) (queries queries' : dict string table_query).
Hypothesis Hord : any_order ord.
Hypothesis Hord' : any_order ord'.
Hypothesis HP : Permutation queries queries'.
Hypothesis HR : runnable id_column reopen ms source compact queries.
Hypothesis Hfree : plan_random_free queries.
Let HR' := perm_runnable HP HR.
Variables (st st' : tstate).
Hypothesis Hst : mats z ord queries = Ok st.
Hypothesis Hst' : mats z' ord' queries' = Ok st'.
Hypothesis Hi : exists order, inv reopen ms compact order st.
Hypothesis Hi' : exists order, inv reopen ms compact order st'.

Lemma temps_iff (q : dict string table_query) zz oo ss : any_order oo -> runnable id_column reopen ms source compact q -> mats zz oo q = Ok ss ->
  forall n, In (n, 0) (dkeys (ts_objs ss)) <-> has_query q n /\ needed ms compact q n.
Proof.
  intros Ho Hr E n. destruct (mats_spec Ho (rn_names Hr) E) as (_ & _ & order & Eo & _ & Hk & _).
  destruct (order_spec Ho (rn_names Hr) (proj1 (rn_compact Hr)) (proj1 (rn_meta Hr)) (rn_inside Hr) Eo) as (_ & Hm & _). rewrite <- Hm, Hk. split.
  - intros (c & Hc & _). apply in_map_iff. exists (n, c). auto.
  - intros Hx. apply in_map_iff in Hx. destruct Hx as ([n' c] & Ex & Hx). cbn in Ex. subst n'. exists c. auto.
Qed.
Lemma temps_same n : In (n, 0) (dkeys (ts_objs st)) <-> In (n, 0) (dkeys (ts_objs st')).
Proof.
  rewrite (temps_iff Hord HR Hst), (temps_iff Hord' HR' Hst'). split; intros [A B].
  - split; [exact (perm_has' HP A)|exact (perm_needed (Permutation_sym HP) B)].
  - split; [exact (perm_has HP A)|exact (perm_needed HP B)].
Qed.

Lemma sample_eq s q n : In (s, q) queries -> named s n ->
  (forall id, In id (query_ids q) -> i_sampled id = true -> smp z queries st (i_name id) = smp z' queries' st' (i_name id)) ->
  smp z queries st n = smp z' queries' st' n.
Proof.
  intros Hin Hn Hd. assert (Hin' := Permutation_in _ HP Hin).
  assert (Hrf : forall stm, q_stmt q = Some stm -> random_free stm) by (intros stm E; exact (Hfree Hin E)).
  destruct (In_dec' (n, 0) (dkeys (ts_objs st))) as [Hk|Hk].
  - assert (Hk' := proj1 (temps_same n) Hk).
    destruct (sample_materialized Hord (rn_meta HR) (rn_keys HR) (rn_names HR) (runnable_wf HR) Hst Hin Hn Hk) as [[A1 A2]|(A1 & m & Am & A2)];
    destruct (sample_materialized Hord' (rn_meta HR) (rn_keys HR) (rn_names HR') (runnable_wf HR') Hst' Hin' Hn Hk') as [[B1 B2]|(B1 & m' & Bm & B2)]; try contradiction.
    + unfold smp in *. rewrite A2, B2. apply query_result_cong; [exact Hd|right; exact Hrf].
    + assert (m = m').
      { apply (In_dget (proj1 (rn_meta HR))) in Am. apply (In_dget (proj1 (rn_meta HR))) in Bm. congruence. }
      subst m'. unfold smp in *. rewrite A2, B2. do 2 f_equal. apply query_result_cong; [exact Hd|right; exact Hrf].
  - assert (Hk' : ~ In (n, 0) (dkeys (ts_objs st'))) by (rewrite <- (temps_same n); exact Hk).
    unfold smp in *. rewrite (sample_copied Hord (rn_meta HR) (rn_names HR) (proj1 (rn_compact HR)) Hst Hin Hn Hk).
    rewrite (sample_copied Hord' (rn_meta HR) (rn_names HR') (proj1 (rn_compact HR)) Hst' Hin' Hn Hk').
    apply query_result_cong; [exact Hd|right; exact Hrf].
Qed.

Lemma temps_eq n : In (n, 0) (dkeys (ts_objs st)) -> smp z queries st n = smp z' queries' st' n.
Proof.
  destruct (mats_spec Hord (rn_names HR) Hst) as (_ & _ & order & Eo & Hnd & Hk & _).
  destruct (order_spec Hord (rn_names HR) (proj1 (rn_compact HR)) (proj1 (rn_meta HR)) (rn_inside HR) Eo) as (_ & Hm & Hb).
  assert (Hl : forall l1 l2, map fst order = l1 ++ l2 -> forall x, In x l1 -> smp z queries st x = smp z' queries' st' x).
  { intros l1. induction l1 as [|y l1 IH] using rev_ind; intros l2 E x Hx; [destruct Hx|].
    rewrite <- app_assoc in E. cbn [app] in E. apply in_app_or in Hx. destruct Hx as [Hx|[<-|[]]]; [exact (IH _ E x Hx)|].
    assert (Hy : In y (map fst order)) by (rewrite E; apply in_or_app; right; left; reflexivity).
    destruct (proj1 (Hm y) Hy) as ((s & Hs & Hsk) & _). destruct (key_dget Hsk) as (q & Eq).
    apply (sample_eq (dget_In Eq) Hs). intros id Hid Hsm. apply (IH _ E).
    assert (Hr : reads_sample queries y (i_name id)) by (exists s, q, id; split; [exact (dget_In Eq)|auto]).
    specialize (Hb y _ Hr Hy). rewrite E in Hb. rewrite E in Hnd. exact (before_prefix Hnd Hb). }
  intros Hx. apply Hk in Hx. destruct Hx as (c & Hc & _). apply (Hl (map fst order) []); [rewrite app_nil_r; reflexivity|]. apply in_map_iff. exists (n, c). auto.
Qed.

Lemma samples_eq s q n : In (s, q) queries -> named s n -> smp z queries st n = smp z' queries' st' n.
Proof.
  intros Hin Hn. apply (sample_eq Hin Hn). intros id Hid Hs. apply temps_eq.
  apply (read_materialized (n := n) Hord (rn_meta HR) (rn_names HR) (proj1 (rn_compact HR)) Hst). exists s, q, id. auto.
Qed.

Lemma base_query s q n m b cnt (zz : phase -> tname -> rnd) oo qs ss : any_order oo -> runnable id_column reopen ms source compact qs ->
  mats zz oo qs = Ok ss -> (exists order, inv reopen ms compact order ss) -> In (s, q) qs -> named s n -> dget ms n = Some m ->
  (match dget (ts_objs ss) (n, 0) with
   | Some t => Ok (QSelect None (FTable t) None [] None, [])
   | None => lift_build (build_query (build_ctx reopen ms ss) q []) end) = Ok (b, cnt) ->
  selected_columns b = Ok (if dmem (ts_objs ss) (n, 0) then scols compact n m else tb_cols (tm_table m)) /\ (forall x y, b <> QRaw x y).
Proof.
  intros Ho Hr E (order & _ & _ & I3) Hin Hn Hm Hb. unfold dmem. destruct (dget (ts_objs ss) (n, 0)) as [t|] eqn:Et.
  - inv Hb. cbn [selected_columns from_table]. destruct (I3 _ _ _ Et) as (m' & Em & ->). rewrite Hm in Em. inv Em. split; [reflexivity|discriminate].
  - destruct (build_query (build_ctx reopen ms ss) q []) as [[b0 c0]|] eqn:Eb; [|discriminate]. inv Hb.
    destruct (rn_reads Hr _ _ _ Hin Hn) as (E1 & stm & E2 & Hro). unfold build_query in Eb. rewrite E1, E2 in Eb.
    assert (Hsel := selected_total Hro (rn_union Hr _ _ _ Hin E2) Hm Eb). split; [exact Hsel|]. intros x y ->. discriminate.
Qed.

Lemma copy_row_cong id r : forall xs xs', Forall2 (fun cx cx' => fst cx = fst cx' /\
    col_values source cmpf textf rawf st id r (snd cx) = col_values source cmpf textf rawf st' id r (snd cx')) xs xs' ->
  copy_row source cmpf textf rawf st id r xs = copy_row source cmpf textf rawf st' id r xs'.
Proof.
  induction 1 as [|[c x] [c' x'] xs xs' [E1 E2] _ IH]; [reflexivity|]. cbn [fst snd] in *. subst c'. cbn [copy_row].
  change (flat_map (fun v => map (cons (c, v)) (copy_row source cmpf textf rawf st id r xs)) (col_values source cmpf textf rawf st id r x) =
          flat_map (fun v => map (cons (c, v)) (copy_row source cmpf textf rawf st' id r xs')) (col_values source cmpf textf rawf st' id r x')).
  rewrite E2, IH. reflexivity.
Qed.
Lemma temp_rows zz oo qs ss d i t : any_order oo -> runnable id_column reopen ms source compact qs -> mats zz oo qs = Ok ss ->
  dget (ts_objs ss) (d, i) = Some t -> In (d, 0) (dkeys (ts_objs ss)) /\ db_rows (temp_db source cmpf textf rawf ss) (t_ref t) = smp zz qs ss d.
Proof.
  intros Ho Hr E Ht. destruct (mats_spec Ho (rn_names Hr) E) as (Hw & _). destruct (Hw _ _ _ Ht) as (E1 & E2 & Hk & _). split; [exact Hk|].
  rewrite E1. cbn [temp_db db_rows]. unfold dget_or. rewrite E2. unfold smp. rewrite (run_sample_temp source cmpf textf rawf zz qs Hk). reflexivity.
Qed.

Lemma copies_eq s q n c c' : In (s, q) queries -> named s n ->
  copy_statement reopen ms compact st n q = Ok c -> copy_statement reopen ms compact st' n q = Ok c' ->
  copy_keys raw_cols c = copy_keys raw_cols c' /\
  copy_rows source cmpf textf rawf z rank start st n c = copy_rows source cmpf textf rawf z' rank start st' n c'.
Proof.
  intros Hin Hn H H'. assert (Hin' := Permutation_in _ HP Hin). unfold copy_statement in H, H'.
  apply bind_Ok in H. destruct H as ([b cnt] & Hb & H). apply bind_Ok in H. destruct H as (m & Hm & H). apply dfind_Ok in Hm.
  apply bind_Ok in H'. destruct H' as ([b' cnt'] & Hb' & H'). unfold dfind in H'. rewrite Hm in H'. cbn [bind] in H'.
  assert (Er : eval_query (temp_db source cmpf textf rawf st) (z PCopy n) b = eval_query (temp_db source cmpf textf rawf st') (z' PCopy n) b').
  { rewrite (proj1 (copy_query Hord (rn_meta HR) (rn_keys HR) (rn_names HR) (runnable_wf HR) Hst Hin Hn Hb)).
    rewrite (proj1 (copy_query Hord' (rn_meta HR) (rn_keys HR) (rn_names HR') (runnable_wf HR') Hst' Hin' Hn Hb')). exact (samples_eq Hin Hn). }
  destruct (base_query Hord HR Hst Hi Hin Hn Hm Hb) as [Es Hraw]. destruct (base_query Hord' HR' Hst' Hi' Hin' Hn Hm Hb') as [Es' Hraw'].
  assert (Ed : dmem (ts_objs st) (n, 0) = dmem (ts_objs st') (n, 0)).
  { pose proof (temps_same n) as Ht. rewrite <- !dmem_true in Ht. destruct (dmem (ts_objs st) (n, 0)), (dmem (ts_objs st') (n, 0)); intuition congruence. }
  rewrite <- Ed in Es'.
  destruct (is_nil (remote_compact compact m) && is_nil (dget_or compact n [])).
  - inv H. inv H'. split; [|exact Er]. cbn [copy_keys]. destruct b, b'; try congruence; try (exfalso; eapply Hraw; reflexivity); try (exfalso; eapply Hraw'; reflexivity);
    rewrite Es, Es'; reflexivity.
  - rewrite Es in H. rewrite Es' in H'. cbn [bind] in H, H'. set (cols := if dmem (ts_objs st) (n, 0) then scols compact n m else tb_cols (tm_table m)) in *.
    apply bind_Ok in H. destruct H as (u & _ & H). apply bind_Ok in H. destruct H as (xs & Hxs & H). inv H.
    apply bind_Ok in H'. destruct H' as (u' & _ & H'). apply bind_Ok in H'. destruct H' as (xs' & Hxs' & H'). inv H'.
    destruct (copy_columns_spec Hxs) as [X1 X2]. destruct (copy_columns_spec Hxs') as [Y1 Y2].
    cbn [copy_keys copy_rows]. split; [congruence|]. rewrite Er.
    apply flat_map_ext. intros [id r]. cbn [fst snd]. apply copy_row_cong.
    assert (Hcol : forall cc x x', In (cc, x) xs -> In (cc, x') xs' ->
      col_values source cmpf textf rawf st id r x = col_values source cmpf textf rawf st' id r x').
    { intros cc x x' Hx Hx'. specialize (X2 cc x Hx). specialize (Y2 cc x' Hx'). destruct (memb cc (dget_or compact n [])); [subst; reflexivity|].
      destruct (dget (remote_compact compact m) cc) as [[d dc]|]; [|subst; reflexivity].
      destruct X2 as (i & t & Ht & ->). destruct Y2 as (i' & t' & Ht' & ->). cbn [col_values]. unfold remote_values.
      destruct (temp_rows Hord HR Hst Ht) as [Hk Ex]. destruct (temp_rows Hord' HR' Hst' Ht') as [_ Ey]. rewrite Ex, Ey, (temps_eq Hk). reflexivity. }
    assert (Hlen : map fst xs = map fst xs') by congruence. clear - Hcol Hlen.
    revert xs' Hlen Hcol. induction xs as [|[cc x] xs IH]; intros [|[cc' x'] xs'] E Hcol; cbn in E; try discriminate; constructor.
    + injection E as E1 E2. subst cc'. cbn [fst snd]. split; [reflexivity|]. apply (Hcol cc); left; reflexivity.
    + injection E as E1 E2. apply IH; [exact E2|]. intros c0 y y' Hy Hy'. apply (Hcol c0); right; assumption.
Qed.
End Two.

Theorem order_irrelevant z z' ord ord' queries queries' insert_order insert_order' st outs :
  any_order ord -> any_order ord' -> (forall p n, rnd_ok (z p n)) -> (forall p n, rnd_ok (z' p n)) ->
  Permutation queries queries' -> runnable id_column reopen ms source compact queries -> plan_random_free queries ->
  Permutation insert_order insert_order' ->
  extract source cmpf textf rawf raw_cols z rank reopen ms compact start ord queries insert_order = Ok (st, outs) ->
  exists st' outs', extract source cmpf textf rawf raw_cols z' rank reopen ms compact start ord' queries' insert_order' = Ok (st', outs') /\
    forall o, In o outs -> exists o', In o' outs' /\ co_name o' = co_name o /\ co_cols o' = co_cols o /\ co_rows o' = co_rows o.
Proof.
  intros Ho Ho' Hz Hz' HP HR Hf Hio H. pose proof (perm_runnable HP HR) as HR'.
  pose proof H as H0. unfold extract in H. apply bind_Ok in H. destruct H as (st0 & Hst & H). apply bind_Ok in H. destruct H as (l & Hl & H). inv H.
  apply mapM_Ok in Hl.
  assert (Hpar : forall s, In s insert_order' -> exists n, named s n).
  { intros s Hs. apply (Permutation_in _ (Permutation_sym Hio)) in Hs. destruct (Forall2_In_l Hl Hs) as (o & _ & Eo). unfold copy_table in Eo. apply bind_Ok in Eo.
    destruct Eo as (n & Hp & _). unfold parse in Hp. destruct (parse_table_name s) eqn:Ep; [|discriminate]. inv Hp. apply parse_named in Ep. eauto. }
  destruct (runnable_total (z := z') Ho' Hz' HR' Hpar) as (st' & outs' & H'). exists st', outs'. split; [exact H'|].
  unfold extract in H'. apply bind_Ok in H'. destruct H' as (st0' & Hst' & H'). apply bind_Ok in H'. destruct H' as (l' & Hl' & H'). inv H'. apply mapM_Ok in Hl'.
  assert (Hi : exists order, inv reopen ms compact order st).
  { destruct (mats_spec Ho (rn_names HR) Hst) as (_ & _ & order & Eo & _). destruct (runnable_mats Ho Hz HR Eo) as (s1 & E1 & I1). unfold mats in E1. rewrite Hst in E1. inv E1. eauto. }
  assert (Hi' : exists order, inv reopen ms compact order st').
  { destruct (mats_spec Ho' (rn_names HR') Hst') as (_ & _ & order & Eo & _). destruct (runnable_mats Ho' Hz' HR' Eo) as (s1 & E1 & I1). unfold mats in E1. rewrite Hst' in E1. inv E1. eauto. }
  intros o Hin. apply in_flat_map in Hin. destruct Hin as (oo & Hoo & Hin). destruct oo as [o1|]; [|destruct Hin]. destruct Hin as [->|[]].
  destruct (Forall2_In_r Hl Hoo) as (s & Hs & Eo). apply (Permutation_in _ Hio) in Hs. destruct (Forall2_In_l Hl' Hs) as (o' & Hoo' & Eo').
  unfold copy_table in Eo, Eo'. apply bind_Ok in Eo. destruct Eo as (n & Hp & Eo). rewrite Hp in Eo'. cbn [bind] in Eo'.
  unfold parse in Hp. destruct (parse_table_name s) as [n0|] eqn:Ep; [|discriminate]. inv Hp. apply parse_named in Ep.
  destruct (dget queries s) as [q|] eqn:Eq; [|discriminate].
  assert (Eq' : dget queries' s = Some q) by (apply In_dget; [exact (proj1 (rn_names HR'))|exact (Permutation_in _ HP (dget_In Eq))]).
  rewrite Eq' in Eo'. apply bind_Ok in Eo. destruct Eo as (c & Ec & Eo). inv Eo. apply bind_Ok in Eo'. destruct Eo' as (c' & Ec' & Eo'). inv Eo'.
  destruct (copies_eq Ho Ho' HP HR Hf Hst Hst' Hi Hi' (dget_In Eq) Ep Ec Ec') as [A B].
  eexists. split; [apply in_flat_map; eexists; split; [exact Hoo'|left; reflexivity]|]. cbn [co_name co_cols co_rows]. split; [reflexivity|]. auto.
Qed.
End Run.

(** C36 *)
Section Executable.
Variables (source : tname -> list row) (cmpf : cmpop -> value -> value -> bool)
          (textf : string -> option (dict string lit) -> row -> tv)
          (rawf : string -> option (dict string lit) -> list row)
          (raw_cols : string -> option (dict string lit) -> list string)
          (z : phase -> tname -> rnd) (rank : phase -> tname -> list (list value) -> list nat) (reopen : bool)
          (ms : meta) (compact : dict tname (list string)) (start : Z) (ord : list tname -> list tname)
          (queries : dict string table_query) (insert_order : list string).
Theorem run_executes : any_order ord -> (forall p n, rnd_ok (z p n)) -> (forall p n ks, length (rank p n ks) = length ks) ->
  runnable id_column reopen ms source compact queries ->
  (reopen = false -> no_self_references ms compact queries) ->
  (forall s, In s insert_order -> exists n, named s n) ->
  exists run, extract source cmpf textf rawf raw_cols z rank reopen ms compact start ord queries insert_order = Ok run /\
    Forall (stmt_runs reopen) (executed run).
Proof.
  intros Ho Hz Hr HR Hself Hi. destruct (runnable_total cmpf textf rawf raw_cols start Hr Ho Hz HR Hi) as (st & outs & E).
  exists (st, outs). split; [exact E|]. exact (run_executable Ho (rn_names HR) E Hself).
Qed.

(** C34 *)
Theorem run_sees st outs : any_order ord -> meta_ok ms -> source_unique ms source -> queries_ok queries -> plan_wf queries ->
  NoDup (dkeys compact) -> (forall p n ks, length (rank p n ks) = length ks) ->
  extract source cmpf textf rawf raw_cols z rank reopen ms compact start ord queries insert_order = Ok (st, outs) ->
  map (fun o => render (co_name o)) outs = filter (fun s => dmem queries s) insert_order /\
  exists sample rows : tname -> list row,
    selects cmpf textf rawf source (fun n w => exists p, w = z p n) id_column queries sample rows /\
    (forall n, ~ In n (dkeys compact) -> sample n = rows n) /\
    (forall o, In o outs -> not_compacted ms compact (co_name o) -> co_rows o = rows (co_name o)).
Proof.
  intros Ho Hm Hu Hq Hwf Hc Hr E. destruct (run_rows Ho Hm Hu Hq Hwf Hr Hc E) as (A & sample & B & C). split; [exact A|].
  set (hd (l : list row) := map (fun r : row => tl r) l).
  assert (Hrows : exists rows : tname -> list row, forall n, (~ In n (dkeys compact) -> sample n = rows n) /\
    forall s q, In (s, q) queries -> named s n -> (exists w, (exists p, w = z p n) /\ rows n = query_result cmpf textf rawf source sample w q) /\
      (sample n = rows n \/ with_column id_column (rows n) (sample n))).
  { set (q_of n := dget queries (render n)).
    set (cand p n := match q_of n with Some q => query_result cmpf textf rawf source sample (z p n) q | None => sample n end).
    exists (fun n => if memb n (dkeys compact) then if eqb (sample n) (cand PMaterialize n) then sample n
                     else if eqb (sample n) (cand PCopy n) then sample n
                     else hd (sample n) else sample n).
    intros n. split; [intros Hn; apply memb_false in Hn; rewrite Hn; reflexivity|]. intros s q Hin Hn.
    assert (Eq : q_of n = Some q) by (unfold q_of; rewrite <- (named_eq Hn); exact (In_dget (proj1 Hq) Hin)).
    destruct (B s q n Hin Hn) as (p & Bp). cbn zeta in Bp.
    assert (Ec : forall p, cand p n = query_result cmpf textf rawf source sample (z p n) q) by (intros p'; unfold cand; rewrite Eq; reflexivity).
    destruct Bp as [[Hnc Bp]|[Hc' Bp]].
    - apply memb_false in Hnc. rewrite Hnc. split; [|left; reflexivity]. exists (z p n). split; [eauto|exact Bp].
    - apply memb_true in Hc'. rewrite Hc'. destruct (eqb (sample n) (cand PMaterialize n)) eqn:E1.
      { apply (proj1 (eqb_true _ _)) in E1. rewrite Ec in E1. split; [|left; reflexivity]. exists (z PMaterialize n). split; [eauto|exact E1]. }
      destruct (eqb (sample n) (cand PCopy n)) eqn:E2.
      { apply (proj1 (eqb_true _ _)) in E2. rewrite Ec in E2. split; [|left; reflexivity]. exists (z PCopy n). split; [eauto|exact E2]. }
      destruct Bp as [Bp|Bp].
      { exfalso. destruct p; [apply eqb_false in E1; apply E1|apply eqb_false in E2; apply E2]; rewrite Ec; exact Bp. }
      assert (Eh : hd (sample n) = query_result cmpf textf rawf source sample (z p n) q).
      { destruct Bp as (vs & Hl & ->). unfold hd. rewrite map_map. cbn [tl].
        generalize dependent (query_result cmpf textf rawf source sample (z p n) q). clear. intros l. revert vs.
        induction l as [|r l IH]; intros [|v vs] H; cbn in *; try discriminate; [reflexivity|]. rewrite IH by lia. reflexivity. }
      split; [exists (z p n); split; [eauto|exact Eh]|]. right. rewrite Eh. exact Bp. }
  destruct Hrows as (rows & Hrows). exists sample, rows. split; [intros s q n Hin Hn; exact (proj2 (Hrows n) s q Hin Hn)|].
  split; [intros n; exact (proj1 (Hrows n))|]. intros o Ho' Hnc. rewrite (C o Ho' Hnc). exact (proj1 (Hrows _) (proj1 Hnc)).
Qed.

(** C40, C41 *)
Variable lt : list value -> list value -> Prop.
Hypothesis Hord : any_order ord.
Hypothesis Hrank : forall p n, rank_ok lt (rank p n).
Hypothesis HR : runnable id_column reopen ms source compact queries.

Notation selected := (selects cmpf textf rawf source (fun n w => exists p, w = z p n) id_column queries).

Lemma touched_not n : touched ms compact n -> ~ not_compacted ms compact n.
Proof. intros [H|(c & d & dc & H)] [H1 H2]; [exact (H1 H)|exact (H2 c d dc H)]. Qed.

Theorem run_written st outs :
  extract source cmpf textf rawf raw_cols z rank reopen ms compact start ord queries insert_order = Ok (st, outs) ->
  exists (sample rows : tname -> list row) (num : tname -> list Z), selected sample rows /\
    (forall n m, In (n, m) ms -> dense start (length (rows n)) (num n) /\ increasing lt (tb_pk (tm_table m)) (rows n) (num n)) /\
    (forall o, In o outs -> not_compacted ms compact (co_name o) -> co_rows o = rows (co_name o)) /\
    (forall o m, In o outs -> In (co_name o, m) ms -> touched ms compact (co_name o) -> unique_references cmpf ms compact rows (co_name o) ->
       co_cols o = tb_cols (tm_table m) /\
       Forall2 (fun kr r' => rewritten cmpf ms compact rows num (co_name o) m (fst kr) (snd kr) r')
               (combine (num (co_name o)) (rows (co_name o))) (co_rows o)).
Proof.
  intros E. destruct (run_compaction Hord (rn_meta HR) (rn_keys HR) (rn_names HR) (runnable_wf HR) (rn_compact HR) (rn_reads HR) Hrank E) as (sample & rows & num & A & B & C).
  exists sample, rows, num. split; [|split; [exact B|split]].
  - intros s q n Hin Hn. destruct (A s q n Hin Hn) as [(p & A1) A2]. split; [exists (z p n); split; [eauto|exact A1]|]. destruct A2 as [A2|[Hk A2]]; [left; exact A2|right].
    assert (Hm : exists m, In (n, m) ms) by (destruct (rn_fits HR _ _ _ Hin Hn) as [Hm _]; destruct (key_dget Hm) as (m & Em); exists m; exact (dget_In Em)).
    destruct Hm as (m & Hm). destruct (B n m Hm) as [Hd _]. exists (map VInt (num n)). split.
    + rewrite map_length. apply Permutation_length in Hd. rewrite map_length, seq_length in Hd. exact Hd.
    + rewrite A2. clear. generalize (rows n). generalize (num n). induction l as [|k l IH]; intros [|r rs]; cbn; try reflexivity. f_equal. apply IH.
  - intros o Hin Hnc. destruct (C o Hin) as (s & m & _ & _ & _ & _ & C1 & _). exact (C1 Hnc).
  - intros o m Hin Hm Ht Hs. destruct (C o Hin) as (s & m' & _ & _ & _ & Hm' & _ & C2).
    assert (m' = m) by (apply (In_dget (proj1 (rn_meta HR))) in Hm; apply (In_dget (proj1 (rn_meta HR))) in Hm'; congruence). subst m'.
    exact (C2 (touched_not Ht) Hs).
Qed.

Theorem run_dense st outs :
  extract source cmpf textf rawf raw_cols z rank reopen ms compact start ord queries insert_order = Ok (st, outs) ->
  exists (sample rows : tname -> list row), selected sample rows /\
    forall o m c, In o outs -> In (co_name o, m) ms -> compacted compact (co_name o) c -> In c (tb_cols (tm_table m)) ->
      unique_references cmpf ms compact rows (co_name o) ->
      exists num, dense start (length (rows (co_name o))) num /\ increasing lt (tb_pk (tm_table m)) (rows (co_name o)) num /\
        map (fun r => rget r c) (co_rows o) = map VInt num.
Proof.
  intros E. destruct (run_written E) as (sample & rows & num & A & B & _ & C). exists sample, rows. split; [exact A|].
  intros o m c Ho Hm Hc Hin Hs. exists (num (co_name o)). destruct (B _ _ Hm) as [B1 B2]. split; [exact B1|]. split; [exact B2|].
  assert (Ht : touched ms compact (co_name o)) by (left; destruct Hc as (cs & Hcs & _); apply in_map_iff; exists (co_name o, cs); auto).
  destruct (C o m Ho Hm Ht Hs) as [_ C2].
  assert (Hl : length (num (co_name o)) = length (rows (co_name o))).
  { apply Permutation_length in B1. rewrite map_length, seq_length in B1. exact B1. }
  destruct (rn_compact HR) as (_ & _ & Htab & _). destruct (Htab _ _ Hm) as (Htc & _).
  exact (proj1 (proj2 (written_numbers Htc Hl C2 B1 Hc Hin))).
Qed.

Theorem run_follows st outs : (forall k, cmpf CEq (VInt k) (VInt k) = true) ->
  extract source cmpf textf rawf raw_cols z rank reopen ms compact start ord queries insert_order = Ok (st, outs) ->
  exists (sample rows : tname -> list row) (num : tname -> list Z), selected sample rows /\
    (forall n m, In (n, m) ms -> dense start (length (rows n)) (num n)) /\
    (forall o, In o outs -> not_compacted ms compact (co_name o) -> co_rows o = rows (co_name o)) /\
    (forall o m, In o outs -> In (co_name o, m) ms -> touched ms compact (co_name o) -> unique_references cmpf ms compact rows (co_name o) ->
       co_cols o = tb_cols (tm_table m) /\ ~ In id_column (co_cols o) /\
       Forall2 (fun kr r' => rewritten cmpf ms compact rows num (co_name o) m (fst kr) (snd kr) r')
               (combine (num (co_name o)) (rows (co_name o))) (co_rows o)) /\
    (forall o o' m m' fk c dc, In o outs -> In o' outs -> In (co_name o, m) ms -> In (co_name o', m') ms ->
       In fk (tm_fks m) -> fk_cols fk = [c] -> fk_dst fk = co_name o' -> fk_dst_cols fk = [dc] ->
       In c (tb_cols (tm_table m)) -> In dc (tb_cols (tm_table m')) -> compacted compact (co_name o') dc -> ~ compacted compact (co_name o) c ->
       decides ms compact (co_name o) c (co_name o') dc ->
       unique_references cmpf ms compact rows (co_name o) -> unique_references cmpf ms compact rows (co_name o') ->
       fk_holds cmpf fk (co_rows o) (co_rows o')).
Proof.
  intros Hrefl E. destruct (run_written E) as (sample & rows & num & A & B & C & D). exists sample, rows, num. split; [exact A|].
  split; [intros n m Hm; exact (proj1 (B n m Hm))|]. split; [exact C|].
  assert (Hlen : forall n m, In (n, m) ms -> length (num n) = length (rows n)).
  { intros n m Hm. destruct (B n m Hm) as [B1 _]. apply Permutation_length in B1. rewrite map_length, seq_length in B1. exact B1. }
  split.
  - intros o m Ho Hm Ht Hs. destruct (D o m Ho Hm Ht Hs) as [D1 D2]. split; [exact D1|]. split; [|exact D2].
    destruct (rn_compact HR) as (_ & _ & Htab & _). destruct (Htab _ _ Hm) as (_ & Hid & _). rewrite D1. exact Hid.
  - intros o o' m m' fk c dc Ho Ho' Hm Hm' Hfk E1 E2 E3 Hc Hdc Hcd Hnc Hdec Hs Hs'.
    assert (Hg : governs ms compact (co_name o) c (co_name o') dc).
    { exists m, fk. split; [exact Hm|]. split; [exact Hfk|]. split; [exact E2|]. split; [rewrite E1, E3; left; reflexivity|exact Hcd]. }
    assert (Ht : touched ms compact (co_name o)) by (right; eauto).
    assert (Ht' : touched ms compact (co_name o')) by (left; destruct Hcd as (cs & Hcs & _); apply in_map_iff; exists (co_name o', cs); auto).
    destruct (D o m Ho Hm Ht Hs) as [_ D2]. destruct (D o' m' Ho' Hm' Ht' Hs') as [_ D2'].
    exact (written_fk (Hlen _ _ Hm) (Hlen _ _ Hm') D2 D2' E1 E3 Hc Hdc Hdec Hnc Hrefl).
Qed.
End Executable.

(** Numbering rows by an integer sort key (for the examples). *)
Section Rank.
Variable key : list value -> Z.
Definition ahead (x y : nat * list value) : bool :=
  (Z.ltb (key (snd x)) (key (snd y)) || (Z.eqb (key (snd x)) (key (snd y)) && Nat.ltb (fst x) (fst y)))%bool.
Definition rank_by (ks : list (list value)) : list nat :=
  let l := combine (seq 0 (length ks)) ks in map (fun x => S (length (filter (fun y => ahead y x) l))) l.

Lemma filter_le {A} (p q : A -> bool) l : (forall x, In x l -> p x = true -> q x = true) -> length (filter p l) <= length (filter q l).
Proof.
  induction l as [|a l IH]; intros H; cbn [filter length]; [lia|].
  assert (IH' : length (filter p l) <= length (filter q l)) by (apply IH; intros x Hx; apply H; right; exact Hx).
  destruct (p a) eqn:Ep; [rewrite (H a (or_introl eq_refl) Ep); cbn; lia|]. destruct (q a); cbn; lia.
Qed.
Lemma filter_lt {A} (p q : A -> bool) l a : (forall x, In x l -> p x = true -> q x = true) -> In a l -> p a = false -> q a = true ->
  length (filter p l) < length (filter q l).
Proof.
  intros H Ha Hp Hq. induction l as [|b l IH]; [destruct Ha|]. cbn [filter].
  assert (H' : forall x, In x l -> p x = true -> q x = true) by (intros x Hx; apply H; right; exact Hx).
  destruct Ha as [->|Ha].
  - rewrite Hp, Hq. cbn [length]. pose proof (filter_le H'). lia.
  - specialize (IH H' Ha). destruct (p b) eqn:Ep; [rewrite (H b (or_introl eq_refl) Ep); cbn; lia|]. destruct (q b); cbn; lia.
Qed.
Lemma rank_mono l x y : In x l -> ahead x y = true ->
  length (filter (fun w => ahead w x) l) < length (filter (fun w => ahead w y) l).
Proof.
  intros Hx Hxy. apply filter_lt with (a := x); [|exact Hx| |exact Hxy].
  - intros w _ Hw. unfold ahead in *. apply orb_true_iff in Hw, Hxy. apply orb_true_iff.
    rewrite !andb_true_iff in *. rewrite !Z.ltb_lt, !Z.eqb_eq, !Nat.ltb_lt in *. lia.
  - unfold ahead. apply orb_false_iff. rewrite andb_false_iff. rewrite Z.ltb_ge, Nat.ltb_ge. lia.
Qed.
Lemma rank_by_ok : rank_ok (fun a b => (key a < key b)%Z) rank_by.
Proof.
  intros ks. set (l := combine (seq 0 (length ks)) ks).
  assert (Hl : length l = length ks) by (unfold l; rewrite combine_length, seq_length; lia).
  assert (Hn : NoDup (map fst l)).
  { unfold l. replace (map fst (combine (seq 0 (length ks)) ks)) with (seq 0 (length ks)); [apply seq_NoDup|].
    symmetry. assert (Hg : forall a (b : list (list value)), length a = length b -> map (@fst nat (list value)) (combine a b) = a).
    { induction a as [|x a IH]; intros [|y b] H; cbn in *; try discriminate; [reflexivity|]. rewrite IH by lia. reflexivity. }
    apply Hg. apply seq_length. }
  assert (Htot : forall x y, In x l -> In y l -> x <> y -> ahead x y = true \/ ahead y x = true).
  { intros x y Hx Hy Hne. assert (fst x <> fst y) by (intros E; apply Hne; exact (NoDup_map_eq Hn Hx Hy E)).
    unfold ahead. rewrite !orb_true_iff, !andb_true_iff, !Z.ltb_lt, !Z.eqb_eq, !Nat.ltb_lt. lia. }
  assert (Hlt : forall x, In x l -> length (filter (fun y => ahead y x) l) < length l).
  { intros x Hx. replace (length l) with (length (filter (fun _ => true) l)) by (rewrite filter_true; auto).
    apply filter_lt with (a := x); auto. unfold ahead. apply orb_false_iff. rewrite andb_false_iff, Z.ltb_ge, Nat.ltb_ge. lia. }
  split.
  - apply NoDup_Permutation_bis.
    + unfold rank_by. fold l. apply NoDup_map_inj; [exact (NoDup_map_inv _ _ Hn)|]. intros x y Hx Hy E.
      destruct (eq_dec x y) as [Exy|Hne]; [exact Exy|]. exfalso. injection E as E. destruct (Htot x y Hx Hy Hne) as [H|H]; [pose proof (rank_mono Hx H)|pose proof (rank_mono Hy H)]; lia.
    + unfold rank_by. fold l. rewrite map_length, seq_length. lia.
    + intros k Hk. unfold rank_by in Hk. fold l in Hk. apply in_map_iff in Hk. destruct Hk as (x & <- & Hx). apply in_seq. specialize (Hlt x Hx). lia.
  - intros i j a b x y Ha Hb Hx Hy Hab. unfold rank_by in Hx, Hy. fold l in Hx, Hy.
    assert (Hnth : forall i a, nth_error ks i = Some a -> nth_error l i = Some (i, a)).
    { intros i0 a0 Hi. unfold l. assert (Hlt' : i0 < length ks) by (apply nth_error_Some; congruence).
      apply nth_error_combine. split; [|exact Hi]. rewrite nth_error_nth' with (d := 0) by (rewrite seq_length; exact Hlt'). rewrite seq_nth by exact Hlt'. reflexivity. }
    pose proof (Hnth _ _ Ha) as Ha'. pose proof (Hnth _ _ Hb) as Hb'.
    rewrite (map_nth_error _ _ _ Ha') in Hx. rewrite (map_nth_error _ _ _ Hb') in Hy. inv Hx. inv Hy.
    apply le_n_S. apply rank_mono; [exact (nth_error_In _ _ Ha')|]. unfold ahead. cbn [fst snd]. apply orb_true_iff. left. apply Z.ltb_lt. exact Hab.
Qed.
End Rank.

(** C42, where it holds *)
Theorem composite_follows source cmpf textf rawf raw_cols z rank reopen ms compact start ord lt queries insert_order st outs :
  any_order ord -> (forall p n, rank_ok lt (rank p n)) -> runnable id_column reopen ms source compact queries ->
  (forall k, cmpf CEq (VInt k) (VInt k) = true) ->
  extract source cmpf textf rawf raw_cols z rank reopen ms compact start ord queries insert_order = Ok (st, outs) ->
  exists (sample rows : tname -> list row) (num : tname -> list Z),
    selects cmpf textf rawf source (fun n w => exists p, w = z p n) id_column queries sample rows /\
    forall o m, In o outs -> In (co_name o, m) ms -> touched ms compact (co_name o) -> unique_references cmpf ms compact rows (co_name o) ->
      forall i k r r', nth_error (num (co_name o)) i = Some k -> nth_error (rows (co_name o)) i = Some r -> nth_error (co_rows o) i = Some r' ->
      forall fk c dc, In fk (tm_fks m) -> In (c, dc) (combine (fk_cols fk) (fk_dst_cols fk)) -> decides ms compact (co_name o) c (fk_dst fk) dc ->
        In c (tb_cols (tm_table m)) -> ~ compacted compact (co_name o) c ->
        follows cmpf (rows (fk_dst fk)) (num (fk_dst fk)) dc (rget r c) (rget r' c).
Proof.
  intros Ho Hr HR Hrefl E. destruct (run_written Ho Hr HR E) as (sample & rows & num & A & B & _ & C). exists sample, rows, num. split; [exact A|].
  intros o m Hin Hm Ht Hs i k r r' Hk Hi Hr' fk c dc Hfk Hcd Hdc Hc Hnc. destruct (C o m Hin Hm Ht Hs) as [_ F].
  assert (Hcomb : nth_error (combine (num (co_name o)) (rows (co_name o))) i = Some (k, r)) by (apply nth_error_combine; auto).
  assert (G : rewritten cmpf ms compact rows num (co_name o) m k r r').
  { clear - F Hcomb Hr'. revert i Hcomb Hr'. induction F as [|x y l l' Hxy F IH]; intros [|i] H1 H2; cbn in *; try discriminate.
    - inv H1. inv H2. exact Hxy.
    - exact (IH i H1 H2). }
  destruct G as [_ G]. destruct (G c Hc) as (_ & G2 & _). exact (G2 Hnc _ _ Hdc).
Qed.
