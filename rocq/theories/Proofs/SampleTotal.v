(** sampler.py: runs that cannot fail (C36). *)
From Coq Require Import Lia.
From Verif Require Import Model.Base Model.Solver Model.Value Model.Names Model.PlanModel Spec.SqlSem Model.SqlAlgebra Model.PlanBuild
  Model.Metadata Model.Materialize Spec.GraphSpec Spec.SchemaSpec Spec.PlannerSpec Spec.SampleSpec
  Proofs.BaseFacts Proofs.NameFacts Proofs.GraphFacts Proofs.BuildFacts Proofs.BuildRefs Proofs.MaterializeOrder Proofs.MaterializeRun
  Proofs.MetadataFacts Proofs.SampleRun Proofs.CompactRun Proofs.PlannerSem.
Set Implicit Arguments.
Unset Strict Implicit.

(** a statement that fits a schema fits one with more columns *)
Section Mono.
Variables cols cols' : ident -> option (list string).
Hypothesis Hmono : forall id t, cols id = Some t -> exists t', cols' id = Some t' /\ incl t t'.
Lemma fits_mono st : stmt_fits cols st -> stmt_fits cols' st.
Proof.
  set (Pw := fun c => forall t t', incl t t' -> wc_fits cols t c -> wc_fits cols' t' c).
  set (Ps := fun x => sel_fits cols x -> sel_fits cols' x).
  set (Pt := fun st => stmt_fits cols st -> stmt_fits cols' st).
  assert (Hl : forall l, Forall Pw l -> forall t t', incl t t' -> fold_right and True (map (wc_fits cols t) l) -> fold_right and True (map (wc_fits cols' t') l)).
  { induction l as [|c l IH]; intros HP t t' Hi Hf; [exact I|]. inv HP. cbn in *. destruct Hf as [H1' H2']. split; [eauto|eauto]. }
  apply (@stmt_i Pw Ps Pt).
  1,2,8,9: unfold Pw; cbn; intros; exact I.
  - intros op c v t t' Hi Hf. exact (Hi _ Hf).
  - intros cs vs neg t t' Hi Hf. cbn in *. intros c Hc. apply Hi, Hf, Hc.
  - intros cs s neg IH t t' Hi [Hf1 Hf2]. cbn. split; [intros c Hc; apply Hi, Hf1, Hc|exact (IH Hf2)].
  - intros l HP t t' Hi Hf. exact (Hl l HP t t' Hi Hf).
  - intros l HP t t' Hi Hf. exact (Hl l HP t t' Hi Hf).
  - intros cs from w lim js o IH Hf. cbn [sel_fits] in *. destruct Hf as (t & Ht & F1 & F2 & F3). destruct (Hmono Ht) as (t' & Ht' & Hi).
    exists t'. split; [exact Ht'|]. split; [destruct cs; [intros c Hc; apply Hi, F1, Hc|exact I]|]. split.
    + destruct js as [js|]; [|exact I]. revert F2. apply Forall_impl. intros j (J1 & rt & J2 & J3). split; [intros c Hc; apply Hi, J1, Hc|].
      destruct (Hmono J2) as (rt' & Hrt' & Hi'). exists rt'. split; [exact Hrt'|intros c Hc; apply Hi', J3, Hc].
    + destruct w as [w|]; [|exact I]. exact (IH t t' Hi F3).
  - intros x IH Hf. exact (IH Hf).
  - intros l HP Hf. change (fold_right and True (map (sel_fits cols) l)) in Hf. change (fold_right and True (map (sel_fits cols') l)).
    revert HP Hf. induction l as [|x l IHl]; intros HP Hf; [exact I|]. apply Forall_cons_iff in HP. destruct HP as [P1 P2]. cbn [map fold_right] in *.
    destruct Hf as [F1 F2]. split; [exact (P1 F1)|exact (IHl P2 F2)].
Qed.
Lemma query_fits_mono q : query_fits cols q -> query_fits cols' q.
Proof. unfold query_fits. destruct (q_sql q); [auto|]. intros (st & H1 & H2 & H3). exists st. split; [exact H1|]. split; [exact H2|]. exact (fits_mono H3). Qed.
End Mono.

Lemma NoDup_map_inj {A B} (f : A -> B) l : NoDup l -> (forall x y, In x l -> In y l -> f x = f y -> x = y) -> NoDup (map f l).
Proof.
  induction 1 as [|a l Ha Hn IH]; intros Hi; cbn; constructor.
  - intros Hin. apply in_map_iff in Hin. destruct Hin as (b & E & Hb). assert (b = a) by (apply Hi; [right; exact Hb|left; reflexivity|exact E]). subst. contradiction.
  - apply IH. intros x y Hx Hy. apply Hi; right; assumption.
Qed.
Lemma NoDup_map_eq {A B} (f : A -> B) l x y : NoDup (map f l) -> In x l -> In y l -> f x = f y -> x = y.
Proof.
  intros Hn Hx Hy E. induction l as [|a l IH]; [destruct Hx|]. cbn in Hn. apply NoDup_cons_iff in Hn. destruct Hn as [H1 H2].
  destruct Hx as [->|Hx], Hy as [->|Hy]; [reflexivity| | |apply IH; assumption].
  - exfalso. apply H1. rewrite E. apply in_map. exact Hy.
  - exfalso. apply H1. rewrite <- E. apply in_map. exact Hx.
Qed.
Lemma nodup_length_eq {A} (dec : forall x y : A, {x = y} + {x <> y}) l : NoDup l -> length (nodup dec l) = length l.
Proof. intros H. rewrite nodup_fixed_point; [reflexivity|exact H]. Qed.
Lemma combine_snd {A B} (l : list A) (l' : list B) : length l = length l' -> map snd (combine l l') = l'.
Proof. revert l'. induction l as [|a l IH]; intros [|b l'] H; cbn in *; try discriminate; [reflexivity|]. rewrite IH by lia. reflexivity. Qed.

Lemma create_total st n idx cols pk rows refs :
  (filter (fun c => memb c pk) cols <> [] -> NoDup (map (fun r => map (rget r) (filter (fun c => memb c pk) cols)) rows)) ->
  exists st', create_temp st n idx cols pk rows refs = Ok st'.
Proof.
  intros H. unfold create_temp. destruct (filter (fun c => memb c pk) cols) as [|c0 l0] eqn:E; cbn [is_nil negb andb]; [eauto|].
  rewrite nodup_length_eq; [|apply H; discriminate]. rewrite Nat.eqb_refl. cbn [negb]. eauto.
Qed.
Lemma copies_total n pk t0 : forall l st, ~ In 0 l ->
  dget (ts_objs st) (n, 0) = Some t0 ->
  (filter (fun c => memb c pk) (t_cols t0) <> [] ->
     NoDup (map (fun r => map (rget r) (filter (fun c => memb c pk) (t_cols t0))) (dget_or (ts_data st) (n, 0) []))) ->
  exists st', forM (fun st index =>
          let* t := dfind SxKeyError (ts_objs st) (n, 0) in
          create_temp st n index (t_cols t) pk (dget_or (ts_data st) (n, 0) []) [t_ref t]) l st = Ok st'.
Proof.
  induction l as [|i l IH]; intros st Hl H0 Hk; cbn [forM]; [eauto|].
  unfold dfind at 1. rewrite H0. cbn [bind]. destruct (create_total st n i [t_ref t0] Hk) as (st1 & E). rewrite E. cbn [bind].
  destruct (create_Ok E) as (E1 & E2 & _). assert (Hne : (n, 0) <> (n, i)) by (intros X; inv X; apply Hl; left; reflexivity).
  apply IH.
  - intros Hx. apply Hl. right. exact Hx.
  - rewrite E1, (dget_dset_ne _ _ Hne). exact H0.
  - unfold dget_or. rewrite E2, (dget_dset_ne _ _ Hne). exact Hk.
Qed.

Lemma compacted_get (compact : dict tname (list string)) n c : NoDup (dkeys compact) -> In c (dget_or compact n []) -> compacted compact n c.
Proof.
  intros _ H. unfold dget_or in H. destruct (dget compact n) as [cs|] eqn:E; [|destruct H]. exists cs. split; [exact (dget_In E)|exact H].
Qed.

Section Run.
Variables (source : tname -> list row) (cmpf : cmpop -> value -> value -> bool)
          (textf : string -> option (dict string lit) -> row -> tv)
          (rawf : string -> option (dict string lit) -> list row)
          (raw_cols : string -> option (dict string lit) -> list string)
          (z : phase -> tname -> rnd) (rank : phase -> tname -> list (list value) -> list nat) (reopen : bool)
          (ms : meta) (compact : dict tname (list string)) (start : Z) (ord : list tname -> list tname)
          (queries : dict string table_query).
Notation tdb := (temp_db source cmpf textf rawf).
Notation mat1 := (materialize_one source cmpf textf rawf z rank reopen ms compact start).
Notation mats := (materialize_tables source cmpf textf rawf z rank reopen ms compact start ord).
Notation ctx := (build_ctx reopen ms).

Hypothesis Hord : any_order ord.
Hypothesis Hms : meta_ok ms.
Hypothesis Hsrc : source_unique ms source.
Hypothesis Hnd : forall n, In n (dkeys ms) -> NoDup (source n).
Hypothesis Hq : queries_ok queries.
Hypothesis Hreads : plan_reads queries.
Hypothesis Hne : forall s q st, In (s, q) queries -> q_stmt q = Some st -> st <> SUnion [].
Hypothesis Hfit : plan_fits ms queries.
Hypothesis Hco : compact_ok ms compact id_column.
Hypothesis Hz : forall p n, rnd_ok (z p n).
Hypothesis Hrank : forall p n ks, length (rank p n ks) = length ks.

Lemma fit_wf : plan_wf queries.
Proof.
  intros s q st Hin Hst. destruct (proj2 Hq s) as (n & Hn); [apply in_map_iff; exists (s, q); auto|].
  destruct (Hfit Hin Hn) as [_ Hf]. destruct (Hreads Hin Hn) as (E & _). unfold query_fits in Hf. rewrite E in Hf. destruct Hf as (st' & E' & Hwf & _).
  rewrite Hst in E'. inv E'. exact Hwf.
Qed.

Definition scols (n : tname) (m : tmeta) : list string :=
  if dmem compact n then id_column :: tb_cols (tm_table m) else tb_cols (tm_table m).
Definition all_cols (id : ident) : option (list string) :=
  match dget ms (i_name id) with Some m => Some (if i_sampled id then scols (i_name id) m else tb_cols (tm_table m)) | None => None end.
Lemma source_all id t : source_cols ms id = Some t -> exists t', all_cols id = Some t' /\ incl t t'.
Proof.
  unfold source_cols, all_cols. destruct (dget ms (i_name id)) as [m|]; [|discriminate]. intros E. inv E. eexists. split; [reflexivity|].
  unfold scols. intros c Hc. destruct (i_sampled id); [|exact Hc]. destruct (dmem compact (i_name id)); [right|]; exact Hc.
Qed.

(** temporary tables of the tables in [done] *)
Definition inv (done : list (tname * nat)) (st : tstate) : Prop :=
  swf st /\
  (forall n i, In (n, i) (dkeys (ts_objs st)) <-> exists c, In (n, c) done /\ (i = 0 \/ (reopen = false /\ 1 <= i < c))) /\
  (forall n i t, dget (ts_objs st) (n, i) = Some t -> exists m, dget ms n = Some m /\ t_cols t = scols n m).

Lemma ctx_sound done st id c t c' : inv done st -> ctx st id c = Ok (t, c') -> all_cols id = Some (t_cols t).
Proof.
  intros (_ & _ & I3) H. apply ctx_inv in H. unfold all_cols. destruct H as [(Hs & i & Hi & _)|(Hs & _ & m & Hm & ->)]; rewrite Hs.
  - destruct (I3 _ _ _ Hi) as (m & Hm & E). rewrite Hm, E. reflexivity.
  - rewrite Hm. reflexivity.
Qed.

Definition available (st : tstate) (d : tname) (k : nat) : Prop :=
  if reopen then In (d, 0) (dkeys (ts_objs st)) else forall i, i < k -> In (d, i) (dkeys (ts_objs st)).

Lemma ctx_total st ids : forall c, (forall id, In id ids -> In (i_name id) (dkeys ms)) ->
  (forall id, In id ids -> i_sampled id = true -> available st (i_name id) (dget_or c (i_name id) 0 + sample_count (i_name id) ids)) ->
  exists ts c', call_all (ctx st) ids c = Ok (ts, c').
Proof.
  induction ids as [|id ids IH]; intros c Hin Ha; cbn [call_all]; [eauto|].
  assert (Hcall : exists t c1, ctx st id c = Ok (t, c1) /\ forall d, dget_or c1 d 0 <= dget_or c d 0 + (if i_sampled id && eqb (i_name id) d then 1 else 0)).
  { unfold build_ctx, sql_build_context. destruct (i_sampled id) eqn:Es.
    - pose proof (Ha id (or_introl eq_refl) Es) as Hav. unfold available in Hav. destruct reopen.
      + destruct (key_dget Hav) as (t & Ht). unfold dfind. rewrite Ht. cbn [bind]. do 2 eexists. split; [reflexivity|]. intros d. lia.
      + assert (Hk : In (i_name id, dget_or c (i_name id) 0) (dkeys (ts_objs st))).
        { apply Hav. unfold sample_count. cbn [filter]. rewrite Es, eqb_refl. cbn. lia. }
        destruct (key_dget Hk) as (t & Ht). unfold dfind. rewrite Ht. cbn [bind]. do 2 eexists. split; [reflexivity|]. intros d.
        rewrite dget_or_dset. unfold eqb. destruct (eq_dec d (i_name id)) as [->|Hd].
        * destruct (eq_dec (i_name id) (i_name id)) as [_|]; [cbn; lia|congruence].
        * lia.
    - destruct (key_dget (Hin id (or_introl eq_refl))) as (m & Hm). unfold dfind. rewrite Hm. cbn [bind]. do 2 eexists. split; [reflexivity|]. intros d. cbn. lia. }
  destruct Hcall as (t & c1 & Et & Hc1). rewrite Et. cbn [bind].
  destruct (IH c1) as (ts & c' & E).
  - intros id' Hid'. apply Hin. right. exact Hid'.
  - intros id' Hid' Es'. pose proof (Ha id' (or_intror Hid') Es') as Hav. unfold available in *. destruct reopen; [exact Hav|].
    intros i Hi. apply Hav. specialize (Hc1 (i_name id')). unfold sample_count in *. cbn [filter].
    destruct (i_sampled id && eqb (i_name id) (i_name id')); cbn [length]; lia.
  - rewrite E. cbn [bind]. eauto.
Qed.

Lemma build_total' done st s q n : inv done st -> In (s, q) queries -> named s n ->
  (forall d, reads_sample queries n d -> available st d (sample_count d (query_ids q))) ->
  exists b c, build_query (ctx st) q [] = Ok (b, c).
Proof.
  intros Hi Hin Hn Ha. destruct (Hfit Hin Hn) as [_ Hf].
  destruct (ctx_total (st := st) (ids := query_ids q) (c := [])) as (ts & c & E).
  - intros id Hid. pose proof (fits_query_ids Hf Hid) as Hx. unfold source_cols in Hx. destruct (dget ms (i_name id)) eqn:Eg; [|congruence]. exact (dget_Some_key Eg).
  - intros id Hid Hs. apply Ha. exists s, q, id. auto.
  - destruct (build_query_total (fun id c t c' => ctx_sound (id := id) (c := c) (t := t) (c' := c') Hi) (query_fits_mono source_all Hf) E) as (b & Eb). eauto.
Qed.

Lemma selected_total stm m n st c b cnt : reads_only n stm -> stm <> SUnion [] -> dget ms n = Some m ->
  build_stmt (ctx st) stm c = Ok (b, cnt) -> selected_columns b = Ok (tb_cols (tm_table m)).
Proof.
  intros Hr Hn Hm Hb. assert (He : exists cols, selected_columns b = Ok cols).
  { destruct stm as [x|l].
    - cbn [build_stmt] in Hb. destruct (build_sel_columns Hb) as (t & s1 & f & gb & ws & lim & _ & -> & _). cbn [selected_columns]. destruct (s_columns x) as [[|c0 cs]|]; eauto.
    - rewrite build_union in Hb. apply bind_Ok in Hb. destruct Hb as ([qs s1] & Hqs & Hb). inv Hb. destruct l as [|x l]; [congruence|]. cbn [build_sels] in Hqs.
      apply bind_Ok in Hqs. destruct Hqs as ([q0 s2] & Hq0 & Hqs). apply bind_Ok in Hqs. destruct Hqs as ([qs1 s3] & _ & Hqs). inv Hqs.
      destruct (build_sel_columns Hq0) as (t & s4 & f & gb & ws & lim & _ & -> & _). cbn [selected_columns]. destruct (s_columns x) as [[|c0 cs]|]; eauto. }
  destruct He as (cols & E). rewrite E. f_equal. symmetry. exact (reads_selected Hr Hm Hb E).
Qed.

Lemma keys_unique zz n m stm smp cols : rnd_ok zz -> dget ms n = Some m -> reads_only n stm -> incl (tb_pk (tm_table m)) cols ->
  let pk' := filter (fun c => memb c (tb_pk (tm_table m))) cols in pk' <> [] ->
  NoDup (map (fun r => map (rget r) pk') (sem_stmt (plan_env cmpf textf source smp) zz stm)).
Proof.
  intros Hzz Hm Hr Hpk pk' Hpk'. pose proof (dget_Some_key Hm) as Hk.
  apply NoDup_map_inj; [exact (reads_nodup cmpf textf smp Hzz Hr (Hnd Hk))|]. intros x y Hx Hy E.
  apply (reads_source Hzz Hr) in Hx. apply (reads_source Hzz Hr) in Hy.
  assert (Hp : tb_pk (tm_table m) <> []).
  { intros E0. apply Hpk'. unfold pk'. rewrite E0. clear. induction cols as [|a l IH]; [reflexivity|exact IH]. }
  apply (NoDup_map_eq (Hsrc (dget_In Hm) Hp) Hx Hy). apply map_ext_in. intros c Hc.
  assert (Hc' : In c pk') by (apply filter_In; split; [apply Hpk; exact Hc|apply memb_true; exact Hc]).
  clear - E Hc'. induction pk' as [|a l IH]; [destruct Hc'|]. cbn in E. injection E as E1 E2. destruct Hc' as [->|Hc']; [exact E1|exact (IH E2 Hc')].
Qed.

Lemma mat1_total done st s q n c : inv done st -> In (s, q) queries -> named s n ->
  (forall d, reads_sample queries n d -> available st d (sample_count d (query_ids q))) -> ~ In n (map fst done) ->
  exists st', mat1 queries st (n, c) = Ok st' /\ inv (done ++ [(n, c)]) st'.
Proof.
  intros Hi Hin Hn Ha Hfresh. destruct (Hfit Hin Hn) as [Hk _]. destruct (key_dget Hk) as (m & Hm).
  destruct (in_queries Hq Hin Hn) as [_ Eq]. destruct (build_total' Hi Hin Hn Ha) as (b & cnt & Eb).
  destruct (Hreads Hin Hn) as (E1 & stm & E2 & Hr).
  assert (Hsel : selected_columns b = Ok (tb_cols (tm_table m))).
  { unfold build_query in Eb. rewrite E1, E2 in Eb. exact (selected_total Hr (Hne Hin E2) Hm Eb). }
  destruct Hi as (Hw & I2 & I3).
  assert (Hrows : eval_query (tdb st) (z PMaterialize n) b = sem_stmt (plan_env cmpf textf source (data st)) (z PMaterialize n) stm).
  { exact (build_rows cmpf textf rawf Hms Hsrc (z PMaterialize n) Hw (fun _ _ => eq_refl) E1 E2 (fit_wf Hin E2) Eb). }
  destruct Hco as (Hcn & Hcne & Htab & Hgid). destruct (Htab n m (dget_In Hm)) as (Htc & Hid & Hpk).
  set (pk := tb_pk (tm_table m)) in *. set (rows := eval_query (tdb st) (z PMaterialize n) b) in *.
  set (rows' := if dmem compact n then map (fun vr => (id_column, fst vr) :: snd vr) (number_rows rank start PMaterialize n pk rows) else rows).
  assert (Hpk1 : incl pk (scols n m)) by (intros x Hx; unfold scols; destruct (dmem compact n); [right|]; exact (Hpk x Hx)).
  assert (Hkeys : filter (fun c => memb c pk) (scols n m) <> [] -> NoDup (map (fun r => map (rget r) (filter (fun c => memb c pk) (scols n m))) rows')).
  { intros Hx. pose proof (keys_unique (data st) (Hz PMaterialize n) Hm Hr Hpk1 Hx) as Hu. rewrite <- Hrows in Hu. unfold rows'. destruct (dmem compact n); [|exact Hu].
    rewrite map_map. erewrite map_ext_in; [|].
    - rewrite <- (map_map snd (fun r => map (rget r) (filter (fun c => memb c pk) (scols n m)))).
      unfold number_rows. rewrite combine_snd; [exact Hu|]. rewrite map_length, Hrank, map_length. reflexivity.
    - intros vr _. cbn beta. apply map_ext_in. intros c0 Hc0. apply filter_In in Hc0. destruct Hc0 as [_ Hc0]. apply memb_true in Hc0.
      apply rget_cons_ne. intros ->. exact (Hid (Hpk _ Hc0)). }
  assert (Hmat : exists st', mat1 queries st (n, c) = Ok st').
  { unfold materialize_one, dfind. rewrite Hm, Eq. cbn [bind]. fold (ctx st). rewrite Eb. cbn [lift_build bind]. rewrite Hsel. cbn [bind].
    fold pk. fold rows.
    destruct (create_total st n 0 (query_refs b) Hkeys) as (st1 & Ec).
    assert (E : (if dmem compact n
                 then let* _ := need_cols (tb_cols (tm_table m)) pk in
                      create_temp st n 0 (id_column :: tb_cols (tm_table m)) pk
                        (map (fun vr => (id_column, fst vr) :: snd vr) (number_rows rank start PMaterialize n pk rows)) (query_refs b)
                 else create_temp st n 0 (tb_cols (tm_table m)) pk rows (query_refs b)) = Ok st1).
    { unfold scols, rows' in Ec. destruct (dmem compact n); [|exact Ec]. unfold need_cols. rewrite (proj2 (subsetb_true _ _) Hpk). exact Ec. }
    rewrite E. cbn [bind]. destruct (create_Ok Ec) as (F1 & F2 & _). destruct reopen; [eauto|].
    apply copies_total with (t0 := mkT (TTemp n 0) (scols n m) (filter (fun c => memb c pk) (scols n m))).
    - rewrite in_seq. lia.
    - rewrite F1. apply dget_dset_eq.
    - cbn [t_cols]. rewrite F2, dget_or_dset. destruct (eq_dec (n, 0) (n, 0)); [exact Hkeys|congruence]. }
  destruct Hmat as (st' & E). exists st'. split; [exact E|].
  assert (Hfr : forall i, ~ In (n, i) (dkeys (ts_objs st))).
  { intros i Hx. apply I2 in Hx. destruct Hx as (c0 & Hc0 & _). apply Hfresh. apply in_map_iff. exists (n, c0). auto. }
  pose proof (mat1_spec Hw Hfr E) as Hs. split; [exact (step_wf Hs)|]. split.
  - intros n' i. destruct (eq_dec n' n) as [->|Hn'].
    + rewrite (step_copies Hs i). split.
      * intros Hx. exists c. split; [apply in_or_app; right; left; reflexivity|exact Hx].
      * intros (c0 & Hc0 & Hx). apply in_app_or in Hc0. destruct Hc0 as [Hc0|[X|[]]]; [exfalso; apply Hfresh; apply in_map_iff; exists (n, c0); auto|]. inv X. exact Hx.
    + assert (Hiff : In (n', i) (dkeys (ts_objs st')) <-> In (n', i) (dkeys (ts_objs st))).
      { split; intros Hx; destruct (key_dget Hx) as (t & Ht); [rewrite (step_other Hs i Hn') in Ht|rewrite <- (step_other Hs i Hn') in Ht]; exact (dget_Some_key Ht). }
      rewrite Hiff, I2. split; intros (c0 & Hc0 & Hx); exists c0; (split; [|exact Hx]); [apply in_or_app; left; exact Hc0|].
      apply in_app_or in Hc0. destruct Hc0 as [Hc0|[X|[]]]; [exact Hc0|]. inv X. congruence.
  - intros n' i t Ht. destruct (eq_dec n' n) as [->|Hn'].
    + destruct (step_all Hs) as (m' & q' & b' & c' & cols' & rows0 & G1 & G2 & G3 & G4 & _ & _ & G7). rewrite Hm in G1. inv G1. rewrite Eq in G2. inv G2.
      rewrite Eb in G3. inv G3. rewrite Hsel in G4. inv G4. exists m'. split; [exact Hm|]. destruct (G7 i t Ht) as [G8 _]. exact G8.
    + rewrite (step_other Hs i Hn') in Ht. exact (I3 _ _ _ Ht).
Qed.

Lemma mats_total order : materialization_order ord ms compact queries = Ok order -> exists st, mats queries = Ok st /\ inv order st.
Proof.
  intros Ho. unfold materialize_tables. rewrite Ho. cbn [bind].
  pose proof (order_inside Hord Hq Ho) as Hin. destruct (order_spec Hord Hq (proj1 Hco) (proj1 Hms) Hin Ho) as (Hn & Hmem & Hbef).
  assert (Hloop : forall todo done st, order = done ++ todo -> inv done st -> exists st', forM (mat1 queries) todo st = Ok st' /\ inv order st').
  { induction todo as [|[n c] todo IH]; intros done st E Hi.
    - rewrite app_nil_r in E. subst done. exists st. split; [reflexivity|exact Hi].
    - cbn [forM]. assert (Hn' : In n (map fst order)) by (rewrite E, map_app; apply in_or_app; right; left; reflexivity).
      destruct (proj1 (Hmem n) Hn') as ((s & Hs & Hsk) & _). destruct (key_dget Hsk) as (q & Eq).
      destruct (mat1_total (done := done) (st := st) (s := s) (q := q) (n := n) c) as (st1 & E1 & Hi1); [exact Hi|exact (dget_In Eq)|exact Hs| | |].
      + intros d Hd. pose proof (Hbef n d Hd Hn') as Hb. rewrite E, map_app in Hb. cbn [map fst] in Hb. rewrite E, map_app in Hn. cbn [map fst] in Hn.
        assert (Hd' : In d (map fst done)).
        { apply NoDup_app_iff in Hn. destruct Hn as (_ & Hn2 & Hdis). apply before_app_inv in Hb. destruct Hb as [Hb|[[Hb _]|Hb]].
          - exact (before_In_l Hb).
          - exact Hb.
          - exfalso. apply before_cons_inv in Hb. apply NoDup_cons_iff in Hn2. destruct Hn2 as [Hn2 _].
            destruct Hb as [[-> Hb]|Hb]; [contradiction|]. apply Hn2. exact (before_In_r Hb). }
        apply in_map_iff in Hd'. destruct Hd' as ([d' cd] & Ed & Hd'). cbn in Ed. subst d'.
        destruct Hi as (_ & I2 & _). unfold available. destruct (Sumbool.sumbool_of_bool reopen) as [Er|Er]; rewrite Er.
        * apply I2. exists cd. auto.
        * intros i Hlt. apply I2. exists cd. split; [exact Hd'|].
          assert (Hle : sample_count d (query_ids q) <= cd).
          { destruct (Hfit (dget_In Eq) Hs) as [Hk _]. destruct (key_dget Hk) as (m & Hm).
            assert (Hdo : In (d, cd) order) by (rewrite E; apply in_or_app; left; exact Hd').
            pose proof (order_counts Hq Ho (dget_In Eq) Hs Hm Hdo). lia. }
          destruct i; [left; reflexivity|right; split; [exact Er|lia]].
      + rewrite E, map_app in Hn. apply NoDup_app_iff in Hn. destruct Hn as (_ & _ & Hdis). intros Hx. apply (Hdis n Hx). left. reflexivity.
      + rewrite E1. cbn [bind]. apply (IH (done ++ [(n, c)]) st1); [rewrite <- app_assoc; exact E|exact Hi1]. }
  apply (Hloop order [] no_temps eq_refl). split; [intros n i t Ht; discriminate|]. split; [|intros n i t Ht; discriminate].
  intros n i. split; [intros []|intros (c & [] & _)].
Qed.

(** compacted columns referred to by planned tables are in planned tables *)
Hypothesis Hgov : forall n c d dc, has_query queries n -> governs ms compact n c d dc ->
  has_query queries d /\ exists md, In (d, md) ms /\ In dc (tb_cols (tm_table md)).
Hypothesis Hone : reopen = false -> one_compacted ms compact.

Lemma remote_fk_count n m d l : reopen = false -> In (n, m) ms -> NoDup l -> remote_count (dget_or compact n []) (remote_compact compact m) d l <= fk_count compact d m.
Proof.
  intros Er Hm Hl. unfold remote_count, fk_count.
  set (g := fun fk => match filter (fun sd : string * string => memb (snd sd) (dget_or compact (fk_dst fk) [])) (combine (fk_cols fk) (fk_dst_cols fk)) with [] => [] | p :: _ => [fst p] end).
  transitivity (length (flat_map g (filter (fun fk => eqb (fk_dst fk) d) (compact_fks compact m)))).
  - apply NoDup_incl_length; [apply NoDup_filter; exact Hl|]. intros c Hc. apply filter_In in Hc. destruct Hc as [_ Hc].
    apply andb_true_iff in Hc. destruct Hc as [_ Hc]. destruct (dget (remote_compact compact m) c) as [[d' dc]|] eqn:E; [|discriminate]. apply (proj1 (eqb_true _ _)) in Hc. subst d'.
    destruct (remote_compact_In E) as (fk & F1 & F2 & F3 & F4). apply in_flat_map. exists fk. split.
    + apply filter_In. split; [|apply eqb_true; exact F2]. unfold compact_fks. apply filter_In. split; [exact F1|]. apply existsb_exists. exists dc.
      split; [exact (in_combine_r _ _ _ _ F3)|]. rewrite F2. apply memb_true. exact F4.
    + unfold g. rewrite F2. assert (Hin : In (c, dc) (filter (fun sd : string * string => memb (snd sd) (dget_or compact d [])) (combine (fk_cols fk) (fk_dst_cols fk)))) by (apply filter_In; split; [exact F3|apply memb_true; exact F4]).
      destruct (filter _ _) as [|[a b] rest] eqn:Ef; [destruct Hin|]. left. cbn [fst].
      assert (Hab : In (a, b) (filter (fun sd : string * string => memb (snd sd) (dget_or compact d [])) (combine (fk_cols fk) (fk_dst_cols fk)))) by (rewrite Ef; left; reflexivity).
      apply filter_In in Hab. destruct Hab as [Hab Hb]. cbn [snd] in Hb. apply memb_true in Hb.
      refine (Hone Er Hm F1 Hab F3 _ _); rewrite F2; apply compacted_get; try assumption; exact (proj1 Hco).
  - generalize (filter (fun fk => eqb (fk_dst fk) d) (compact_fks compact m)). intros fks. induction fks as [|fk fks IH]; cbn [flat_map length]; [lia|]. rewrite app_length.
    assert (length (g fk) <= 1) by (unfold g; destruct (filter _ _); cbn; lia). lia.
Qed.

Lemma copy_columns_total done st n m cols : inv done st -> In (n, m) ms -> has_query queries n -> forall l counts, incl l cols ->
  (forall c d dc, In c l -> dget (remote_compact compact m) c = Some (d, dc) ->
     available st d (dget_or counts d 0 + remote_count (dget_or compact n []) (remote_compact compact m) d l)) ->
  exists xs, copy_columns reopen ms st cols (dget_or compact n []) (remote_compact compact m) counts l = Ok xs.
Proof.
  intros Hi Hm Hqn. pose proof Hi as (_ & _ & I3). set (ccols := dget_or compact n []). set (remote := remote_compact compact m).
  induction l as [|c l IH]; intros counts Hl Ha; cbn [copy_columns]; [eauto|].
  assert (Hstep : exists x counts', copy_column reopen ms st cols ccols remote counts c = Ok (x, counts') /\
            forall d, dget_or counts' d 0 <= dget_or counts d 0 + remote_count ccols remote d [c]).
  { unfold copy_column. destruct (memb c ccols) eqn:Ec; [do 2 eexists; split; [reflexivity|intros d; lia]|].
    assert (Hnc : need_cols cols [c] = Ok tt).
    { unfold need_cols. rewrite (proj2 (subsetb_true _ _)); [reflexivity|]. intros x [<-|[]]. apply Hl. left. reflexivity. }
    destruct (dget remote c) as [[d dc]|] eqn:Er; [|rewrite Hnc; cbn [bind]; do 2 eexists; split; [reflexivity|intros d; lia]].
    pose proof (Ha c d dc (or_introl eq_refl) Er) as Hav.
    assert (Hrc : remote_count ccols remote d (c :: l) = S (remote_count ccols remote d l)).
    { unfold remote_count. cbn [filter]. rewrite Ec, Er, eqb_refl. reflexivity. }
    destruct (remote_compact_In Er) as (fk & F1 & F2 & F3 & F4).
    assert (Hg : governs ms compact n c d dc) by (exists m, fk; split; [exact Hm|]; split; [exact F1|]; split; [exact F2|]; split; [exact F3|apply compacted_get; [exact (proj1 Hco)|exact F4]]).
    destruct (Hgov Hqn Hg) as (_ & md & Hmd & Hdc).
    assert (Ed : dget ms d = Some md) by exact (In_dget (proj1 Hms) Hmd).
    assert (Hcd : dmem compact d = true).
    { unfold dget_or in F4. destruct (dget compact d) as [cs|] eqn:X; [|destruct F4]. apply dmem_true. exact (dget_Some_key X). }
    assert (Hfin : forall i t, dget (ts_objs st) (d, i) = Some t ->
      has_col t id_column = Ok tt /\ has_col t dc = Ok tt).
    { intros i t Ht. destruct (I3 _ _ _ Ht) as (md' & Emd' & Et). rewrite Ed in Emd'. inv Emd'. unfold scols in Et. rewrite Hcd in Et.
      unfold has_col. rewrite Et. rewrite (proj2 (memb_true _ _)); [|left; reflexivity]. rewrite (proj2 (memb_true _ _)); [auto|right; exact Hdc]. }
    unfold build_ctx, sql_build_context. cbn [i_sampled]. unfold i_name. cbn [i_schema i_table].
    replace (fst d, snd d) with d by (destruct d; reflexivity).
    unfold available in Hav. destruct reopen eqn:Ero.
    - destruct (key_dget Hav) as (t & Ht). unfold dfind. rewrite Ht. cbn [bind lift_build]. destruct (Hfin _ _ Ht) as [-> ->]. cbn [bind lift_build]. rewrite Hnc. cbn [bind].
      do 2 eexists. split; [reflexivity|]. intros d'. lia.
    - assert (Hk : In (d, dget_or counts d 0) (dkeys (ts_objs st))) by (apply Hav; lia).
      destruct (key_dget Hk) as (t & Ht). unfold dfind. rewrite Ht. cbn [bind lift_build]. destruct (Hfin _ _ Ht) as [-> ->]. cbn [bind lift_build]. rewrite Hnc. cbn [bind].
      do 2 eexists. split; [reflexivity|]. intros d'. rewrite dget_or_dset. unfold remote_count. cbn [filter]. rewrite Ec, Er. cbn [negb andb]. unfold eqb.
      destruct (eq_dec d' d) as [->|Hd]; [destruct (eq_dec d d); [cbn; lia|congruence]|lia]. }
  destruct Hstep as (x & counts' & Ex & Hc'). rewrite Ex. cbn [bind].
  destruct (IH counts') as (xs & Exs).
  - intros y Hy. apply Hl. right. exact Hy.
  - intros c0 d dc Hc0 Hr. pose proof (Ha c0 d dc (or_intror Hc0) Hr) as Hav. unfold available in *. destruct reopen; [exact Hav|]. intros i Hlt. apply Hav.
    specialize (Hc' d). assert (remote_count ccols remote d (c :: l) = remote_count ccols remote d [c] + remote_count ccols remote d l).
    { unfold remote_count. change (c :: l) with ([c] ++ l). rewrite filter_app, app_length. reflexivity. }
    lia.
  - rewrite Exs. cbn [bind]. eauto.
Qed.

Lemma copy_statement_total order st s q n : materialization_order ord ms compact queries = Ok order -> inv order st -> In (s, q) queries -> named s n ->
  exists c, copy_statement reopen ms compact st n q = Ok c.
Proof.
  intros Ho Hi Hin Hn. pose proof Hi as (Hw & I2 & I3). destruct (Hfit Hin Hn) as [Hk Hf]. destruct (key_dget Hk) as (m & Hm).
  pose proof (order_inside Hord Hq Ho) as Hins. destruct (order_spec Hord Hq (proj1 Hco) (proj1 Hms) Hins Ho) as (_ & Hmem & _).
  assert (Hqn : has_query queries n) by (exists s; split; [exact Hn|apply in_map_iff; exists (s, q); auto]).
  assert (Havail : forall d, has_query queries d -> needed ms compact queries d -> available st d (sample_count d (query_ids q) + fk_count compact d m)).
  { intros d Hd1 Hd2. destruct (proj1 (in_map_iff _ _ _) (proj2 (Hmem d) (conj Hd1 Hd2))) as ([d' cd] & E & Hdo). cbn in E. subst d'.
    unfold available. destruct (Sumbool.sumbool_of_bool reopen) as [Er|Er]; rewrite Er; [apply I2; exists cd; auto|].
    intros i Hlt. apply I2. exists cd. split; [exact Hdo|]. pose proof (order_counts Hq Ho Hin Hn Hm Hdo). destruct i; [left; reflexivity|right; split; [exact Er|lia]]. }
  assert (Hbase : exists b cnt, (match dget (ts_objs st) (n, 0) with
     | Some t => Ok (QSelect None (FTable t) None [] None, [])
     | None => lift_build (build_query (build_ctx reopen ms st) q []) end) = Ok (b, cnt) /\
     (exists cols, selected_columns b = Ok cols /\ incl (tb_cols (tm_table m)) cols) /\
     (reopen = false -> forall d, dget_or cnt d 0 <= sample_count d (query_ids q))).
  { destruct (dget (ts_objs st) (n, 0)) as [t|] eqn:Et.
    - do 2 eexists. split; [reflexivity|]. split; [|intros _ d; unfold dget_or; cbn; lia]. cbn [selected_columns from_table]. eexists. split; [reflexivity|].
      destruct (I3 _ _ _ Et) as (m' & Em' & ->). rewrite Hm in Em'. inv Em'. unfold scols. intros x Hx. destruct (dmem compact n); [right|]; exact Hx.
    - destruct (build_total' Hi Hin Hn) as (b & cnt & Eb).
      { intros d Hd. assert (Hd' : has_query queries d) by exact (Hins n d Hd). specialize (Havail d Hd' (or_introl (ex_intro _ n Hd))).
        unfold available in *. destruct reopen; [exact Havail|]. intros i Hlt. apply Havail. lia. }
      rewrite Eb. do 2 eexists. split; [reflexivity|]. split.
      + destruct (Hreads Hin Hn) as (E1 & stm & E2 & Hr). eexists. split; [|apply incl_refl]. unfold build_query in Eb. rewrite E1, E2 in Eb. exact (selected_total Hr (Hne Hin E2) Hm Eb).
      + intros Er d. rewrite (proj1 (proj2 (ctx_query_refs Hw Eb) Er d)). lia. }
  destruct Hbase as (b & cnt & Eb & (cols & Ecols & Hcols) & Hcnt). unfold copy_statement. fold (build_ctx reopen ms st). rewrite Eb. cbn [bind]. unfold dfind. rewrite Hm. cbn [bind].
  destruct (is_nil (remote_compact compact m) && is_nil (dget_or compact n [])); [eauto|]. rewrite Ecols. cbn [bind].
  destruct Hco as (_ & _ & Htab & _). destruct (Htab n m (dget_In Hm)) as (Htc & _ & Hpk).
  unfold need_cols at 1. rewrite (proj2 (subsetb_true _ _)); [|intros x Hx; apply Hcols, Hpk, Hx]. cbn [bind].
  destruct (copy_columns_total (m := m) Hi (dget_In Hm) Hqn (l := tb_cols (tm_table m)) (cols := cols) (counts := cnt)) as (xs & Exs); [exact Hcols| |rewrite Exs; cbn [bind]; eauto].
  intros c d dc Hc Hr. destruct (remote_compact_In Hr) as (fk & F1 & F2 & F3 & F4).
  assert (Hcd : compacted compact d dc) by (apply compacted_get; [exact (proj1 Hco)|exact F4]).
  assert (Hg : governs ms compact n c d dc) by (exists m, fk; split; [exact (dget_In Hm)|]; split; [exact F1|]; split; [exact F2|]; split; [exact F3|exact Hcd]).
  destruct (Hgov Hqn Hg) as (Hqd & _). destruct Hcd as (cs & Hcs & Hdc).
  assert (Hnd' : needed ms compact queries d).
  { right. exists n, m, fk, dc, cs. split; [exact Hqn|]. split; [exact (dget_In Hm)|]. split; [exact F1|]. split; [exact F2|]. split; [exact (in_combine_r _ _ _ _ F3)|]. auto. }
  specialize (Havail d Hqd Hnd'). unfold available in *. destruct (Sumbool.sumbool_of_bool reopen) as [Er|Er]; rewrite Er in Havail |- *; [exact Havail|].
  intros i Hlt. apply Havail. pose proof (remote_fk_count d Er (dget_In Hm) Htc). specialize (Hcnt Er d). lia.
Qed.

Theorem run_total insert_order : reads_inside queries -> (forall n, ~ on_cycle (reads_sample queries) n) ->
  (forall s, In s insert_order -> exists n, named s n) ->
  exists st outs, extract source cmpf textf rawf raw_cols z rank reopen ms compact start ord queries insert_order = Ok (st, outs).
Proof.
  intros Hins Hac Hpar. destruct (order_total compact Hord Hq Hfit Hins) as ([(order & Ho)|E] & Hcyc); [|exfalso; destruct (proj1 Hcyc E) as (n & Hn); exact (Hac n Hn)].
  destruct (mats_total Ho) as (st & Est & Hi). unfold extract. rewrite Est. cbn [bind].
  assert (Hm : exists l, mapM (copy_table source cmpf textf rawf raw_cols z rank reopen ms compact start st queries) insert_order = Ok l).
  { clear Est. induction insert_order as [|s l IH]; cbn [mapM]; [eauto|].
    destruct (Hpar s (or_introl eq_refl)) as (n & Hn). destruct IH as (l' & El); [intros x Hx; apply Hpar; right; exact Hx|].
    assert (Hc : exists o, copy_table source cmpf textf rawf raw_cols z rank reopen ms compact start st queries s = Ok o).
    { unfold copy_table, parse. rewrite (proj2 (parse_named s n) Hn). cbn [bind]. destruct (dget queries s) as [q|] eqn:Eq; [|eauto].
      destruct (copy_statement_total Ho Hi (dget_In Eq) Hn) as (c & Ec). rewrite Ec. cbn [bind]. eauto. }
    destruct Hc as (o & Eo). rewrite Eo. cbn [bind]. rewrite El. cbn [bind]. eauto. }
  destruct Hm as (l & El). rewrite El. cbn [bind]. eauto.
Qed.
End Run.
