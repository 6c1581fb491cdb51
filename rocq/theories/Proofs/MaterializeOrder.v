(** sampler.py [_materialization_order]: which tables, in which order, how many copies (C33). *)
From Coq Require Import Lia.
From Verif Require Import Model.Base Model.Solver Model.Value Model.Names Model.PlanModel Spec.SqlSem Model.SqlAlgebra Model.PlanBuild
  Model.Metadata Model.Materialize Spec.GraphSpec Spec.SchemaSpec Spec.SampleSpec
  Proofs.BaseFacts Proofs.NameFacts Proofs.GraphFacts Proofs.SolverMain Proofs.BuildFacts Proofs.BuildRefs.
Set Implicit Arguments.
Unset Strict Implicit.

Lemma dget_or_dset {K V} `{EqDec K} (d : dict K V) k k' v x :
  dget_or (dset d k v) k' x = if eq_dec k' k then v else dget_or d k' x.
Proof. unfold dget_or. rewrite dget_dset. destruct (eq_dec k' k); reflexivity. Qed.

(** Occurrences of the sample of [k]. *)
Definition sample_count (k : tname) (ids : list ident) : nat :=
  length (filter (fun id => i_sampled id && eqb (i_name id) k) ids).

Lemma sample_count_pos k ids : sample_count k ids > 0 <-> exists id, In id ids /\ i_sampled id = true /\ i_name id = k.
Proof.
  unfold sample_count. split.
  - intros H. destruct (filter _ ids) as [|x l] eqn:E; [cbn in H; lia|].
    assert (Hx : In x (filter (fun id => i_sampled id && eqb (i_name id) k) ids)) by (rewrite E; left; reflexivity).
    apply filter_In in Hx. destruct Hx as [Hx Hb]. apply andb_prop in Hb. destruct Hb as [H1 H2]. rewrite eqb_true in H2. eauto.
  - intros (id & Hin & Hs & Hn). assert (Hx : In id (filter (fun id => i_sampled id && eqb (i_name id) k) ids)).
    { apply filter_In. split; [exact Hin|]. rewrite Hs, Hn, eqb_refl. reflexivity. }
    destruct (filter _ ids); [destruct Hx|cbn; lia].
Qed.

Section Order.
Variables (ms : meta) (compact : dict tname (list string)).

Definition counter_ok (c : dict tname nat) : Prop := NoDup (dkeys c) /\ forall k, In k (dkeys c) <-> dget_or c k 0 > 0.

Lemma counter_nil : counter_ok [].
Proof. split; [constructor|]. intros k. cbn. unfold dget_or. cbn. split; [tauto|lia]. Qed.
Lemma counter_bump c k n : counter_ok c -> n > 0 -> counter_ok (dset c k n).
Proof.
  intros [H1 H2] Hn. split; [apply dset_NoDup; exact H1|]. intros k'. rewrite dset_In_key, dget_or_dset.
  destruct (eq_dec k' k) as [->|Hne]; [split; [lia|auto]|]. rewrite <- H2. split; [intros [?|?]; [contradiction|assumption]|auto].
Qed.

Lemma record_calls ids : forall c ts c', counter_ok c -> call_all (record_sampled ms) ids c = Ok (ts, c') ->
  counter_ok c' /\ (forall k, dget_or c' k 0 = dget_or c k 0 + sample_count k ids) /\ (forall id, In id ids -> In (i_name id) (dkeys ms)).
Proof.
  induction ids as [|i ids IH]; intros c ts c' Hc H; cbn [call_all] in H.
  - inv H. split; [exact Hc|]. split; [intros k; unfold sample_count; cbn; lia|intros id []].
  - apply bind_Ok in H. destruct H as ([t c1] & Ht & H). apply bind_Ok in H. destruct H as ([ts1 c2] & Hts & H). inv H.
    unfold record_sampled in Ht. apply bind_Ok in Ht. destruct Ht as (m & Hm & Ht). apply dfind_Ok in Hm. inv Ht.
    apply IH in Hts; [|destruct (i_sampled i); [apply counter_bump; [exact Hc|lia]|exact Hc]].
    destruct Hts as (A & B & C). split; [exact A|]. split.
    + intros k. rewrite B. unfold sample_count. cbn [filter]. destruct (i_sampled i) eqn:Es; cbn [andb].
      * rewrite dget_or_dset. unfold eqb at 2. destruct (eq_dec k (i_name i)) as [->|Hne].
        -- destruct (eq_dec (i_name i) (i_name i)) as [_|]; [cbn [length]; lia|congruence].
        -- destruct (eq_dec (i_name i) k) as [E|_]; [congruence|reflexivity].
      * reflexivity.
    + intros id [<-|Hin]; [exact (dget_Some_key Hm)|exact (C id Hin)].
Qed.
Lemma record_total ids : forall c, (forall id, In id ids -> In (i_name id) (dkeys ms)) ->
  exists ts c', call_all (record_sampled ms) ids c = Ok (ts, c').
Proof.
  induction ids as [|i ids IH]; intros c Hin; cbn [call_all]; [eauto|].
  unfold record_sampled at 1. destruct (key_dget (Hin i (or_introl eq_refl))) as (m & Hm). unfold dfind. rewrite Hm. cbn [bind].
  set (c0 := if i_sampled i then _ else _). destruct (IH c0) as (ts & c' & E); [intros id Hid; apply Hin; right; exact Hid|].
  rewrite E. cbn [bind]. eauto.
Qed.
Lemma record_sound id c t c' : record_sampled ms id c = Ok (t, c') -> source_cols ms id = Some (t_cols t).
Proof.
  unfold record_sampled, source_cols. intros H. apply bind_Ok in H. destruct H as (m & Hm & H). apply dfind_Ok in Hm. inv H.
  rewrite Hm. reflexivity.
Qed.

(** The reading of one query of the plan. *)
Definition query_counts (q : table_query) (c : dict tname nat) : Prop :=
  counter_ok c /\ (forall k, dget_or c k 0 = sample_count k (query_ids q)) /\ (forall id, In id (query_ids q) -> In (i_name id) (dkeys ms)).
Lemma query_counts_keys q c k : query_counts q c -> In k (dkeys c) <-> exists id, In id (query_ids q) /\ i_sampled id = true /\ i_name id = k.
Proof. intros ((_ & H) & Hc & _). rewrite H, Hc. apply sample_count_pos. Qed.

Lemma record_query q b c : build_query (record_sampled ms) q [] = Ok (b, c) -> query_counts q c.
Proof.
  intros H. apply build_query_calls in H. destruct H as (ts & H & _). apply (record_calls counter_nil) in H. exact H.
Qed.
Lemma fits_ids (cols : ident -> option (list string)) st : stmt_fits cols st -> forall id, In id (stmt_ids st) -> cols id <> None.
Proof.
  set (Pw := fun c => forall t, wc_fits cols t c -> forall id, In id (wc_ids c) -> cols id <> None).
  set (Ps := fun x => sel_fits cols x -> forall id, In id (sel_ids x) -> cols id <> None).
  set (Pt := fun st => stmt_fits cols st -> forall id, In id (stmt_ids st) -> cols id <> None).
  assert (Hl : forall l, Forall Pw l -> forall t, Forall (wc_fits cols t) l -> forall id, In id (concat (map wc_ids l)) -> cols id <> None).
  { intros l HP t Hf id Hid. apply in_concat in Hid. destruct Hid as (x & Hx & Hid). apply in_map_iff in Hx. destruct Hx as (c & <- & Hc).
    rewrite Forall_forall in HP, Hf. exact (HP c Hc t (Hf c Hc) id Hid). }
  apply (@stmt_i Pw Ps Pt).
  1,2,3,4,8,9: unfold Pw; cbn; intros; contradiction.
  - intros cs s n IH t [_ Hf] id Hid. exact (IH Hf id Hid).
  - intros l HP t Hf id Hid. cbn [wc_fits wc_ids] in *. apply fold_and_Forall in Hf. exact (Hl l HP t Hf id Hid).
  - intros l HP t Hf id Hid. cbn [wc_fits wc_ids] in *. apply fold_and_Forall in Hf. exact (Hl l HP t Hf id Hid).
  - intros cs f w lim js o Hw (t & Ht & _ & Hjs & Hwf) id Hid. cbn [sel_ids] in Hid. destruct Hid as [<-|Hid]; [congruence|].
    apply in_app_or in Hid. destruct Hid as [Hid|Hid].
    + destruct js as [js|]; [|destruct Hid]. cbn [joins_ids] in Hid. apply in_map_iff in Hid. destruct Hid as (j & <- & Hj).
      rewrite Forall_forall in Hjs. destruct (Hjs j Hj) as (_ & rt & E & _). congruence.
    + destruct w as [w|]; [|destruct Hid]. exact (Hw t Hwf id Hid).
  - intros x IH Hf. exact (IH Hf).
  - intros l HP Hf id Hid. cbn [stmt_fits stmt_ids] in *. apply fold_and_Forall in Hf. apply in_concat in Hid. destruct Hid as (x & Hx & Hid).
    apply in_map_iff in Hx. destruct Hx as (c & <- & Hc). rewrite Forall_forall in HP, Hf. exact (HP c Hc (Hf c Hc) id Hid).
Qed.
Lemma fits_query_ids (cols : ident -> option (list string)) q : query_fits cols q -> forall id, In id (query_ids q) -> cols id <> None.
Proof.
  unfold query_fits, query_ids. destruct (q_sql q); [intros _ id []|]. intros (st & -> & _ & Hf). exact (fits_ids Hf).
Qed.
Lemma record_fits q : query_fits (source_cols ms) q -> exists b c, build_query (record_sampled ms) q [] = Ok (b, c).
Proof.
  intros Hf. destruct (record_total (ids := query_ids q) []) as (ts & c & E).
  { intros id Hid. pose proof (fits_query_ids Hf Hid) as Hn. unfold source_cols in Hn. destruct (dget ms (i_name id)) eqn:Eg; [|congruence].
    exact (dget_Some_key Eg). }
  destruct (build_query_total record_sound Hf E) as (b & Eb). eauto.
Qed.

(** compaction joins *)
Definition fk_count (k : tname) (m : tmeta) : nat := length (filter (fun fk => eqb (fk_dst fk) k) (compact_fks compact m)).
Lemma count_fks_spec m c : counter_ok c -> counter_ok (count_fks compact m c) /\
  forall k, dget_or (count_fks compact m c) k 0 = dget_or c k 0 + fk_count k m.
Proof.
  unfold count_fks, fk_count. generalize (compact_fks compact m) as l. intros l. revert c. induction l as [|fk l IH]; intros c Hc; cbn [fold_left].
  - split; [exact Hc|]. intros k. cbn. lia.
  - destruct (IH (dset c (fk_dst fk) (dget_or c (fk_dst fk) 0 + 1))) as [A B]; [apply counter_bump; [exact Hc|lia]|].
    split; [exact A|]. intros k. rewrite B, dget_or_dset. cbn [filter]. unfold eqb at 2.
    destruct (eq_dec k (fk_dst fk)) as [->|Hne].
    + destruct (eq_dec (fk_dst fk) (fk_dst fk)) as [_|]; [cbn [length]; lia|congruence].
    + destruct (eq_dec (fk_dst fk) k) as [E|_]; [congruence|reflexivity].
Qed.
Lemma merge_max_spec c : forall maxs, NoDup (dkeys c) -> counter_ok c -> counter_ok maxs ->
  counter_ok (merge_max maxs c) /\ forall k, dget_or (merge_max maxs c) k 0 = Nat.max (dget_or maxs k 0) (dget_or c k 0).
Proof.
  intros maxs Hn [_ Hc]. assert (Hpos : forall k v, In (k, v) c -> v > 0).
  { intros k v Hin. pose proof (proj1 (Hc k)) as H. unfold dget_or in H. rewrite (In_dget Hn Hin) in H. apply H.
    apply in_map_iff. exists (k, v). auto. }
  clear Hc. unfold merge_max. revert maxs. induction c as [|[k v] c IH]; intros maxs Hm; cbn [fold_left fst snd].
  - split; [exact Hm|]. intros k. unfold dget_or. cbn [dget]. destruct (dget maxs k); lia.
  - cbn [dkeys map fst] in Hn. apply NoDup_cons_iff in Hn. destruct Hn as [Hk Hn].
    assert (Hv : v > 0) by (apply (Hpos k v); left; reflexivity).
    destruct (IH Hn (fun k' v' H => Hpos k' v' (or_intror H)) (dset maxs k (Nat.max (dget_or maxs k 0) v))) as [A B];
      [apply counter_bump; [exact Hm|lia]|].
    split; [exact A|]. intros k'. rewrite B, dget_or_dset. change (dget_or ((k, v) :: c) k' 0) with (match (if eq_dec k' k then Some v else dget c k') with Some x => x | None => 0 end).
    destruct (eq_dec k' k) as [->|Hne].
    + assert (E : dget c k = None) by (apply dget_None; exact Hk). unfold dget_or. rewrite E. lia.
    + reflexivity.
Qed.

(** The scan of the whole plan, as the list of what was read: name, counter, metadata. *)
Definition scanned := list (tname * dict tname nat * tmeta).
Definition read_as (tq : string * table_query) (e : tname * dict tname nat * tmeta) : Prop :=
  named (fst tq) (fst (fst e)) /\ query_counts (snd tq) (snd (fst e)) /\ dget ms (fst (fst e)) = Some (snd e) /\
  exists b, build_query (record_sampled ms) (snd tq) [] = Ok (b, snd (fst e)).

Lemma scan_Ok queries : forall g m g' m', 
  forM (fun dm tq =>
    let '(dep_graph, maxs) := dm in
    let* (_, counter) := lift_build (build_query (record_sampled ms) (snd tq) []) in
    let* n := parse (fst tq) in
    let dep_graph := dset dep_graph n (dkeys counter) in
    let* m := dfind SxKeyError ms n in
    Ok (dep_graph, merge_max maxs (count_fks compact m counter))) queries (g, m) = Ok (g', m') ->
  exists es : scanned, Forall2 read_as queries es /\
    g' = fold_left (fun g e => dset g (fst (fst e)) (dkeys (snd (fst e)))) es g /\
    m' = fold_left (fun m e => merge_max m (count_fks compact (snd e) (snd (fst e)))) es m.
Proof.
  induction queries as [|[s q] queries IH]; intros g m g' m' H; cbn [forM] in H.
  - inv H. exists []. split; [constructor|auto].
  - apply bind_Ok in H. destruct H as ([g1 m1] & H1 & H). cbn [fst snd] in H1.
    destruct (build_query (record_sampled ms) q []) as [[b c]|] eqn:Eb; [|discriminate]. cbn [lift_build bind] in H1.
    unfold parse in H1. destruct (parse_table_name s) as [n|] eqn:Ep; [|discriminate]. cbn [bind] in H1.
    apply bind_Ok in H1. destruct H1 as (m0 & Hm0 & H1). apply dfind_Ok in Hm0. inv H1.
    apply IH in H. destruct H as (es & HF & -> & ->). exists ((n, c, m0) :: es). split; [|split; reflexivity].
    constructor; [|exact HF]. split; [apply parse_named; exact Ep|]. split; [exact (record_query Eb)|]. split; [exact Hm0|]. eauto.
Qed.

Lemma scan_total queries : queries_ok queries -> plan_fits ms queries -> forall g m, exists g' m',
  forM (fun dm tq =>
    let '(dep_graph, maxs) := dm in
    let* (_, counter) := lift_build (build_query (record_sampled ms) (snd tq) []) in
    let* n := parse (fst tq) in
    let dep_graph := dset dep_graph n (dkeys counter) in
    let* m := dfind SxKeyError ms n in
    Ok (dep_graph, merge_max maxs (count_fks compact m counter))) queries (g, m) = Ok (g', m').
Proof.
  intros [Hn Hnm] Hf. induction queries as [|[s q] queries IH]; intros g m; cbn [forM]; [eauto|].
  destruct (Hnm s (or_introl eq_refl)) as (n & Hs). destruct (Hf s q n (or_introl eq_refl) Hs) as [Hk Hq].
  destruct (record_fits Hq) as (b & c & Eb). cbn [fst snd]. rewrite Eb. cbn [lift_build bind].
  unfold parse. rewrite (proj2 (parse_named s n) Hs). cbn [bind]. destruct (key_dget Hk) as (m0 & Em). unfold dfind. rewrite Em. cbn [bind].
  apply IH.
  - cbn in Hn. apply NoDup_cons_iff in Hn. exact (proj2 Hn).
  - intros s' Hs'. apply Hnm. right. exact Hs'.
  - intros s' q' n' Hin. apply Hf. right. exact Hin.
Qed.

Lemma fold_max es : forall m, counter_ok m -> Forall (fun e : tname * dict tname nat * tmeta => counter_ok (snd (fst e))) es ->
  let m' := fold_left (fun m e => merge_max m (count_fks compact (snd e) (snd (fst e)))) es m in
  counter_ok m' /\ (forall k, dget_or m' k 0 >= dget_or m k 0) /\
  (forall k e, In e es -> dget_or m' k 0 >= dget_or (snd (fst e)) k 0 + fk_count k (snd e)) /\
  (forall k, dget_or m' k 0 > dget_or m k 0 -> exists e, In e es /\ dget_or (snd (fst e)) k 0 + fk_count k (snd e) > 0).
Proof.
  induction es as [|e es IH]; intros m Hm He; cbn [fold_left].
  - split; [exact Hm|]. split; [intros; lia|]. split; [intros k e []|intros k Hk; lia].
  - apply Forall_cons_iff in He. destruct He as [He1 He2].
    destruct (count_fks_spec (snd e) He1) as [C1 C2]. destruct (merge_max_spec (proj1 C1) C1 Hm) as [D1 D2].
    destruct (IH _ D1 He2) as (A & B & C & D). split; [exact A|]. split; [intros k; specialize (B k); rewrite D2 in B; lia|].
    split.
    + intros k e' [<-|Hin]; [specialize (B k); rewrite D2, C2 in B; lia|exact (C k e' Hin)].
    + intros k Hk. destruct (Nat.eq_dec (dget_or (snd (fst e)) k 0 + fk_count k (snd e)) 0) as [E|E].
      * destruct (D k) as (e' & Hin & He'); [rewrite D2, C2; lia|]. exists e'. split; [right; exact Hin|exact He'].
      * exists e. split; [left; reflexivity|lia].
Qed.

Lemma fold_graph (es : scanned) : forall g, NoDup (map (fun e => fst (fst e)) es) ->
  (forall e, In e es -> ~ In (fst (fst e)) (dkeys g)) ->
  fold_left (fun g e => dset g (fst (fst e)) (dkeys (snd (fst e)))) es g = g ++ map (fun e => (fst (fst e), dkeys (snd (fst e)))) es.
Proof.
  induction es as [|e es IH]; intros g Hn Hd; cbn [fold_left map]; [rewrite app_nil_r; reflexivity|].
  cbn [map] in Hn. apply NoDup_cons_iff in Hn. destruct Hn as [Hn1 Hn2].
  rewrite (dset_new _ (Hd e (or_introl eq_refl))). rewrite IH; [rewrite <- app_assoc; reflexivity|exact Hn2|].
  intros e' He' Hin. unfold dkeys in Hin. rewrite map_app in Hin. apply in_app_or in Hin. destruct Hin as [Hin|[E|[]]].
  - exact (Hd e' (or_intror He') Hin).
  - cbn in E. apply Hn1. rewrite E. apply (in_map (fun e => fst (fst e))). exact He'.
Qed.

Lemma read_names queries es : NoDup (dkeys queries) -> Forall2 read_as queries es -> NoDup (map (fun e => fst (fst e)) es).
Proof.
  intros Hn HF. induction HF as [|tq e queries es (H1 & _) HF IH]; [constructor|]. cbn [dkeys map] in *.
  apply NoDup_cons_iff in Hn. destruct Hn as [Hn1 Hn2]. constructor; [|exact (IH Hn2)].
  intros Hin. apply in_map_iff in Hin. destruct Hin as (e' & E & Hin). apply Hn1.
  destruct (Forall2_In_r HF Hin) as (tq' & Hin' & H1' & _). rewrite E in H1'. apply named_eq in H1. apply named_eq in H1'.
  rewrite H1, <- H1'. apply in_map. exact Hin'.
Qed.

(** Everything the scan establishes. *)
Theorem scan_spec queries g maxs : queries_ok queries -> scan_plan ms compact queries = Ok (g, maxs) ->
  exists es, Forall2 read_as queries es /\ g = map (fun e => (fst (fst e), dkeys (snd (fst e)))) es /\
    NoDup (map (fun e => fst (fst e)) es) /\ counter_ok maxs /\
    (forall k e, In e es -> dget_or maxs k 0 >= dget_or (snd (fst e)) k 0 + fk_count k (snd e)) /\
    (forall k, In k (dkeys maxs) -> exists e, In e es /\ dget_or (snd (fst e)) k 0 + fk_count k (snd e) > 0).
Proof.
  intros [Hn Hnm] H. unfold scan_plan in H. apply scan_Ok in H. destruct H as (es & HF & -> & ->).
  pose proof (read_names Hn HF) as Hnd. exists es. split; [exact HF|].
  split; [rewrite fold_graph; [reflexivity|exact Hnd|intros e He []]|]. split; [exact Hnd|].
  assert (Hc : Forall (fun e : tname * dict tname nat * tmeta => counter_ok (snd (fst e))) es).
  { rewrite Forall_forall. intros e He. destruct (Forall2_In_r HF He) as (tq & _ & _ & (Hc & _) & _). exact Hc. }
  destruct (fold_max counter_nil Hc) as (A & B & C & D). split; [exact A|]. split; [exact C|].
  intros k Hk. apply D. apply (proj1 (proj2 A k)) in Hk. unfold dget_or at 2. cbn. exact Hk.
Qed.

Lemma read_has_query queries es : Forall2 read_as queries es -> forall n, In n (map (fun e => fst (fst e)) es) <-> has_query queries n.
Proof.
  intros HF n. split.
  - intros Hin. apply in_map_iff in Hin. destruct Hin as (e & <- & Hin). destruct (Forall2_In_r HF Hin) as ([s q] & Hq & Hnm & _).
    exists s. split; [exact Hnm|]. apply in_map_iff. exists (s, q). auto.
  - intros (s & Hs & Hin). apply in_map_iff in Hin. destruct Hin as ([s' q] & E & Hin). cbn in E. subst s'.
    destruct (Forall2_In_l HF Hin) as (e & He & Hnm & _). cbn in Hnm. rewrite (named_fun Hs Hnm).
    apply (in_map (fun e => fst (fst e))). exact He.
Qed.
Lemma read_edge queries es : Forall2 read_as queries es -> forall n d,
  edge (map (fun e => (fst (fst e), dkeys (snd (fst e)))) es) n d <-> reads_sample queries n d.
Proof.
  intros HF n d. split.
  - intros (ks & Hin & Hd). apply in_map_iff in Hin. destruct Hin as (e & E & Hin). inv E.
    destruct (Forall2_In_r HF Hin) as ([s q] & Hq & Hnm & Hc & _). cbn [fst snd] in *.
    apply (query_counts_keys d Hc) in Hd. destruct Hd as (id & H1 & H2 & H3). exists s, q, id. auto.
  - intros (s & q & id & Hin & Hnm & H1 & H2 & H3). destruct (Forall2_In_l HF Hin) as (e & He & Hnm' & Hc & _). cbn [fst snd] in *.
    rewrite (named_fun Hnm Hnm'). exists (dkeys (snd (fst e))). split.
    + apply in_map_iff. exists e. auto.
    + apply (query_counts_keys d Hc). eauto.
Qed.

Lemma fk_count_pos k m : fk_count k m > 0 <-> exists fk c, In fk (tm_fks m) /\ fk_dst fk = k /\ In c (fk_dst_cols fk) /\ In c (dget_or compact k []).
Proof.
  unfold fk_count, compact_fks. split.
  - intros H. destruct (filter _ (filter _ _)) as [|fk l] eqn:E; [cbn in H; lia|].
    assert (Hx : In fk (fk :: l)) by (left; reflexivity). rewrite <- E in Hx. apply filter_In in Hx. destruct Hx as [Hx Hk]. rewrite eqb_true in Hk.
    apply filter_In in Hx. destruct Hx as [Hx Hex]. apply existsb_exists in Hex. destruct Hex as (c & Hc & Hm). apply (proj1 (memb_true _ _)) in Hm.
    exists fk, c. rewrite <- Hk. auto.
  - intros (fk & c & Hfk & <- & Hc & Hin).
    assert (Hx : In fk (filter (fun fk0 => eqb (fk_dst fk0) (fk_dst fk)) (filter (fun fk => existsb (fun c => memb c (dget_or compact (fk_dst fk) [])) (fk_dst_cols fk)) (tm_fks m)))).
    { apply filter_In. split; [|apply eqb_refl]. apply filter_In. split; [exact Hfk|]. apply existsb_exists. exists c. split; [exact Hc|].
      apply (proj2 (memb_true _ _)). exact Hin. }
    destruct (filter _ (filter _ _)); [destruct Hx|cbn; lia].
Qed.

Lemma graph_inside queries es : queries_ok queries -> Forall2 read_as queries es -> reads_inside queries ->
  graph_ok (map (fun e => (fst (fst e), dkeys (snd (fst e)))) es).
Proof.
  intros [Hn _] HF Hin. assert (Hk : dkeys (map (fun e : tname * dict tname nat * tmeta => (fst (fst e), dkeys (snd (fst e)))) es) = map (fun e => fst (fst e)) es).
  { unfold dkeys. rewrite map_map. reflexivity. }
  split; [rewrite Hk; exact (read_names Hn HF)|]. split.
  - intros u ks Hu. apply in_map_iff in Hu. destruct Hu as (e & E & Hu). inv E.
    destruct (Forall2_In_r HF Hu) as (tq & _ & _ & ((Hc & _) & _) & _). exact Hc.
  - intros u v He. apply (proj1 (read_edge HF u v)) in He. unfold node. rewrite Hk. apply (proj2 (read_has_query HF v)). exact (Hin _ _ He).
Qed.

Variable ord : list tname -> list tname.
Hypothesis Hord : any_order ord.

Lemma flat_map_maxs (maxs : dict tname nat) order :
  map fst (flat_map (fun n => match dget maxs n with Some c => [(n, c)] | None => [] end) order) = filter (fun n => dmem maxs n) order.
Proof.
  induction order as [|n l IH]; [reflexivity|]. cbn [flat_map filter]. rewrite map_app, IH. unfold dmem. destruct (dget maxs n); reflexivity.
Qed.
Lemma before_filter {A} `{EqDec A} (p : A -> bool) l x y : before l x y -> p x = true -> p y = true -> before (filter p l) x y.
Proof.
  intros (l1 & l2 & l3 & ->) Hx Hy. exists (filter p l1), (filter p l2), (filter p l3).
  rewrite filter_app. cbn [filter]. rewrite Hx, filter_app. cbn [filter]. rewrite Hy. reflexivity.
Qed.


Lemma maxs_needed queries es maxs : NoDup (dkeys compact) -> NoDup (dkeys ms) -> Forall2 read_as queries es -> counter_ok maxs ->
  (forall k e, In e es -> dget_or maxs k 0 >= dget_or (snd (fst e)) k 0 + fk_count k (snd e)) ->
  (forall k, In k (dkeys maxs) -> exists e, In e es /\ dget_or (snd (fst e)) k 0 + fk_count k (snd e) > 0) ->
  forall k, In k (dkeys maxs) <-> needed ms compact queries k.
Proof.
  intros Hcn Hmn HF Hm Hge Hex k. split.
  - intros Hk. destruct (Hex k Hk) as (e & He & Hpos). destruct (Forall2_In_r HF He) as ([s q] & Hq & Hnm & Hc & Hms & _). cbn [fst snd] in *.
    destruct (Nat.eq_dec (fk_count k (snd e)) 0) as [E|E].
    + left. exists (fst (fst e)). assert (Hpos' : dget_or (snd (fst e)) k 0 > 0) by lia.
      destruct Hc as (_ & Hc & _). rewrite Hc in Hpos'. apply sample_count_pos in Hpos'. destruct Hpos' as (id & H1 & H2 & H3).
      exists s, q, id. auto.
    + right. destruct (proj1 (fk_count_pos k (snd e))) as (fk & c & Hfk & Hd & Hdc & Hcc); [lia|].
      exists (fst (fst e)), (snd e), fk, c, (dget_or compact k []). split; [exists s; split; [exact Hnm|apply in_map_iff; exists (s, q); auto]|].
      split; [apply dget_In; exact Hms|]. split; [exact Hfk|]. split; [exact Hd|]. split; [exact Hdc|]. split; [|exact Hcc].
      unfold dget_or in *. destruct (dget compact k) eqn:Ek; [apply dget_In; exact Ek|destruct Hcc].
  - intros [(n & Hr)|(n & m & fk & c & cs & (s & Hs & Hsin) & Hm0 & Hfk & Hd & Hdc & Hcs & Hcc)].
    + destruct Hr as (s & q & id & Hin & Hnm & H1 & H2 & H3). destruct (Forall2_In_l HF Hin) as (e & He & Hnm' & Hc & _). cbn [fst snd] in *.
      apply (proj2 Hm). specialize (Hge k e He). destruct Hc as (_ & Hc & _). rewrite Hc in Hge.
      assert (Hp : sample_count k (query_ids q) > 0) by (apply sample_count_pos; eauto). lia.
    + apply in_map_iff in Hsin. destruct Hsin as ([s' q] & E & Hin). cbn in E. subst s'.
      destruct (Forall2_In_l HF Hin) as (e & He & Hnm' & Hc & Hms & _). cbn [fst snd] in *. rewrite <- (named_fun Hs Hnm') in Hms.
      rewrite (In_dget Hmn Hm0) in Hms. inv Hms. apply (proj2 Hm). specialize (Hge (fk_dst fk) e He).
      assert (Hp : fk_count (fk_dst fk) (snd e) > 0).
      { apply fk_count_pos. exists fk, c. unfold dget_or. rewrite (In_dget Hcn Hcs). auto. }
      lia.
Qed.

(** C33 *)
Theorem order_spec queries l : queries_ok queries -> NoDup (dkeys compact) -> NoDup (dkeys ms) -> reads_inside queries ->
  materialization_order ord ms compact queries = Ok l ->
  NoDup (map fst l) /\
  (forall n, In n (map fst l) <-> has_query queries n /\ needed ms compact queries n) /\
  (forall n d, reads_sample queries n d -> In n (map fst l) -> before (map fst l) d n).
Proof.
  intros Hq Hcn Hmn Hin H. unfold materialization_order in H. apply bind_Ok in H. destruct H as ([g maxs] & Hs & H).
  apply bind_Ok in H. destruct H as (order & Ho & H). inv H.
  destruct (scan_spec Hq Hs) as (es & HF & -> & Hnd & Hm & Hge & Hex).
  pose proof (graph_inside Hq HF Hin) as Hg.
  destruct (toposort ord (map (fun e => (fst (fst e), dkeys (snd (fst e)))) es)) as [q|e] eqn:Et; [|destruct e; discriminate]. inv Ho.
  destruct (toposort_order ord Hord _ _ Hg Et) as (HP & HN & Hb).
  pose proof (maxs_needed Hcn Hmn HF Hm Hge Hex) as Hneed.
  rewrite flat_map_maxs. split; [apply NoDup_filter; exact HN|]. split.
  - intros n. rewrite filter_In, dmem_true, Hneed, <- (read_has_query HF n).
    assert (E : In n order <-> In n (map (fun e => fst (fst e)) es)).
    { rewrite (Permutation_in' eq_refl HP). unfold dkeys. rewrite map_map. reflexivity. }
    rewrite E. reflexivity.
  - intros n d Hr Hn. apply filter_In in Hn. destruct Hn as [Hn1 Hn2]. apply before_filter; [|apply dmem_true, Hneed; left; eauto|exact Hn2].
    apply Hb. apply (read_edge HF). exact Hr.
Qed.

Theorem order_total queries : queries_ok queries -> plan_fits ms queries -> reads_inside queries ->
  ((exists l, materialization_order ord ms compact queries = Ok l) \/ materialization_order ord ms compact queries = Err SxValueError) /\
  (materialization_order ord ms compact queries = Err SxValueError <-> exists n, on_cycle (reads_sample queries) n).
Proof.
  intros Hq Hf Hin. destruct (scan_total Hq Hf [] []) as (g & maxs & Hs). change (scan_plan ms compact queries = Ok (g, maxs)) in Hs.
  unfold materialization_order. rewrite Hs. cbn [bind].
  destruct (scan_spec Hq Hs) as (es & HF & -> & Hnd & Hm & Hge & Hex). pose proof (graph_inside Hq HF Hin) as Hg.
  assert (Hcyc : forall n, on_cycle (edge (map (fun e => (fst (fst e), dkeys (snd (fst e)))) es)) n <-> on_cycle (reads_sample queries) n).
  { intros n. unfold on_cycle. split; apply path_mono; intros a b; apply (read_edge HF). }
  destruct (toposort_fails ord Hord _ Hg) as [(q & Eq)|Eq]; rewrite Eq; cbn [bind].
  - split; [left; eauto|]. split; [discriminate|]. intros (n & Hn). exfalso. apply (proj2 (Hcyc n)) in Hn.
    pose proof (proj2 (toposort_cycle ord Hord _ Hg) (ex_intro _ n Hn)). congruence.
  - split; [right; reflexivity|]. split; [intros _|reflexivity]. apply (toposort_cycle ord Hord _ Hg) in Eq. destruct Eq as (n & Hn).
    exists n. apply Hcyc. exact Hn.
Qed.

Theorem order_keyerror queries : queries_ok queries -> plan_fits ms queries ->
  materialization_order ord ms compact queries = Err SxKeyError <-> exists n d, reads_sample queries n d /\ ~ has_query queries d.
Proof.
  intros Hq Hf. destruct (scan_total Hq Hf [] []) as (g & maxs & Hs). change (scan_plan ms compact queries = Ok (g, maxs)) in Hs.
  unfold materialization_order. rewrite Hs. cbn [bind].
  destruct (scan_spec Hq Hs) as (es & HF & -> & Hnd & Hm & Hge & Hex).
  set (g := map (fun e => (fst (fst e), dkeys (snd (fst e)))) es) in *.
  assert (Hk : dkeys g = map (fun e => fst (fst e)) es) by (unfold g, dkeys; rewrite map_map; reflexivity).
  assert (Hgn : NoDup (dkeys g)) by (rewrite Hk; exact Hnd).
  assert (Hge2 : forall u ks, In (u, ks) g -> NoDup ks).
  { intros u ks Hu. apply in_map_iff in Hu. destruct Hu as (e & E & Hu). inv E.
    destruct (Forall2_In_r HF Hu) as (tq & _ & _ & ((Hc & _) & _) & _). exact Hc. }
  assert (Hout : (exists u v, edge g u v /\ ~ node g v) <-> exists n d, reads_sample queries n d /\ ~ has_query queries d).
  { split; intros (n & d & H1 & H2); exists n, d; (split; [apply (read_edge HF); exact H1|]); intros Hx; apply H2.
    - unfold node. rewrite Hk. apply (proj2 (read_has_query HF d)). exact Hx.
    - apply (read_has_query HF d). unfold node in Hx. rewrite Hk in Hx. exact Hx. }
  rewrite <- Hout, <- (reverse_keyerror ord Hord _ false Hgn Hge2).
  destruct (reverse_graph ord g false) as [RG|e] eqn:Er.
  - split; [|discriminate]. intros H. exfalso.
    assert (Hok : graph_ok g).
    { split; [exact Hgn|]. split; [exact Hge2|]. intros u v He. destruct (In_dec' v (dkeys g)) as [|Hne]; [assumption|]. exfalso.
      assert (Er' : reverse_graph ord g false = Err SKeyError) by (apply (reverse_keyerror ord Hord _ false Hgn Hge2); exists u, v; auto). congruence. }
    destruct (toposort_fails ord Hord _ Hok) as [(q & Eq)|Eq]; rewrite Eq in H; discriminate.
  - unfold toposort. rewrite Er. cbn [bind]. split; [|intros E; inv E; reflexivity].
    destruct e; cbn; intros E; try discriminate. reflexivity.
Qed.

Lemma order_inside queries l : queries_ok queries -> materialization_order ord ms compact queries = Ok l -> reads_inside queries.
Proof.
  intros Hq H. unfold materialization_order in H. apply bind_Ok in H. destruct H as ([g maxs] & Hs & H).
  apply bind_Ok in H. destruct H as (order & Ho & _). destruct (scan_spec Hq Hs) as (es & HF & -> & Hnd & _).
  set (g := map (fun e => (fst (fst e), dkeys (snd (fst e)))) es) in *.
  assert (Hk : dkeys g = map (fun e => fst (fst e)) es) by (unfold g, dkeys; rewrite map_map; reflexivity).
  assert (Hgn : NoDup (dkeys g)) by (rewrite Hk; exact Hnd).
  assert (Hge2 : forall u ks, In (u, ks) g -> NoDup ks).
  { intros u ks Hu. apply in_map_iff in Hu. destruct Hu as (e & E & Hu). inv E.
    destruct (Forall2_In_r HF Hu) as (tq & _ & _ & ((Hc & _) & _) & _). exact Hc. }
  intros n d Hr. apply (proj1 (read_has_query HF d)). rewrite <- Hk.
  destruct (In_dec' d (dkeys g)) as [|Hne]; [assumption|]. exfalso.
  assert (Er : reverse_graph ord g false = Err SKeyError).
  { apply (reverse_keyerror ord Hord _ false Hgn Hge2). exists n, d. split; [apply (read_edge HF); exact Hr|exact Hne]. }
  unfold toposort in Ho. rewrite Er in Ho. discriminate.
Qed.

(** enough copies for every statement *)
Lemma order_counts queries l : queries_ok queries -> materialization_order ord ms compact queries = Ok l ->
  forall s q n m d c, In (s, q) queries -> named s n -> dget ms n = Some m -> In (d, c) l ->
  sample_count d (query_ids q) + fk_count d m <= c.
Proof.
  intros Hq H s q n m d c Hin Hs Hm Hl. unfold materialization_order in H. apply bind_Ok in H. destruct H as ([g maxs] & Hsc & H).
  apply bind_Ok in H. destruct H as (order & _ & H). inv H. destruct (scan_spec Hq Hsc) as (es & HF & _ & _ & _ & Hge & _).
  apply in_flat_map in Hl. destruct Hl as (x & _ & Hx). destruct (dget maxs x) as [c0|] eqn:E; [|destruct Hx].
  destruct Hx as [X|[]]. inv X. destruct (Forall2_In_l HF Hin) as (e & He & Hn & (_ & Hc & _) & Hme & _). cbn [fst snd] in *.
  rewrite <- (named_fun Hs Hn) in Hme. rewrite Hm in Hme. inv Hme. specialize (Hge d e He). rewrite (Hc d) in Hge.
  unfold dget_or in Hge. rewrite E in Hge. lia.
Qed.

(** what a successful ordering says about the plan *)
Lemma order_reads queries l : queries_ok queries -> materialization_order ord ms compact queries = Ok l ->
  forall s q n, In (s, q) queries -> named s n -> In n (dkeys ms) /\ exists b c, build_query (record_sampled ms) q [] = Ok (b, c).
Proof.
  intros Hq H s q n Hin Hs. unfold materialization_order in H. apply bind_Ok in H. destruct H as ([g maxs] & Hsc & _).
  destruct (scan_spec Hq Hsc) as (es & HF & _). destruct (Forall2_In_l HF Hin) as (e & He & Hn & _ & Hme & b & Hb). cbn [fst snd] in *.
  rewrite <- (named_fun Hs Hn) in Hme. split; [exact (dget_Some_key Hme)|eauto].
Qed.
End Order.
