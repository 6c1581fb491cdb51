(** sampler.py: what a whole run reads and writes (C34, C36). *)
From Coq Require Import Lia.
From Verif Require Import Model.Base Model.Solver Model.Value Model.Names Model.PlanModel Spec.SqlSem Model.SqlAlgebra Model.PlanBuild
  Model.Metadata Model.Materialize Spec.GraphSpec Spec.SchemaSpec Spec.PlannerSpec Spec.SampleSpec
  Proofs.BaseFacts Proofs.NameFacts Proofs.GraphFacts Proofs.BuildFacts Proofs.BuildRefs Proofs.MaterializeOrder Proofs.MaterializeRun
  Proofs.MetadataFacts Proofs.SolverMain Proofs.SemCong.
Set Implicit Arguments.
Unset Strict Implicit.

Lemma filter_true {A} (p : A -> bool) l : (forall x, p x = true) -> filter p l = l.
Proof. intros H. induction l as [|a l IH]; [reflexivity|]. cbn. rewrite H, IH. reflexivity. Qed.
Lemma select_all d zz t : eval_query d zz (QSelect None (FTable t) None [] None) = db_rows d (t_ref t).
Proof.
  cbn [eval_query]. cbn [eval_from forallb]. rewrite filter_true; [|reflexivity]. cbn [limited]. rewrite !map_map. cbn [fst project].
  apply indexed_snd.
Qed.

Section DictOf.
Context {K V : Type} `{EqDec K}.
Lemma dset_In (d : dict K V) k v x : In x (dset d k v) -> x = (k, v) \/ In x d.
Proof.
  induction d as [|[k0 v0] d IH]; cbn [dset]; [intros [<-|[]]; auto|].
  destruct (eq_dec k k0) as [->|Hne]; intros [<-|Hx]; cbn [In]; auto. apply IH in Hx. tauto.
Qed.
Lemma dict_of_spec (l : list (K * V)) : NoDup (dkeys (dict_of l)) /\ (forall x, In x (dict_of l) -> In x l) /\
  (forall k, In k (map fst l) <-> In k (dkeys (dict_of l))).
Proof.
  unfold dict_of. assert (Hg : forall d : dict K V, NoDup (dkeys d) ->
    let d' := fold_left (fun d kv => dset d (fst kv) (snd kv)) l d in
    NoDup (dkeys d') /\ (forall x, In x d' -> In x d \/ In x l) /\ (forall k, In k (dkeys d) \/ In k (map fst l) <-> In k (dkeys d'))).
  { induction l as [|[k v] l IH]; intros d Hd; cbn [fold_left].
    - split; [exact Hd|]. split; [auto|]. intros k. cbn. tauto.
    - cbn [fst snd]. destruct (IH (dset d k v) (dset_NoDup k v Hd)) as (A & B & C). split; [exact A|]. split.
      + intros x Hx. apply B in Hx. destruct Hx as [Hx|Hx]; [|right; right; exact Hx]. apply dset_In in Hx. destruct Hx as [->|Hx]; [right; left; reflexivity|left; exact Hx].
      + intros k0. rewrite <- C, dset_In_key. cbn [map fst In]. split; intros Hx; intuition congruence. }
  destruct (Hg [] (NoDup_nil _)) as (A & B & C). split; [exact A|]. split; [intros x Hx; apply B in Hx; destruct Hx as [[]|Hx]; exact Hx|].
  intros k. rewrite <- C. cbn. tauto.
Qed.
Lemma dict_of_incl (l : list (K * V)) x : In x (dict_of l) -> In x l.
Proof. apply dict_of_spec. Qed.
End DictOf.

Section Run.
Variables (source : tname -> list row) (cmpf : cmpop -> value -> value -> bool)
          (textf : string -> option (dict string lit) -> row -> tv)
          (rawf : string -> option (dict string lit) -> list row)
          (raw_cols : string -> option (dict string lit) -> list string)
          (z : phase -> tname -> rnd) (rank : phase -> tname -> list (list value) -> list nat) (reopen : bool)
          (ms : meta) (compact : dict tname (list string)) (start : Z) (ord : list tname -> list tname).
Notation tdb := (temp_db source cmpf textf rawf).
Notation mat1 := (materialize_one source cmpf textf rawf z rank reopen ms compact start).
Notation mats := (materialize_tables source cmpf textf rawf z rank reopen ms compact start ord).
Notation copyt := (copy_table source cmpf textf rawf raw_cols z rank reopen ms compact start).
Notation ctx := (build_ctx reopen ms).

Hypothesis Hord : any_order ord.
Hypothesis Hms : meta_ok ms.
Hypothesis Hsrc : source_unique ms source.
Variable queries : dict string table_query.
Hypothesis Hq : queries_ok queries.
Hypothesis Hwf : plan_wf queries.

Lemma in_queries s q n : In (s, q) queries -> named s n -> s = render n /\ dget queries (render n) = Some q.
Proof. intros Hin Hn. assert (E : s = render n) by exact (named_eq Hn). split; [exact E|]. rewrite <- E. exact (In_dget (proj1 Hq) Hin). Qed.

Notation step := (mat_step source cmpf textf rawf z rank reopen ms compact start queries).

(** the final temporary tables *)
Lemma mats_spec st : mats queries = Ok st ->
  swf st /\ Forall (stmt_runs reopen) (ts_log st) /\
  exists order, materialization_order ord ms compact queries = Ok order /\ NoDup (map fst order) /\
    (forall n i, In (n, i) (dkeys (ts_objs st)) <-> exists c, In (n, c) order /\ (i = 0 \/ (reopen = false /\ 1 <= i < c))) /\
    (forall n c, In (n, c) order -> exists s1 s2, swf s1 /\ step s1 n c s2 /\ sext s1 st /\ sext s2 st /\
       (forall i, dget (ts_objs st) (n, i) = dget (ts_objs s2) (n, i))).
Proof.
  intros H. unfold materialize_tables in H. apply bind_Ok in H. destruct H as (order & Ho & H).
  assert (Hnd : NoDup (map fst order)).
  { pose proof (order_inside Hord Hq Ho) as Hin. revert Ho. clear H. intros Ho.
    unfold materialization_order in Ho. apply bind_Ok in Ho. destruct Ho as ([g maxs] & Hs & H).
    apply bind_Ok in H. destruct H as (o & Ho & H). inv H. destruct (scan_spec Hq Hs) as (es & HF & -> & _).
    pose proof (graph_inside Hq HF Hin) as Hg.
    destruct (toposort ord _) as [q|e] eqn:Et in Ho; [|destruct e; discriminate]. inv Ho.
    destruct (toposort_order ord Hord _ _ Hg Et) as (_ & HN & _). rewrite flat_map_maxs. apply NoDup_filter. exact HN. }
  assert (W0 : swf no_temps) by (intros n i t Ht; discriminate).
  destruct (mat_loop Hnd W0 (fun n c i _ Hx => match Hx with end) H) as (A & B & C & D & E).
  split; [exact A|]. split; [apply D; constructor|]. exists order. split; [exact Ho|]. split; [exact Hnd|]. split.
  - intros n i. split.
    + intros Hk. destruct (In_dec' n (map fst order)) as [Hin|Hnin].
      * apply in_map_iff in Hin. destruct Hin as ([n' c] & E1 & Hin). cbn in E1. subst n'. exists c. split; [exact Hin|].
        destruct (E n c Hin) as (s1 & s2 & _ & _ & F3 & _ & F5 & _). apply (step_copies F3).
        destruct (key_dget Hk) as (t & Ht). rewrite F5 in Ht. exact (dget_Some_key Ht).
      * destruct (key_dget Hk) as (t & Ht). rewrite (C n i Hnin) in Ht. discriminate.
    + intros (c & Hin & Hi). destruct (E n c Hin) as (s1 & s2 & _ & _ & F3 & _ & F5 & _).
      apply (step_copies F3) in Hi. destruct (key_dget Hi) as (t & Ht). rewrite <- F5 in Ht. exact (dget_Some_key Ht).
  - intros n c Hin. destruct (E n c Hin) as (s1 & s2 & F1 & F2 & F3 & F4 & F5 & _). exists s1, s2.
    split; [exact F2|]. split; [exact F3|]. split; [exact (sext_trans (step_ext F3) F4)|]. split; [exact F4|exact F5].
Qed.

Lemma result_build zz st smp s q b c : In (s, q) queries -> swf st -> (forall n, In (n, 0) (dkeys (ts_objs st)) -> smp n = data st n) ->
  build_query (ctx st) q [] = Ok (b, c) -> eval_query (tdb st) zz b = query_result cmpf textf rawf source smp zz q.
Proof.
  intros Hin Hw Hs Hb. unfold query_result. destruct (q_sql q) as [sql|] eqn:E1.
  - unfold build_query in Hb. rewrite E1 in Hb. inv Hb. cbn [eval_query temp_db db_raw]. destruct (q_params q); reflexivity.
  - destruct (q_stmt q) as [stm|] eqn:E2; [|unfold build_query in Hb; rewrite E1, E2 in Hb; discriminate].
    exact (build_rows _ _ _ Hms Hsrc zz Hw Hs E1 E2 (Hwf Hin E2) Hb).
Qed.

Lemma number_length p n pk rows : length (rank p n (map (fun r => map (rget r) pk) rows)) = length rows ->
  with_column id_column rows (map (fun vr => (id_column, fst vr) :: snd vr) (number_rows rank start p n pk rows)).
Proof.
  intros H. exists (map (fun k => VInt (Z.of_nat k + start - 1)) (rank p n (map (fun r => map (rget r) pk) rows))).
  split; [rewrite map_length; exact H|reflexivity].
Qed.

(** The sample of a run, as the statements see it. *)
Definition run_sample (st : tstate) (n : tname) : list row :=
  if dmem (ts_objs st) (n, 0) then data st n
  else match dget queries (render n) with
       | Some q => query_result cmpf textf rawf source (data st) (z PCopy n) q
       | None => [] end.
Lemma run_sample_temp st n : In (n, 0) (dkeys (ts_objs st)) -> run_sample st n = data st n.
Proof. intros H. unfold run_sample. rewrite (proj2 (dmem_true _ _) H). reflexivity. Qed.

Hypothesis Hrank : forall p n ks, length (rank p n ks) = length ks.

Lemma sample_materialized st : mats queries = Ok st -> forall s q n, In (s, q) queries -> named s n -> In (n, 0) (dkeys (ts_objs st)) ->
  let rows := query_result cmpf textf rawf source (run_sample st) (z PMaterialize n) q in
  (~ In n (dkeys compact) /\ run_sample st n = rows) \/
  (In n (dkeys compact) /\ exists m, In (n, m) ms /\
     run_sample st n = map (fun vr => (id_column, fst vr) :: snd vr) (number_rows rank start PMaterialize n (tb_pk (tm_table m)) rows)).
Proof.
  intros H s q n Hin Hn Hk rows. destruct (mats_spec H) as (Hw & _ & order & Ho & Hnd & Hkeys & Hsteps).
  rewrite (run_sample_temp Hk). apply Hkeys in Hk. destruct Hk as (c & Hc & _).
  destruct (Hsteps n c Hc) as (s1 & s2 & W1 & Hs & X1 & X2 & _). destruct (step_all Hs) as (m & query & b & cnt & cols & rw & E1 & E2 & E3 & _ & E5 & E6 & _).
  destruct (in_queries Hin Hn) as [_ Eq]. rewrite Eq in E2. inv E2.
  assert (Er : eval_query (tdb s1) (z PMaterialize n) b = rows).
  { refine (result_build (z PMaterialize n) Hin W1 _ E3). intros n' Hk'. destruct X1 as [X1a X1b].
    assert (Hk2 : In (n', 0) (dkeys (ts_objs st))) by (destruct (key_dget Hk') as (t & Ht); exact (dget_Some_key (X1a _ _ Ht))).
    rewrite (run_sample_temp Hk2). unfold data, dget_or. rewrite (X1b _ Hk'). reflexivity. }
  assert (H2 : In (n, 0) (dkeys (ts_objs s2))) by (apply (step_copies Hs); left; reflexivity).
  rewrite (sext_data X2 H2). rewrite Er in E6. destruct (dmem compact n) eqn:Ec.
  - right. split; [apply dmem_true; exact Ec|]. exists m. split; [exact (dget_In E1)|]. exact (proj2 E6).
  - left. split; [intros Hx; apply dmem_true in Hx; congruence|exact E6].
Qed.

Lemma copy_query st s q n b c : mats queries = Ok st -> In (s, q) queries -> named s n ->
  (match dget (ts_objs st) (n, 0) with
   | Some t => Ok (QSelect None (FTable t) None [] None, [])
   | None => lift_build (build_query (ctx st) q []) end) = Ok (b, c) ->
  eval_query (tdb st) (z PCopy n) b = run_sample st n /\
  (~ In (n, 0) (dkeys (ts_objs st)) -> run_sample st n = query_result cmpf textf rawf source (run_sample st) (z PCopy n) q).
Proof.
  intros H Hin Hn Hb. destruct (mats_spec H) as (Hw & _). destruct (dget (ts_objs st) (n, 0)) as [t|] eqn:Et.
  - inv Hb. rewrite select_all. pose proof (dget_Some_key Et) as Hk. rewrite (run_sample_temp Hk).
    destruct (Hw _ _ _ Et) as (E1 & E2 & _). rewrite E1. cbn [temp_db db_rows]. unfold dget_or. rewrite E2. split; [reflexivity|].
    intros Hx; contradiction.
  - destruct (build_query (ctx st) q []) as [[b0 c0]|] eqn:Eb; [|discriminate]. inv Hb.
    assert (Hnk : ~ In (n, 0) (dkeys (ts_objs st))) by (apply dget_None; exact Et).
    destruct (in_queries Hin Hn) as [_ Eq].
    assert (Er : run_sample st n = query_result cmpf textf rawf source (data st) (z PCopy n) q).
    { unfold run_sample. rewrite Eq. destruct (dmem (ts_objs st) (n, 0)) eqn:Ed; [apply dmem_true in Ed; contradiction|reflexivity]. }
    rewrite Er. rewrite <- (result_build (z PCopy n) Hin Hw (fun _ _ => eq_refl) Eb).
    split; [reflexivity|]. intros _. exact (result_build (z PCopy n) Hin Hw (fun n' Hk => run_sample_temp Hk) Eb).
Qed.

Lemma not_compacted_plain m n : NoDup (dkeys compact) -> NoDup (dkeys ms) -> dget ms n = Some m -> not_compacted ms compact n ->
  remote_compact compact m = [] /\ dget_or compact n [] = [].
Proof.
  intros Hc Hm Em [H1 H2]. split.
  - unfold remote_compact. match goal with |- dict_of ?l = [] => assert (El : l = []) end; [|rewrite El; reflexivity].
    apply flat_map_nil. intros fk Hfk. apply flat_map_nil. intros [a b] Hab. cbn [fst snd].
    destruct (memb b (dget_or compact (fk_dst fk) [])) eqn:E; [|reflexivity]. exfalso. apply memb_true in E.
    unfold dget_or in E. destruct (dget compact (fk_dst fk)) as [cs|] eqn:Ec; [|destruct E].
    apply (H2 a (fk_dst fk) b). exists m, fk. split; [exact (dget_In Em)|]. split; [exact Hfk|]. split; [reflexivity|]. split; [exact Hab|].
    exists cs. split; [exact (dget_In Ec)|exact E].
  - unfold dget_or. destruct (dget compact n) eqn:E; [|reflexivity]. exfalso. exact (H1 (dget_Some_key E)).
Qed.

(** the tables whose sample is read have been materialised *)
Lemma read_materialized st n d : NoDup (dkeys compact) -> mats queries = Ok st -> reads_sample queries n d -> In (d, 0) (dkeys (ts_objs st)).
Proof.
  intros Hc Hst Hr. destruct (mats_spec Hst) as (_ & _ & order & Ho & _ & Hkeys & _). apply Hkeys.
  pose proof (order_inside Hord Hq Ho) as Hi. destruct (order_spec Hord Hq Hc (proj1 Hms) Hi Ho) as (_ & Hm & _).
  assert (Hn' : In d (map fst order)) by (apply Hm; split; [exact (Hi _ _ Hr)|left; exists n; exact Hr]).
  apply in_map_iff in Hn'. destruct Hn' as ([n0 c] & E & Hn'). cbn in E. subst n0. exists c. auto.
Qed.
Lemma sample_copied st s q n : NoDup (dkeys compact) -> mats queries = Ok st -> In (s, q) queries -> named s n -> ~ In (n, 0) (dkeys (ts_objs st)) ->
  run_sample st n = query_result cmpf textf rawf source (run_sample st) (z PCopy n) q.
Proof.
  intros Hc Hst Hin Hn Hk. destruct (in_queries Hin Hn) as [_ Eq]. unfold run_sample at 1. rewrite Eq.
  destruct (dmem (ts_objs st) (n, 0)) eqn:Ed; [apply dmem_true in Ed; contradiction|].
  apply query_result_cong; [|left; reflexivity]. intros id Hid Hs. symmetry. apply run_sample_temp. apply (read_materialized (n := n) Hc Hst).
  exists s, q, id. auto.
Qed.

(** C34 *)
Theorem run_rows insert_order st outs : NoDup (dkeys compact) ->
  extract source cmpf textf rawf raw_cols z rank reopen ms compact start ord queries insert_order = Ok (st, outs) ->
  map (fun o => render (co_name o)) outs = filter (fun s => dmem queries s) insert_order /\
  exists sample : tname -> list row,
    (forall s q n, In (s, q) queries -> named s n ->
       exists p, let rows := query_result cmpf textf rawf source sample (z p n) q in
       (~ In n (dkeys compact) /\ sample n = rows) \/
       (In n (dkeys compact) /\ (sample n = rows \/ with_column id_column rows (sample n)))) /\
    (forall o, In o outs -> not_compacted ms compact (co_name o) -> co_rows o = sample (co_name o)).
Proof.
  intros Hc H. unfold extract in H. apply bind_Ok in H. destruct H as (st0 & Hst & H). apply bind_Ok in H. destruct H as (l & Hl & H). inv H.
  apply mapM_Ok in Hl. split.
  { revert l Hl. induction insert_order as [|s ss IH]; intros l Hl; inversion Hl as [|? o ? l' Eo Hl' E1 E2]; subst; [reflexivity|].
    cbn [flat_map filter]. unfold copy_table in Eo. apply bind_Ok in Eo. destruct Eo as (n & Hp & Eo).
    unfold parse in Hp. destruct (parse_table_name s) as [n0|] eqn:Ep; [|discriminate]. inv Hp. apply parse_named in Ep.
    unfold dmem. destruct (dget queries s) as [q|] eqn:Eq.
    - apply bind_Ok in Eo. destruct Eo as (c & Ec & Eo). inv Eo. cbn [app map co_name]. rewrite <- (named_eq Ep). f_equal. exact (IH _ Hl').
    - inv Eo. exact (IH _ Hl'). }
  exists (run_sample st). split.
  - intros s q n Hin Hn. destruct (In_dec' (n, 0) (dkeys (ts_objs st))) as [Hk|Hk].
    + exists PMaterialize. cbn zeta. destruct (sample_materialized Hst Hin Hn Hk) as [HA|(HA & m & _ & HB)]; [left; exact HA|].
      right. split; [exact HA|]. right. rewrite HB. apply number_length. rewrite Hrank, map_length. reflexivity.
    + exists PCopy. cbn zeta. pose proof (sample_copied Hc Hst Hin Hn Hk) as Hr.
      destruct (In_dec' n (dkeys compact)) as [Hd|Hd]; [right|left]; auto.
  - intros o Ho'. apply in_flat_map in Ho'. destruct Ho' as (oo & Hoo & Ho'). destruct oo as [o'|]; [|destruct Ho'].
    destruct Ho' as [->|[]]. destruct (Forall2_In_r Hl Hoo) as (s & Hs & Eo). unfold copy_table in Eo. apply bind_Ok in Eo. destruct Eo as (n & Hp & Eo).
    unfold parse in Hp. destruct (parse_table_name s) as [n0|] eqn:Ep; [|discriminate]. inv Hp. apply parse_named in Ep.
    destruct (dget queries s) as [q|] eqn:Eq; [|discriminate]. apply bind_Ok in Eo. destruct Eo as (c & Ec & Eo). inv Eo. cbn [co_name co_rows].
    intros Hnc.
    unfold copy_statement in Ec. apply bind_Ok in Ec. destruct Ec as ([b cnt] & Eb & Ec). apply bind_Ok in Ec. destruct Ec as (m & Em & Ec). apply dfind_Ok in Em.
    destruct (not_compacted_plain Hc (proj1 Hms) Em Hnc) as [E1 E2]. rewrite E1, E2 in Ec. cbn [is_nil andb] in Ec. inv Ec.
    cbn [copy_rows]. exact (proj1 (copy_query Hst (dget_In Eq) Ep Eb)).
Qed.

(** references of the copying statements *)
Definition col_refs (xs : list (string * colsrc)) : list tref :=
  flat_map (fun cx => match snd cx with FromRemote t _ _ => [t_ref t] | _ => [] end) xs.
Definition remote_count (ccols : list string) (remote : dict string (tname * string)) (d : tname) (l : list string) : nat :=
  length (filter (fun c => negb (memb c ccols) && match dget remote c with Some (d', _) => eqb d' d | None => false end) l).

Lemma copy_columns_refs st cols ccols remote l : swf st -> forall counts xs, copy_columns reopen ms st cols ccols remote counts l = Ok xs ->
  (forall d i, In (TTemp d i) (col_refs xs) -> In (d, i) (dkeys (ts_objs st)) /\ exists c dc, dget remote c = Some (d, dc)) /\
  (reopen = false -> forall d i, refs_of (col_refs xs) d i =
     if (Nat.leb (dget_or counts d 0) i && Nat.ltb i (dget_or counts d 0 + remote_count ccols remote d l))%bool then 1 else 0).
Proof.
  intros Hw. induction l as [|c l IH]; intros counts xs H; cbn [copy_columns] in H.
  - inv H. split; [intros d i []|]. intros _ d i. unfold refs_of, remote_count. cbn [col_refs flat_map count_occ filter length].
    destruct (Nat.leb_spec (dget_or counts d 0) i), (Nat.ltb_spec i (dget_or counts d 0 + 0)); cbn [andb]; lia.
  - apply bind_Ok in H. destruct H as ([x counts1] & Hx & H). apply bind_Ok in H. destruct H as (xs1 & Hxs & H). inv H.
    destruct (IH counts1 xs1 Hxs) as [A B]. unfold copy_column in Hx. unfold remote_count in *. cbn [filter]. destruct (memb c ccols) eqn:Em.
    + inv Hx. cbn [negb andb]. split; [exact A|exact B].
    + cbn [negb andb]. destruct (dget remote c) as [[d0 dc0]|] eqn:Er.
      * apply bind_Ok in Hx. destruct Hx as ([t c1] & Ht & Hx). unfold lift_build in Ht.
        destruct (ctx st (mkIdent (fst d0) (snd d0) true) counts) as [[t' c1']|] eqn:Ec; [|discriminate]. inv Ht.
        apply bind_Ok in Hx. destruct Hx as (u1 & _ & Hx). apply bind_Ok in Hx. destruct Hx as (u2 & _ & Hx). apply bind_Ok in Hx. destruct Hx as (u3 & _ & Hx). inv Hx.
        apply ctx_inv in Ec. destruct Ec as [(_ & i0 & Hi & Hcnt)|(Hs & _)]; [|discriminate]. unfold i_name in *. cbn [i_schema i_table] in *.
        assert (Ed : (fst d0, snd d0) = d0) by (destruct d0; reflexivity). rewrite Ed in *.
        destruct (Hw _ _ _ Hi) as (E1 & _). split.
        -- intros d i [E|Hin]; [cbn [snd] in E; rewrite E1 in E; inv E; split; [exact (dget_Some_key Hi)|eauto]|exact (A d i Hin)].
        -- intros Hr d i. specialize (B Hr d i). rewrite Hr in Hcnt. destruct Hcnt as [-> ->]. unfold refs_of in *.
           cbn [col_refs flat_map snd app]. rewrite E1. cbn [count_occ]. fold (col_refs xs1).
           unfold eqb at 1. destruct (eq_dec d0 d) as [<-|Hne].
           ++ rewrite dget_or_dset in B. destruct (eq_dec d0 d0) as [_|]; [|congruence]. cbn [length].
              set (k := dget_or counts d0 0) in *. match goal with |- context [k + S ?x] => set (y := x) in * end.
              destruct (eq_dec (TTemp d0 k) (TTemp d0 i)) as [E|E].
              ** inv E. rewrite B. destruct (Nat.leb_spec (1 + k) k), (Nat.ltb_spec k (k + S y)), (Nat.leb_spec k k); cbn [andb]; lia.
              ** assert (k <> i) by congruence. rewrite B.
                 destruct (Nat.leb_spec (1 + k) i), (Nat.ltb_spec i (k + S y)), (Nat.ltb_spec i (1 + k + y)), (Nat.leb_spec k i); cbn [andb]; lia.
           ++ rewrite dget_or_dset in B. destruct (eq_dec d d0) as [E|_]; [congruence|]. rewrite <- B.
              destruct (eq_dec (TTemp d0 (dget_or counts d0 0)) (TTemp d i)) as [E|_]; [congruence|reflexivity].
      * apply bind_Ok in Hx. destruct Hx as (u & _ & Hx). inv Hx. cbn [negb andb]. split; [exact A|exact B].
Qed.

Lemma remote_compact_In m c d dc : dget (remote_compact compact m) c = Some (d, dc) ->
  exists fk, In fk (tm_fks m) /\ fk_dst fk = d /\ In (c, dc) (combine (fk_cols fk) (fk_dst_cols fk)) /\ In dc (dget_or compact d []).
Proof.
  intros H. apply dget_In in H. unfold remote_compact in H. apply dict_of_incl in H. apply in_flat_map in H. destruct H as (fk & Hfk & H).
  apply in_flat_map in H. destruct H as ([a b] & Hab & H). cbn [fst snd] in H. destruct (memb b (dget_or compact (fk_dst fk) [])) eqn:E; [|destruct H].
  destruct H as [X|[]]. inv X. apply memb_true in E. exists fk. auto.
Qed.

(** C36: no foreign key of a planned table refers to a compacted column of the table itself *)
Lemma copy_runs st s q n c : mats queries = Ok st -> (reopen = false -> no_self_references ms compact queries) -> In (s, q) queries -> named s n ->
  copy_statement reopen ms compact st n q = Ok c -> stmt_runs reopen (copy_refs c, dkeys (ts_objs st)).
Proof.
  intros Hst Hself Hin Hn H. destruct (mats_spec Hst) as (Hw & _). unfold copy_statement in H.
  apply bind_Ok in H. destruct H as ([b cnt] & Hb & H). apply bind_Ok in H. destruct H as (m & Hm & H). apply dfind_Ok in Hm.
  assert (Hbase : (forall d i, In (TTemp d i) (query_refs b) -> In (d, i) (dkeys (ts_objs st))) /\
            (reopen = false -> forall d i, (d <> n \/ ~ In (n, 0) (dkeys (ts_objs st)) ->
                refs_of (query_refs b) d i = if Nat.ltb i (dget_or cnt d 0) then 1 else 0) /\
                (refs_of (query_refs b) n i <= 1))).
  { destruct (dget (ts_objs st) (n, 0)) as [t|] eqn:Et.
    - inv Hb. destruct (Hw _ _ _ Et) as (E1 & _). cbn [query_refs from_refs map concat app]. rewrite E1. split.
      + intros d i [X|[]]. inv X. exact (dget_Some_key Et).
      + intros _ d i. unfold refs_of. cbn [count_occ]. split.
        * intros [Hd|Hd]; [|exfalso; exact (Hd (dget_Some_key Et))]. destruct (eq_dec (TTemp n 0) (TTemp d i)) as [X|_]; [congruence|]. reflexivity.
        * destruct (eq_dec (TTemp n 0) (TTemp n i)); lia.
    - destruct (build_query (ctx st) q []) as [[b0 c0]|] eqn:Eb; [|discriminate]. inv Hb.
      destruct (ctx_query_refs Hw Eb) as [R1 R2]. split; [exact R1|]. intros Hr d i. split; [intros _; exact (proj2 (R2 Hr d) i)|].
      rewrite (proj2 (R2 Hr n) i). destruct (Nat.ltb i _); lia. }
  destruct Hbase as [B1 B2].
  destruct (is_nil (remote_compact compact m) && is_nil (dget_or compact n [])) eqn:Ep.
  - inv H. intros d i. cbn [fst snd copy_refs]. split; [|apply B1]. intros Hr. destruct (eq_dec d n) as [->|Hd]; [exact (proj2 (B2 Hr n i))|].
    rewrite (proj1 (B2 Hr d i) (or_introl Hd)). destruct (Nat.ltb i _); lia.
  - apply bind_Ok in H. destruct H as (cols & _ & H). apply bind_Ok in H. destruct H as (u & _ & H). apply bind_Ok in H. destruct H as (xs & Hxs & H). inv H.
    destruct (copy_columns_refs Hw Hxs) as [C1 C2]. intros d i. cbn [fst snd copy_refs]. fold (col_refs xs). split.
    + intros Hr. rewrite refs_of_app. destruct (eq_dec d n) as [->|Hd].
      * assert (Hz : refs_of (col_refs xs) n i = 0).
        { destruct (Nat.eq_dec (refs_of (col_refs xs) n i) 0) as [|Hnz]; [assumption|]. exfalso.
          assert (Hi : In (TTemp n i) (col_refs xs)) by (apply refs_of_In; lia). apply C1 in Hi. destruct Hi as [_ (c & dc & Hdc)].
          apply remote_compact_In in Hdc. destruct Hdc as (fk & F1 & F2 & F3 & F4).
          apply (Hself Hr n c dc).
          - exists s. split; [exact Hn|]. apply in_map_iff. exists (s, q). auto.
          - exists m, fk. split; [exact (dget_In Hm)|]. split; [exact F1|]. split; [exact F2|]. split; [exact F3|].
            unfold dget_or in F4. destruct (dget compact n) as [cs|] eqn:Ecs; [|destruct F4]. exists cs. split; [exact (dget_In Ecs)|exact F4]. }
        pose proof (proj2 (B2 Hr n i)). lia.
      * rewrite (proj1 (B2 Hr d i) (or_introl Hd)), (C2 Hr d i).
        destruct (Nat.ltb_spec i (dget_or cnt d 0)), (Nat.leb_spec (dget_or cnt d 0) i); cbn [andb]; try lia.
        destruct (Nat.ltb i _); lia.
    + intros Hi. apply in_app_or in Hi. destruct Hi as [Hi|Hi]; [exact (B1 _ _ Hi)|exact (proj1 (C1 _ _ Hi))].
Qed.

Theorem run_executable insert_order st outs :
  extract source cmpf textf rawf raw_cols z rank reopen ms compact start ord queries insert_order = Ok (st, outs) ->
  (reopen = false -> no_self_references ms compact queries) -> Forall (stmt_runs reopen) (executed (st, outs)).
Proof.
  intros H Hself. unfold extract in H. apply bind_Ok in H. destruct H as (st0 & Hst & H). apply bind_Ok in H. destruct H as (l & Hl & H). inv H.
  destruct (mats_spec Hst) as (Hw & Hlog & _). unfold executed. cbn [fst snd]. apply Forall_app. split; [exact Hlog|].
  apply Forall_forall. intros e He. apply in_map_iff in He. destruct He as (o & <- & Ho). apply in_flat_map in Ho. destruct Ho as (oo & Hoo & Ho).
  destruct oo as [o'|]; [|destruct Ho]. destruct Ho as [->|[]]. apply mapM_Ok in Hl.
  destruct (Forall2_In_r Hl Hoo) as (s & Hs & Eo). unfold copy_table in Eo. apply bind_Ok in Eo. destruct Eo as (n & Hp & Eo).
  unfold parse in Hp. destruct (parse_table_name s) as [n0|] eqn:Ep; [|discriminate]. inv Hp. apply parse_named in Ep.
  destruct (dget queries s) as [q|] eqn:Eq; [|discriminate]. apply bind_Ok in Eo. destruct Eo as (c & Ec & Eo). inv Eo. cbn [co_refs].
  exact (copy_runs Hst Hself (dget_In Eq) Ep Ec).
Qed.
End Run.
