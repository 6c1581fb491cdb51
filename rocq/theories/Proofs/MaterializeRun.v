(** sampler.py [_materialize_tables]: what the temporary tables contain (C34, C36). *)
From Coq Require Import Lia.
From Verif Require Import Model.Base Model.Solver Model.Value Model.Names Model.PlanModel Spec.SqlSem Model.SqlAlgebra Model.PlanBuild
  Model.Metadata Model.Materialize Spec.GraphSpec Spec.SchemaSpec Spec.PlannerSpec Spec.SampleSpec
  Proofs.BaseFacts Proofs.NameFacts Proofs.GraphFacts Proofs.BuildFacts Proofs.BuildRefs Proofs.MaterializeOrder.
Set Implicit Arguments.
Unset Strict Implicit.

Lemma nodup_length_NoDup {A} (dec : forall x y : A, {x = y} + {x <> y}) l : length (nodup dec l) = length l -> NoDup l.
Proof.
  assert (Hle : forall l, length (nodup dec l) <= length l).
  { induction l0 as [|a l0 IH]; [cbn; lia|]. cbn [nodup]. destruct (in_dec dec a l0); cbn [length]; lia. }
  induction l as [|a l IH]; intros H; [constructor|]. cbn [nodup] in H. destruct (in_dec dec a l) as [Hi|Hi].
  - specialize (Hle l). cbn [length] in H. lia.
  - constructor; [exact Hi|]. apply IH. cbn [length] in H. lia.
Qed.

Lemma refs_of_app a b n i : refs_of (a ++ b) n i = refs_of a n i + refs_of b n i.
Proof. apply count_occ_app. Qed.
Lemma refs_of_perm a b n i : Permutation a b -> refs_of a n i = refs_of b n i.
Proof. intros H. apply (proj1 (Permutation_count_occ eq_dec a b) H). Qed.
Lemma refs_of_In refs n i : refs_of refs n i > 0 <-> In (TTemp n i) refs.
Proof. split; intros H; [apply (proj2 (count_occ_In eq_dec _ _)) in H|apply (proj1 (count_occ_In eq_dec _ _))]; exact H. Qed.

Section Run.
Variables (source : tname -> list row) (cmpf : cmpop -> value -> value -> bool)
          (textf : string -> option (dict string lit) -> row -> tv)
          (rawf : string -> option (dict string lit) -> list row)
          (z : phase -> tname -> rnd) (rank : phase -> tname -> list (list value) -> list nat) (reopen : bool)
          (ms : meta) (compact : dict tname (list string)) (start : Z).
Notation tdb := (temp_db source cmpf textf rawf).
Notation mat1 := (materialize_one source cmpf textf rawf z rank reopen ms compact start).
Notation ctx := (build_ctx reopen ms).

Definition data (st : tstate) (n : tname) : list row := dget_or (ts_data st) (n, 0) [].
Definition sext (st st' : tstate) : Prop :=
  (forall k t, dget (ts_objs st) k = Some t -> dget (ts_objs st') k = Some t) /\
  (forall k, In k (dkeys (ts_objs st)) -> dget (ts_data st') k = dget (ts_data st) k).
Definition swf (st : tstate) : Prop :=
  forall n i t, dget (ts_objs st) (n, i) = Some t ->
    t_ref t = TTemp n i /\ dget (ts_data st) (n, i) = Some (data st n) /\ In (n, 0) (dkeys (ts_objs st)) /\
    (t_pk t <> [] -> NoDup (map (fun r => map (rget r) (t_pk t)) (data st n))).

Lemma sext_refl st : sext st st.
Proof. split; auto. Qed.
Lemma sext_trans a b c : sext a b -> sext b c -> sext a c.
Proof.
  intros [A1 A2] [B1 B2]. split; [auto|]. intros k Hk. rewrite B2, A2; auto.
  destruct (key_dget Hk) as (t & Ht). exact (dget_Some_key (A1 _ _ Ht)).
Qed.
Lemma sext_data st st' n : sext st st' -> In (n, 0) (dkeys (ts_objs st)) -> data st' n = data st n.
Proof. intros [_ H] Hin. unfold data, dget_or. rewrite (H _ Hin). reflexivity. Qed.

Lemma ctx_inv st id c t c' : ctx st id c = Ok (t, c') ->
  (i_sampled id = true /\ exists i, dget (ts_objs st) (i_name id, i) = Some t /\
     (if reopen then i = 0 /\ c' = c else i = dget_or c (i_name id) 0 /\ c' = dset c (i_name id) (1 + i))) \/
  (i_sampled id = false /\ c' = c /\ exists m, dget ms (i_name id) = Some m /\ t = table_obj (tm_table m)).
Proof.
  unfold build_ctx, sql_build_context. destruct (i_sampled id); intros H.
  - left. split; [reflexivity|]. apply bind_Ok in H. destruct H as (t0 & Ht & H). apply dfind_Ok in Ht. inv H.
    destruct reopen; [exists 0; auto|eexists; split; [exact Ht|auto]].
  - right. split; [reflexivity|]. apply bind_Ok in H. destruct H as (m & Hm & H). apply dfind_Ok in Hm. inv H. eauto.
Qed.

Hypothesis Hms : meta_ok ms.
Hypothesis Hsrc : source_unique ms source.

Lemma meta_name n m : dget ms n = Some m -> tb_name (tm_table m) = n.
Proof. intros H. exact (proj2 Hms _ _ (dget_In H)). Qed.

Lemma build_rows zz st (smp : tname -> list row) q stm b c :
  swf st -> (forall n, In (n, 0) (dkeys (ts_objs st)) -> smp n = data st n) -> q_sql q = None -> q_stmt q = Some stm -> stmt_wf stm ->
  build_query (ctx st) q [] = Ok (b, c) -> eval_query (tdb st) zz b = sem_stmt (plan_env cmpf textf source smp) zz stm.
Proof.
  intros Hw He Hq1 Hq2 Hwf Hb. unfold build_query in Hb. rewrite Hq1, Hq2 in Hb.
  refine (build_stmt_rows (context := ctx st) (e := plan_env cmpf textf source smp) (d := tdb st) zz _ _ _ _ Hwf Hb); try reflexivity.
  - intros id s t s' H. apply ctx_inv in H. destruct H as [(Hs & i & Hi & _)|(Hs & _ & m & Hm & ->)]; cbn [contents plan_env]; rewrite Hs.
    + destruct (Hw _ _ _ Hi) as (E1 & E2 & E3 & _). rewrite E1. cbn [temp_db db_rows]. unfold dget_or. rewrite E2.
      symmetry. exact (He _ E3).
    + cbn [table_obj t_ref temp_db db_rows]. rewrite (meta_name Hm). reflexivity.
  - intros id s t s' H Hpk. apply ctx_inv in H. destruct H as [(Hs & i & Hi & _)|(Hs & _ & m & Hm & ->)].
    + destruct (Hw _ _ _ Hi) as (E1 & E2 & E3 & E4). rewrite E1. cbn [temp_db db_rows]. unfold dget_or. rewrite E2. exact (E4 Hpk).
    + cbn [table_obj t_ref t_pk temp_db db_rows] in *. rewrite (meta_name Hm). exact (Hsrc (dget_In Hm) Hpk).
Qed.

(** references of built statements *)
Lemma ctx_calls st ids : swf st -> forall c ts c', call_all (ctx st) ids c = Ok (ts, c') ->
  (forall n i, In (TTemp n i) (map t_ref ts) -> In (n, i) (dkeys (ts_objs st))) /\
  (reopen = false -> forall n, dget_or c' n 0 = dget_or c n 0 + sample_count n ids /\
    forall i, refs_of (map t_ref ts) n i = if (Nat.leb (dget_or c n 0) i && Nat.ltb i (dget_or c' n 0))%bool then 1 else 0).
Proof.
  intros Hw. induction ids as [|id ids IH]; intros c ts c' H; cbn [call_all] in H.
  - inv H. split; [intros n i []|]. intros _ n. unfold sample_count. cbn [filter length]. split; [lia|]. intros i.
    unfold refs_of. cbn [map count_occ].
    destruct (Nat.leb_spec (dget_or c' n 0) i), (Nat.ltb_spec i (dget_or c' n 0)); cbn [andb]; lia.
  - apply bind_Ok in H. destruct H as ([t c1] & Ht & H). apply bind_Ok in H. destruct H as ([ts1 c2] & Hts & H). inv H.
    apply IH in Hts. destruct Hts as [A B]. apply ctx_inv in Ht. destruct Ht as [(Hs & i0 & Hi & Hc)|(Hs & -> & m & Hm & ->)].
    + destruct (Hw _ _ _ Hi) as (E1 & _). split.
      * intros n i [E|Hin]; [rewrite E1 in E; inv E; exact (dget_Some_key Hi)|exact (A n i Hin)].
      * intros Hr n. destruct (B Hr n) as [B1 B2]. rewrite Hr in Hc. destruct Hc as [-> ->].
        unfold sample_count in *. cbn [filter]. rewrite Hs. cbn [andb].
        rewrite dget_or_dset in B1. rewrite dget_or_dset in B2.
        unfold refs_of in *. cbn [map]. rewrite E1. unfold eqb at 1. cbn [count_occ].
        destruct (eq_dec n (i_name id)) as [->|Hne].
        -- destruct (eq_dec (i_name id) (i_name id)) as [_|]; [|congruence]. cbn [length]. split; [lia|]. intros i. rewrite B2.
           set (k := dget_or c (i_name id) 0) in *. set (k' := dget_or c' (i_name id) 0) in *.
           destruct (eq_dec (TTemp (i_name id) k) (TTemp (i_name id) i)) as [E|E].
           ++ inv E. destruct (Nat.leb_spec (1 + k) k), (Nat.ltb_spec k k'), (Nat.leb_spec k k); cbn; lia.
           ++ assert (k <> i) by congruence. destruct (Nat.leb_spec (1 + k) i), (Nat.ltb_spec i k'), (Nat.leb_spec k i); cbn; lia.
        -- destruct (eq_dec (i_name id) n) as [E|_]; [congruence|]. split; [exact B1|]. intros i. rewrite <- B2.
           destruct (eq_dec (TTemp (i_name id) (dget_or c (i_name id) 0)) (TTemp n i)) as [E|_]; [congruence|reflexivity].
    + split.
      * intros n i [E|Hin]; [discriminate|exact (A n i Hin)].
      * intros Hr n. destruct (B Hr n) as [B1 B2]. unfold sample_count in *. cbn [filter]. rewrite Hs. cbn [andb].
        split; [exact B1|]. intros i. rewrite <- B2. unfold refs_of. cbn [map table_obj t_ref count_occ].
        destruct (eq_dec (TSource (tb_name (tm_table m))) (TTemp n i)) as [E|_]; [discriminate|reflexivity].
Qed.

Lemma ctx_query_refs st q b c : swf st -> build_query (ctx st) q [] = Ok (b, c) ->
  (forall n i, In (TTemp n i) (query_refs b) -> In (n, i) (dkeys (ts_objs st))) /\
  (reopen = false -> forall n, dget_or c n 0 = sample_count n (query_ids q) /\
    forall i, refs_of (query_refs b) n i = if Nat.ltb i (dget_or c n 0) then 1 else 0).
Proof.
  intros Hw H. apply build_query_calls in H. destruct H as (ts & Hc & HP). destruct (ctx_calls Hw Hc) as [A B].
  unfold refs_match in HP. split.
  - intros n i Hin. apply A. exact (Permutation_in _ HP Hin).
  - intros Hr n. destruct (B Hr n) as [B1 B2]. unfold dget_or at 2 in B1. cbn in B1. split; [exact B1|]. intros i.
    rewrite (refs_of_perm n i HP), B2. unfold dget_or at 1. cbn. reflexivity.
Qed.

(** creating temporary tables *)
Lemma create_Ok st n idx cols pk rows refs st' : create_temp st n idx cols pk rows refs = Ok st' ->
  let pk' := filter (fun c => memb c pk) cols in
  ts_objs st' = dset (ts_objs st) (n, idx) (mkT (TTemp n idx) cols pk') /\
  ts_data st' = dset (ts_data st) (n, idx) rows /\
  ts_log st' = ts_log st ++ [(TTemp n idx :: refs, dkeys (ts_objs st'))] /\
  (pk' <> [] -> NoDup (map (fun r => map (rget r) pk') rows)).
Proof.
  unfold create_temp. cbn zeta. destruct (negb (is_nil (filter (fun c => memb c pk) cols)) && _) eqn:E; intros H; [discriminate|].
  inv H. cbn [ts_objs ts_data ts_log]. split; [reflexivity|]. split; [reflexivity|]. split; [reflexivity|].
  intros Hpk. destruct (filter (fun c => memb c pk) cols) as [|c0 l0] eqn:Ef; [congruence|]. cbn [is_nil negb andb] in E.
  apply negb_false_iff, Nat.eqb_eq in E. exact (nodup_length_NoDup E).
Qed.

(** everything one iteration does *)
Record mat_step (queries : dict string table_query) (st : tstate) (n : tname) (cnt : nat) (st' : tstate) : Prop := {
  step_all : exists m query b c cols rows,
    dget ms n = Some m /\ dget queries (render n) = Some query /\
    build_query (ctx st) query [] = Ok (b, c) /\ selected_columns b = Ok cols /\
    rows = eval_query (tdb st) (z PMaterialize n) b /\
    (if dmem compact n
     then incl (tb_pk (tm_table m)) cols /\
          data st' n = map (fun vr => (id_column, fst vr) :: snd vr) (number_rows rank start PMaterialize n (tb_pk (tm_table m)) rows)
     else data st' n = rows) /\
    (forall i t, dget (ts_objs st') (n, i) = Some t ->
       t_cols t = (if dmem compact n then id_column :: cols else cols) /\
       t_pk t = filter (fun c => memb c (tb_pk (tm_table m))) (t_cols t));
  step_wf : swf st';
  step_ext : sext st st';
  step_other : forall n' i, n' <> n -> dget (ts_objs st') (n', i) = dget (ts_objs st) (n', i);
  step_copies : forall i, In (n, i) (dkeys (ts_objs st')) <-> i = 0 \/ (reopen = false /\ 1 <= i < cnt);
  step_log : Forall (stmt_runs reopen) (ts_log st) -> Forall (stmt_runs reopen) (ts_log st') }.

Lemma copies_spec n pk t0 : forall l st st',
  dget (ts_objs st) (n, 0) = Some t0 -> t_ref t0 = TTemp n 0 -> dget (ts_data st) (n, 0) <> None -> ~ In 0 l ->
  forM (fun st index =>
          let* t := dfind SxKeyError (ts_objs st) (n, 0) in
          create_temp st n index (t_cols t) pk (dget_or (ts_data st) (n, 0) []) [t_ref t]) l st = Ok st' ->
  (forall k, dget (ts_objs st') k =
     if existsb (fun i => eqb k (n, i)) l then Some (mkT (TTemp n (snd k)) (t_cols t0) (filter (fun c => memb c pk) (t_cols t0)))
     else dget (ts_objs st) k) /\
  (forall k, dget (ts_data st') k = if existsb (fun i => eqb k (n, i)) l then dget (ts_data st) (n, 0) else dget (ts_data st) k) /\
  (l <> [] -> filter (fun c => memb c pk) (t_cols t0) <> [] ->
     NoDup (map (fun r => map (rget r) (filter (fun c => memb c pk) (t_cols t0))) (dget_or (ts_data st) (n, 0) []))) /\
  (Forall (stmt_runs reopen) (ts_log st) -> Forall (stmt_runs reopen) (ts_log st')).
Proof.
  induction l as [|i l IH]; intros st st' H0 Hr Hd Hl H; cbn [forM] in H.
  - inv H. cbn [existsb]. split; [reflexivity|]. split; [reflexivity|]. split; [congruence|auto].
  - apply bind_Ok in H. destruct H as (st1 & H1 & H). unfold dfind in H1. rewrite H0 in H1. cbn [bind] in H1.
    destruct (create_Ok H1) as (E1 & E2 & E3 & E4).
    assert (Hi : i <> 0) by (intros ->; apply Hl; left; reflexivity).
    assert (Hne : (n, 0) <> (n, i)) by congruence.
    assert (H01 : dget (ts_objs st1) (n, 0) = Some t0) by (rewrite E1, (dget_dset_ne _ _ Hne); exact H0).
    assert (Hd1 : dget (ts_data st1) (n, 0) = dget (ts_data st) (n, 0)) by (rewrite E2, (dget_dset_ne _ _ Hne); reflexivity).
    assert (Hd1' : dget (ts_data st1) (n, 0) <> None) by (rewrite Hd1; exact Hd).
    assert (Hl' : ~ In 0 l) by (intros Hx; apply Hl; right; exact Hx).
    destruct (IH st1 st' H01 Hr Hd1' Hl' H) as (A & B & _ & D).
    split; [|split; [|split]].
    + intros k. rewrite A. cbn [existsb]. unfold eqb at 2. destruct (eq_dec k (n, i)) as [->|Hk]; cbn [orb].
      * destruct (existsb _ l); [reflexivity|]. rewrite E1, dget_dset_eq. reflexivity.
      * destruct (existsb _ l); [reflexivity|]. rewrite E1, (dget_dset_ne _ _ Hk). reflexivity.
    + intros k. rewrite B, Hd1. cbn [existsb]. unfold eqb at 2. destruct (eq_dec k (n, i)) as [->|Hk]; cbn [orb].
      * destruct (existsb _ l); [reflexivity|]. rewrite E2, dget_dset_eq. unfold dget_or. destruct (dget (ts_data st) (n, 0)); [reflexivity|congruence].
      * destruct (existsb _ l); [reflexivity|]. rewrite E2, (dget_dset_ne _ _ Hk). reflexivity.
    + intros _. exact E4.
    + intros HL. apply D. rewrite E3. apply Forall_app. split; [exact HL|]. constructor; [|constructor].
      intros n' i'. cbn [fst snd]. rewrite Hr. unfold refs_of. cbn [count_occ]. split.
      * intros _. destruct (eq_dec (TTemp n i) (TTemp n' i')) as [X|]; destruct (eq_dec (TTemp n 0) (TTemp n' i')) as [Y|]; try lia. congruence.
      * intros [X|[X|[]]]; inv X; [rewrite E1; apply dset_In_key; left; reflexivity|exact (dget_Some_key H01)].
Qed.

Lemma existsb_idx (k : tname * nat) (n : tname) (l : list nat) : existsb (fun i => eqb k (n, i)) l = true <-> fst k = n /\ In (snd k) l.
Proof.
  rewrite existsb_exists. split.
  - intros (i & Hi & E). rewrite eqb_true in E. subst k. auto.
  - intros [<- Hi]. exists (snd k). split; [exact Hi|]. destruct k. apply eqb_refl.
Qed.

Lemma mat1_spec queries st n cnt st' : swf st -> (forall i, ~ In (n, i) (dkeys (ts_objs st))) ->
  mat1 queries st (n, cnt) = Ok st' -> mat_step queries st n cnt st'.
Proof.
  intros Hw Hfresh H. unfold materialize_one in H.
  apply bind_Ok in H. destruct H as (m & Hm & H). apply dfind_Ok in Hm.
  apply bind_Ok in H. destruct H as (query & Hq & H). apply dfind_Ok in Hq.
  apply bind_Ok in H. destruct H as ([b c] & Hb & H).
  destruct (build_query (sql_build_context ms (ts_objs st) reopen) query []) as [[b0 c0]|] eqn:Eb; [|discriminate]. inv Hb.
  apply bind_Ok in H. destruct H as (cols & Hcols & H). apply bind_Ok in H. destruct H as (st1 & H1 & H).
  set (pk := tb_pk (tm_table m)) in *. set (rows := eval_query (tdb st) (z PMaterialize n) b) in *.
  set (cols' := if dmem compact n then id_column :: cols else cols).
  set (rows' := if dmem compact n then map (fun vr => (id_column, fst vr) :: snd vr) (number_rows rank start PMaterialize n pk rows) else rows).
  assert (H1' : create_temp st n 0 cols' pk rows' (query_refs b) = Ok st1 /\ (dmem compact n = true -> incl pk cols)).
  { unfold cols', rows'. destruct (dmem compact n); [|split; [exact H1|discriminate]].
    apply bind_Ok in H1. destruct H1 as (u & Hu & H1). split; [exact H1|]. intros _. unfold need_cols in Hu.
    destruct (subsetb pk cols) eqn:Es; [|discriminate]. apply (proj1 (subsetb_true _ _)). exact Es. }
  clear H1. destruct H1' as [H1 Hincl]. destruct (create_Ok H1) as (E1 & E2 & E3 & E4).
  set (pk' := filter (fun c => memb c pk) cols') in *.
  destruct (ctx_query_refs (q := query) (b := b) (c := c) Hw Eb) as [Hr1 Hr2].
  assert (Hlog1 : Forall (stmt_runs reopen) (ts_log st) -> Forall (stmt_runs reopen) (ts_log st1)).
  { intros HL. rewrite E3. apply Forall_app. split; [exact HL|]. constructor; [|constructor]. intros n' i'. cbn [fst snd]. split.
    - intros Hr. unfold refs_of. cbn [count_occ]. fold (refs_of (query_refs b) n' i').
      destruct (eq_dec (TTemp n 0) (TTemp n' i')) as [X|].
      + inv X. assert (Hz : refs_of (query_refs b) n' 0 = 0); [|lia].
        destruct (Nat.eq_dec (refs_of (query_refs b) n' 0) 0) as [|Hnz]; [assumption|]. exfalso.
        apply (Hfresh 0). apply Hr1. apply refs_of_In. lia.
      + rewrite (proj2 (Hr2 Hr n') i'). destruct (Nat.ltb i' _); lia.
    - intros [X|Hin]; [inv X; rewrite E1; apply dset_In_key; left; reflexivity|].
      rewrite E1. apply dset_In_key. right. exact (Hr1 _ _ Hin). }
  assert (Hd1 : data st1 n = rows').
  { unfold data. rewrite E2, dget_or_dset. destruct (eq_dec (n, 0) (n, 0)); [reflexivity|congruence]. }
  assert (Hdo : forall st2, (forall k, fst k <> n -> dget (ts_data st2) k = dget (ts_data st) k) -> forall n', n' <> n -> data st2 n' = data st n').
  { intros st2 Hk n' Hn'. unfold data, dget_or. rewrite Hk; [reflexivity|exact Hn']. }
  (* final state: objects and rows *)
  assert (Hfin : (forall k, dget (ts_objs st') k = if (eqb (fst k) n && (Nat.eqb (snd k) 0 || (negb reopen && Nat.ltb (snd k) cnt)))%bool
                     then Some (mkT (TTemp n (snd k)) cols' pk') else dget (ts_objs st) k) /\
                 (forall k, dget (ts_data st') k = if (eqb (fst k) n && (Nat.eqb (snd k) 0 || (negb reopen && Nat.ltb (snd k) cnt)))%bool
                     then Some rows' else dget (ts_data st) k) /\
                 (pk' <> [] -> NoDup (map (fun r => map (rget r) pk') rows')) /\
                 (Forall (stmt_runs reopen) (ts_log st) -> Forall (stmt_runs reopen) (ts_log st'))).
  { destruct reopen eqn:Er.
    - inv H. cbn [negb andb]. split; [|split; [|split; [exact E4|exact Hlog1]]].
      + intros [n' i']. cbn [fst snd]. rewrite E1, dget_dset, orb_false_r. unfold eqb. destruct (eq_dec (n', i') (n, 0)) as [X|X].
        * inv X. destruct (eq_dec n n) as [_|]; [reflexivity|congruence].
        * destruct (eq_dec n' n) as [->|]; [|reflexivity]. destruct (Nat.eqb_spec i' 0) as [->|]; [congruence|reflexivity].
      + intros [n' i']. cbn [fst snd]. rewrite E2, dget_dset, orb_false_r. unfold eqb. destruct (eq_dec (n', i') (n, 0)) as [X|X].
        * inv X. destruct (eq_dec n n) as [_|]; [reflexivity|congruence].
        * destruct (eq_dec n' n) as [->|]; [|reflexivity]. destruct (Nat.eqb_spec i' 0) as [->|]; [congruence|reflexivity].
    - assert (H0 : dget (ts_objs st1) (n, 0) = Some (mkT (TTemp n 0) cols' pk')) by (rewrite E1; apply dget_dset_eq).
      assert (Hd0 : dget (ts_data st1) (n, 0) = Some rows') by (rewrite E2; apply dget_dset_eq).
      destruct (copies_spec H0 eq_refl (l := seq 1 (cnt - 1)) (st' := st') (pk := pk)) as (A & B & _ & D).
      { rewrite Hd0. discriminate. } { rewrite in_seq. lia. } { exact H. }
      cbn [t_cols] in A, B, D. fold pk' in A. rewrite Er in D.
      assert (Hidx : forall k : tname * nat, (eqb (fst k) n && (Nat.eqb (snd k) 0 || (negb false && Nat.ltb (snd k) cnt)))%bool = true <->
                existsb (fun i => eqb k (n, i)) (seq 1 (cnt - 1)) = true \/ k = (n, 0)).
      { intros [n' i']. rewrite existsb_idx, in_seq. cbn [fst snd negb andb]. rewrite andb_true_iff, orb_true_iff, eqb_true, Nat.eqb_eq, Nat.ltb_lt.
        split.
        - intros [-> [->|Hl]]; [auto|]. destruct (Nat.eq_dec i' 0) as [->|]; [auto|left; split; [reflexivity|lia]].
        - intros [[-> Hl]|X]; [split; [reflexivity|right; lia]|inv X; auto]. }
      split; [|split; [|split; [exact E4|intros HL; exact (D (Hlog1 HL))]]].
      + intros k. rewrite A. destruct (existsb _ _) eqn:Ex.
        * rewrite (proj2 (Hidx k) (or_introl Ex)). reflexivity.
        * rewrite E1, dget_dset. destruct (eq_dec k (n, 0)) as [->|Hk].
          -- rewrite (proj2 (Hidx (n, 0)) (or_intror eq_refl)). reflexivity.
          -- match goal with |- _ = if ?b then _ else _ => destruct b eqn:Eb' end; [|reflexivity].
             apply Hidx in Eb'. destruct Eb' as [X|X]; congruence.
      + intros k. rewrite B. destruct (existsb _ _) eqn:Ex.
        * rewrite (proj2 (Hidx k) (or_introl Ex)). exact Hd0.
        * rewrite E2, dget_dset. destruct (eq_dec k (n, 0)) as [->|Hk].
          -- rewrite (proj2 (Hidx (n, 0)) (or_intror eq_refl)). reflexivity.
          -- match goal with |- _ = if ?b then _ else _ => destruct b eqn:Eb' end; [|reflexivity].
             apply Hidx in Eb'. destruct Eb' as [X|X]; congruence. }
  destruct Hfin as (F1 & F2 & F3 & F4).
  assert (F1n : forall i t, dget (ts_objs st') (n, i) = Some t ->
            (Nat.eqb i 0 || (negb reopen && Nat.ltb i cnt))%bool = true /\ t = mkT (TTemp n i) cols' pk').
  { intros i t Ht. rewrite F1 in Ht. cbn [fst snd] in Ht. rewrite eqb_refl in Ht. cbn [andb] in Ht.
    destruct (Nat.eqb i 0 || (negb reopen && Nat.ltb i cnt))%bool; [inv Ht; auto|]. exfalso. exact (Hfresh i (dget_Some_key Ht)). }
  assert (F1o : forall n' i, n' <> n -> dget (ts_objs st') (n', i) = dget (ts_objs st) (n', i)).
  { intros n' i Hn'. rewrite F1. cbn [fst snd]. rewrite (proj2 (eqb_false n' n) Hn'). reflexivity. }
  assert (F2o : forall n' i, n' <> n -> dget (ts_data st') (n', i) = dget (ts_data st) (n', i)).
  { intros n' i Hn'. rewrite F2. cbn [fst snd]. rewrite (proj2 (eqb_false n' n) Hn'). reflexivity. }
  assert (Hdn : data st' n = rows').
  { unfold data, dget_or. rewrite F2. cbn [fst snd]. rewrite eqb_refl. reflexivity. }
  assert (H00 : In (n, 0) (dkeys (ts_objs st'))).
  { apply dget_Some_key with (v := mkT (TTemp n 0) cols' pk'). rewrite F1. cbn [fst snd]. rewrite eqb_refl. reflexivity. }
  split.
  - exists m, query, b, c, cols, rows. split; [exact Hm|]. split; [exact Hq|]. split; [exact Eb|]. split; [exact Hcols|]. split; [reflexivity|].
    split.
    + rewrite Hdn. unfold rows'. destruct (dmem compact n) eqn:Ec; [split; [exact (Hincl eq_refl)|reflexivity]|reflexivity].
    + intros i t Ht. apply F1n in Ht. destruct Ht as [_ ->]. split; reflexivity.
  - intros n' i t Ht. destruct (eq_dec n' n) as [->|Hn'].
    + destruct (F1n _ _ Ht) as [Hi ->]. cbn [t_ref t_pk]. split; [reflexivity|]. split.
      * rewrite F2. cbn [fst snd]. rewrite eqb_refl, Hi. cbn [andb]. rewrite Hdn. reflexivity.
      * split; [exact H00|]. rewrite Hdn. exact F3.
    + rewrite (F1o _ _ Hn') in Ht. destruct (Hw _ _ _ Ht) as (A & B & C & D). split; [exact A|].
      assert (Ed : data st' n' = data st n') by (unfold data, dget_or; rewrite (F2o _ 0 Hn'); reflexivity).
      rewrite Ed. split; [rewrite (F2o _ _ Hn'); exact B|]. split; [|exact D].
      destruct (key_dget C) as (t0 & Ht0). apply dget_Some_key with (v := t0). rewrite (F1o _ _ Hn'). exact Ht0.
  - split.
    + intros [n' i] t Ht. destruct (eq_dec n' n) as [->|Hn']; [exfalso; exact (Hfresh i (dget_Some_key Ht))|]. rewrite (F1o _ _ Hn'). exact Ht.
    + intros [n' i] Hk. destruct (eq_dec n' n) as [->|Hn']; [exfalso; exact (Hfresh i Hk)|]. exact (F2o _ _ Hn').
  - exact F1o.
  - intros i. split.
    + intros Hk. destruct (key_dget Hk) as (t & Ht). apply F1n in Ht. destruct Ht as [Hi _]. apply orb_true_iff in Hi. rewrite Nat.eqb_eq in Hi.
      destruct Hi as [Hi|Hi]; [auto|]. apply andb_prop in Hi. destruct Hi as [Hi1 Hi2]. apply negb_true_iff in Hi1. apply Nat.ltb_lt in Hi2.
      destruct i; [auto|right; split; [exact Hi1|lia]].
    + intros Hi. apply dget_Some_key with (v := mkT (TTemp n i) cols' pk'). rewrite F1. cbn [fst snd]. rewrite eqb_refl. cbn [andb].
      assert (Hb' : (Nat.eqb i 0 || (negb reopen && Nat.ltb i cnt))%bool = true).
      { apply orb_true_iff. destruct Hi as [->|[-> Hi]]; [left; reflexivity|right]. cbn. apply Nat.ltb_lt. lia. }
      rewrite Hb'. reflexivity.
  - exact F4.
Qed.

(** the whole loop: every table of the order went through its step, in a state included in the final one *)
Lemma mat_loop queries order : NoDup (map fst order) -> forall st st', swf st -> (forall n c i, In (n, c) order -> ~ In (n, i) (dkeys (ts_objs st))) ->
  forM (mat1 queries) order st = Ok st' ->
  swf st' /\ sext st st' /\
  (forall n i, ~ In n (map fst order) -> dget (ts_objs st') (n, i) = dget (ts_objs st) (n, i)) /\
  (Forall (stmt_runs reopen) (ts_log st) -> Forall (stmt_runs reopen) (ts_log st')) /\
  (forall n c, In (n, c) order -> exists s1 s2, sext st s1 /\ swf s1 /\ mat_step queries s1 n c s2 /\ sext s2 st' /\
     (forall i, dget (ts_objs st') (n, i) = dget (ts_objs s2) (n, i)) /\
     (forall n' i, In (n', i) (dkeys (ts_objs s1)) -> In (n', i) (dkeys (ts_objs st)) \/ before (map fst order) n' n)).
Proof.
  induction order as [|[n c] order IH]; intros Hnd st st' Hw Hfr H; cbn [forM] in H.
  - inv H. split; [exact Hw|]. split; [apply sext_refl|]. split; [reflexivity|]. split; [auto|]. intros n c [].
  - apply bind_Ok in H. destruct H as (st1 & H1 & H). cbn [map fst] in Hnd. apply NoDup_cons_iff in Hnd. destruct Hnd as [Hn1 Hn2].
    pose proof (mat1_spec Hw (fun i => Hfr n c i (or_introl eq_refl)) H1) as Hs.
    destruct (IH Hn2 st1 st' (step_wf Hs)) as (A & B & C & D & E); [|exact H|].
    { intros n' c' i Hin Hk. assert (Hne : n' <> n) by (intros ->; apply Hn1; apply in_map_iff; exists (n, c'); auto).
      destruct (key_dget Hk) as (t & Ht). rewrite (step_other Hs i Hne) in Ht.
      exact (Hfr n' c' i (or_intror Hin) (dget_Some_key Ht)). }
    split; [exact A|]. split; [exact (sext_trans (step_ext Hs) B)|]. split.
    { intros n' i Hn'. cbn [map fst] in Hn'. rewrite C; [|intros Hx; apply Hn'; right; exact Hx]. apply (step_other Hs). intros ->. apply Hn'. left. reflexivity. }
    split; [intros HL; exact (D (step_log Hs HL))|].
    intros n' c' [X|Hin].
    + inv X. exists st, st1. split; [apply sext_refl|]. split; [exact Hw|]. split; [exact Hs|]. split; [exact B|]. split; [intros i; apply C; exact Hn1|].
      intros n'' i Hk. left. exact Hk.
    + destruct (E n' c' Hin) as (s1 & s2 & F1 & F2 & F3 & F4 & F5 & F6). exists s1, s2.
      split; [exact (sext_trans (step_ext Hs) F1)|]. split; [exact F2|]. split; [exact F3|]. split; [exact F4|]. split; [exact F5|].
      intros n'' i Hk. destruct (F6 n'' i Hk) as [Hk'|Hb].
      * destruct (eq_dec n'' n) as [->|Hne].
        -- right. cbn [map fst]. apply before_cons_hd. apply in_map_iff. exists (n', c'). auto.
        -- left. destruct (key_dget Hk') as (t & Ht). rewrite (step_other Hs i Hne) in Ht. exact (dget_Some_key Ht).
      * right. cbn [map fst]. apply before_cons_tl. exact Hb.
Qed.
End Run.
