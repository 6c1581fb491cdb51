(** The temporary tables and the rows copied from two sources that differ in hidden columns only. *)
From Coq Require Import Lia.
From Verif Require Import Model.Base Model.Solver Model.Value Model.Names Model.PlanModel Spec.SqlSem Model.SqlAlgebra Model.PlanBuild Model.Metadata Model.Materialize.
From Verif Require Import Spec.GraphSpec Spec.SchemaSpec Spec.PlannerSpec Spec.SampleSpec Spec.HiddenSpec.
From Verif Require Import Proofs.BaseFacts Proofs.NameFacts Proofs.GraphFacts Proofs.BuildFacts Proofs.MaterializeOrder Proofs.MaterializeRun Proofs.SolverMain Proofs.SampleRun Proofs.CompactRun Proofs.FilterFacts Proofs.HiddenSem.
Set Implicit Arguments.
Unset Strict Implicit.
Open Scope list_scope.

Section Run.
Variable hidden : tname -> string -> Prop.
Notation alike := (alike hidden).
Notation seen := (seen hidden).
Variables (source source' : tname -> list row) (cmpf : cmpop -> value -> value -> bool)
          (textf : string -> option (dict string lit) -> row -> tv)
          (rawf : string -> option (dict string lit) -> list row)
          (raw_cols : string -> option (dict string lit) -> list string)
          (z : phase -> tname -> rnd) (rank : phase -> tname -> list (list value) -> list nat) (reopen : bool)
          (ms : meta) (compact : dict tname (list string)) (start : Z) (ord : list tname -> list tname)
          (queries : dict string table_query).
Notation tdb := (temp_db source cmpf textf rawf).
Notation tdb' := (temp_db source' cmpf textf rawf).
Notation mat1 := (materialize_one source cmpf textf rawf z rank reopen ms compact start queries).
Notation mat1' := (materialize_one source' cmpf textf rawf z rank reopen ms compact start queries).
Notation ctx := (build_ctx reopen ms).
Hypothesis Hord : any_order ord.
Hypothesis Hms : meta_ok ms.
Hypothesis Hcols : forall n m, dget ms n = Some m -> NoDup (tb_cols (tm_table m)) /\ ~ In id_column (tb_cols (tm_table m)).
Hypothesis Hdot : forall n m, dget ms n = Some m -> no_dot (fst n).
Hypothesis Hsrc : source_unique ms source.
Hypothesis Hsrc' : source_unique ms source'.
Hypothesis Hrows : forall n, Forall2 (alike n) (source n) (source' n).
Hypothesis Hz : forall ph n, rnd_ok (z ph n) /\ oblivious hidden (z ph n).
Hypothesis Hkey : forall n m c, dget ms n = Some m -> hidden n c -> tb_pk (tm_table m) <> [] /\ seen n (tb_pk (tm_table m)).
Hypothesis Hid : forall n, ~ hidden n id_column.
Hypothesis Hfks : forall n m fk, dget ms n = Some m -> In fk (tm_fks m) -> seen n (fk_cols fk) /\ seen (fk_dst fk) (fk_dst_cols fk).
Hypothesis Hq : queries_ok queries.
Hypothesis Hwf : plan_wf queries.
Hypothesis Hreads : plan_reads queries.
Hypothesis Hblind : forall s q, In (s, q) queries -> query_blind hidden textf q.

Lemma pk_seen n m : dget ms n = Some m -> seen n (tb_pk (tm_table m)).
Proof. intros Hm c Hc Hh. exact (proj2 (Hkey Hm Hh) c Hc Hh). Qed.

Lemma alike_cases n r r' : alike n r r' -> r = r' \/ exists c, hidden n c.
Proof.
  induction 1 as [|[k v] [k' v'] r r' [E H] _ IH]; [left; reflexivity|]. cbn [fst snd] in *. subst k'. destruct H as [->|H]; [|right; eauto].
  destruct IH as [->|IH]; auto.
Qed.
Lemma map_NoDup_eq {A B} (f : A -> B) l x y : NoDup (map f l) -> In x l -> In y l -> f x = f y -> x = y.
Proof.
  induction l as [|a l IH]; intros Hnd Hx Hy E; [destruct Hx|]. cbn [map] in Hnd. apply NoDup_cons_iff in Hnd. destruct Hnd as [H1 H2].
  destruct Hx as [<-|Hx], Hy as [<-|Hy]; [reflexivity| | |auto]; exfalso; apply H1; [rewrite E|rewrite <- E]; apply in_map; assumption.
Qed.
Lemma apart src n m r r' : source_unique ms src -> dget ms n = Some m -> In r (src n) -> In r' (src n) -> alike n r r' -> r = r'.
Proof.
  intros Hu Hm H1 H2 Ha. destruct (alike_cases Ha) as [|[c Hc]]; [assumption|]. destruct (Hkey Hm Hc) as [Hne Hs].
  exact (map_NoDup_eq (Hu n m (dget_In Hm) Hne) H1 H2 (alike_map Ha Hs)).
Qed.

(** The temporary tables of the two runs. *)
Definition rel (st st' : tstate) : Prop :=
  ts_objs st = ts_objs st' /\ ts_log st = ts_log st' /\
  forall n i, Forall2 (alike n) (dget_or (ts_data st) (n, i) []) (dget_or (ts_data st') (n, i) []).
Definition xrel {A B} (R : A -> B -> Prop) (r : xres A) (r' : xres B) : Prop :=
  match r, r' with Ok a, Ok a' => R a a' | Err x, Err x' => x = x' | _, _ => False end.

Lemma xrel_bind {A B C D} (R : A -> B -> Prop) (Q : C -> D -> Prop) m m' (k : A -> xres C) (k' : B -> xres D) :
  xrel R m m' -> (forall a a', m = Ok a -> m' = Ok a' -> R a a' -> xrel Q (k a) (k' a')) -> xrel Q (bind m k) (bind m' k').
Proof. intros H1 H2. destruct m as [a|x], m' as [a'|x']; cbn in *; try contradiction; auto. Qed.
Lemma xrel_same {A B} (Q : A -> B -> Prop) {C} (m : xres C) (k : C -> xres A) (k' : C -> xres B) :
  (forall a, m = Ok a -> xrel Q (k a) (k' a)) -> xrel Q (bind m k) (bind m k').
Proof. intros H. destruct m as [a|x]; cbn; auto. Qed.

Lemma rel_eval ph st st' s q n b c : rel st st' -> swf st -> swf st' -> In (s, q) queries -> named s n -> In n (dkeys ms) ->
  build_query (ctx st) q [] = Ok (b, c) -> Forall2 (alike n) (eval_query (tdb st) (z ph n) b) (eval_query (tdb' st') (z ph n) b).
Proof.
  intros (Ro & _ & Rd) Hw Hw' Hin Hn Hk Hb. destruct (Hreads Hin Hn) as (Q1 & stm & Q2 & Hro).
  destruct (key_dget Hk) as (m & Hm).
  assert (Hb' : build_query (ctx st') q [] = Ok (b, c)). { unfold build_ctx in *. rewrite <- Ro. exact Hb. }
  rewrite (build_rows _ _ _ Hms Hsrc (z ph n) Hw (smp := data st) (fun _ _ => eq_refl) Q1 Q2 (Hwf Hin Q2) Hb).
  rewrite (build_rows _ _ _ Hms Hsrc' (z ph n) Hw' (smp := data st') (fun _ _ => eq_refl) Q1 Q2 (Hwf Hin Q2) Hb').
  destruct (Hz ph n) as [Z1 Z2].
  assert (Hn' : i_name (mkIdent (fst n) (snd n) false) = n) by (destruct n; reflexivity).
  refine (own_rows (e := plan_env cmpf textf source (data st)) (e' := plan_env cmpf textf source' (data st')) (n := n) (q := q) eq_refl eq_refl _ Z2 Z1 Q2 Hro (Hblind Hin) _ _).
  - intros id. cbn [contents plan_env]. destruct (i_sampled id); [apply Rd|apply Hrows].
  - intros r r'. cbn [contents plan_env i_sampled]. rewrite Hn'. exact (fun H1 H2 => apart Hsrc Hm H1 H2).
  - intros r r'. cbn [contents plan_env i_sampled]. rewrite Hn'. exact (fun H1 H2 => apart Hsrc' Hm H1 H2).
Qed.

Lemma rel_create st st' n i cols pk rows rows' refs : rel st st' -> seen n pk -> Forall2 (alike n) rows rows' ->
  xrel rel (create_temp st n i cols pk rows refs) (create_temp st' n i cols pk rows' refs).
Proof.
  intros (Ro & Rl & Rd) Hs HF. unfold create_temp.
  assert (Ek : map (fun r => map (rget r) (filter (fun c => memb c pk) cols)) rows = map (fun r => map (rget r) (filter (fun c => memb c pk) cols)) rows').
  { apply Forall2_eq_map. revert HF. apply Forall2_impl'. intros r r' Hr. apply (alike_map Hr). intros c Hc. apply filter_In in Hc. apply Hs. apply memb_true. exact (proj2 Hc). }
  rewrite <- Ek. destruct (negb _ && negb _); [reflexivity|]. cbn [xrel]. unfold rel. cbn [ts_objs ts_data ts_log]. rewrite <- Ro, <- Rl.
  split; [reflexivity|]. split; [reflexivity|]. intros n' i'. rewrite !dget_or_dset. destruct (eq_dec (n', i') (n, i)) as [E|_]; [inv E; exact HF|apply Rd].
Qed.

Lemma rel_number ph n pk rows rows' : seen n pk -> Forall2 (alike n) rows rows' ->
  Forall2 (fun x x' => fst x = fst x' /\ alike n (snd x) (snd x')) (number_rows rank start ph n pk rows) (number_rows rank start ph n pk rows').
Proof.
  intros Hs HF. unfold number_rows.
  assert (Ek : map (fun r => map (rget r) pk) rows = map (fun r => map (rget r) pk) rows').
  { apply Forall2_eq_map. revert HF. apply Forall2_impl'. intros r r' Hr. exact (alike_map Hr Hs). }
  rewrite <- Ek. apply Forall2_combine_same. exact HF.
Qed.

Lemma rel_mat1 st st' n cnt : rel st st' -> swf st -> swf st' -> xrel rel (mat1 st (n, cnt)) (mat1' st' (n, cnt)).
Proof.
  intros Hr Hw Hw'. pose proof Hr as (Ro & Rl & Rd). unfold materialize_one. apply xrel_same. intros m Hm. apply dfind_Ok in Hm. apply xrel_same. intros q Hqq. apply dfind_Ok in Hqq.
  rewrite <- Ro. apply xrel_same. intros [b c] Hb.
  destruct (build_query (sql_build_context ms (ts_objs st) reopen) q []) as [[b0 c0]|] eqn:Eb; [|discriminate]. inv Hb.
  apply xrel_same. intros cols Hc. pose proof (pk_seen Hm) as Hs. 
  assert (Hnm : named (render n) n).
  { split; [reflexivity|exact (Hdot Hm)]. }
  pose proof (rel_eval PMaterialize Hr Hw Hw' (dget_In Hqq) Hnm (dget_Some_key Hm) Eb) as HF.
  apply (xrel_bind (R := rel)).
  - destruct (dmem compact n).
    + apply xrel_same. intros u _. apply rel_create; [exact Hr|exact Hs|]. apply Forall2_map2.
      refine (Forall2_impl' _ (rel_number PMaterialize Hs HF)). intros x x' [E1 E2]. constructor; [cbn; auto|exact E2].
    + apply rel_create; assumption.
  - intros a a' _ _ Ha. destruct reopen; [exact Ha|]. clear - Ha Hs. revert a a' Ha. induction (seq 1 (cnt - 1)) as [|i l IH]; intros a a' Ha; [exact Ha|].
    cbn [forM]. apply (xrel_bind (R := rel)); [|intros s s' _ _; apply IH]. pose proof Ha as (Ro & _ & Rd). rewrite <- Ro. apply xrel_same. intros t _.
    apply rel_create; [exact Ha|exact Hs|apply Rd].
Qed.

Definition cols_ok (st : tstate) : Prop := forall k t, dget (ts_objs st) k = Some t -> NoDup (t_cols t).

Lemma rel_loop order : NoDup (map fst order) -> forall st st', rel st st' -> swf st -> swf st' -> cols_ok st ->
  (forall n c i, In (n, c) order -> ~ In (n, i) (dkeys (ts_objs st))) ->
  xrel (fun s s' => rel s s' /\ swf s /\ swf s' /\ cols_ok s) (forM mat1 order st) (forM mat1' order st').
Proof.
  induction order as [|[n c] order IH]; intros Hnd st st' Hr Hw Hw' Hc Hfr; [cbn; auto|]. cbn [map fst] in Hnd. apply NoDup_cons_iff in Hnd. destruct Hnd as [N1 N2].
  cbn [forM]. apply (xrel_bind (R := rel)); [exact (rel_mat1 n c Hr Hw Hw')|]. intros s s' E E' Hs.
  pose proof (mat1_spec Hw (fun i => Hfr n c i (or_introl eq_refl)) E) as S1.
  assert (Hfr' : forall i, ~ In (n, i) (dkeys (ts_objs st'))) by (intros i; rewrite <- (proj1 Hr); exact (Hfr n c i (or_introl eq_refl))).
  pose proof (mat1_spec Hw' Hfr' E') as S2.
  apply IH; [exact N2|exact Hs|exact (step_wf S1)|exact (step_wf S2)| |].
  - intros [n0 i0] t Ht. destruct (eq_dec n0 n) as [->|Hne].
    + destruct (step_all S1) as (m & q & b & c0 & cols & rows & M1 & M2 & M3 & M4 & _ & _ & M7). destruct (M7 _ _ Ht) as [-> _].
      assert (Hnm : named (render n) n).
      { split; [reflexivity|exact (Hdot M1)]. }
      destruct (Hreads (dget_In M2) Hnm) as (Q1 & stm & Q2 & Hro). unfold build_query in M3. rewrite Q1, Q2 in M3.
      rewrite <- (reads_selected Hro M1 M3 M4). destruct (Hcols M1) as [C1 C2]. destruct (dmem compact n); [constructor; assumption|exact C1].
    + rewrite (step_other S1 i0 Hne) in Ht. exact (Hc _ _ Ht).
  - intros n' c' i Hin Hk. assert (Hne : n' <> n) by (intros ->; apply N1; apply in_map_iff; exists (n, c'); auto).
    destruct (key_dget Hk) as (t & Ht). rewrite (step_other S1 i Hne) in Ht. exact (Hfr n' c' i (or_intror Hin) (dget_Some_key Ht)).
Qed.

Notation mats := (materialize_tables source cmpf textf rawf z rank reopen ms compact start ord queries).
Notation mats' := (materialize_tables source' cmpf textf rawf z rank reopen ms compact start ord queries).
Lemma rel_mats : xrel (fun s s' => rel s s' /\ swf s /\ swf s' /\ cols_ok s) mats mats'.
Proof.
  unfold materialize_tables. apply xrel_same. intros order Ho.
  assert (Hnd : NoDup (map fst order)).
  { pose proof (order_inside Hord Hq Ho) as Hin. unfold materialization_order in Ho. apply bind_Ok in Ho. destruct Ho as ([g maxs] & Hs & H).
    apply bind_Ok in H. destruct H as (o & Ho & H). inv H. destruct (scan_spec Hq Hs) as (es & HF & -> & _).
    pose proof (graph_inside Hq HF Hin) as Hg.
    destruct (toposort ord _) as [q|e] eqn:Et in Ho; [|destruct e; discriminate]. inv Ho.
    destruct (toposort_order ord Hord _ _ Hg Et) as (_ & HN & _). rewrite flat_map_maxs. apply NoDup_filter. exact HN. }
  apply rel_loop; [exact Hnd| | | | |].
  - split; [reflexivity|]. split; [reflexivity|]. intros n i. constructor.
  - intros n i t Ht; discriminate.
  - intros n i t Ht; discriminate.
  - intros k t Ht; discriminate.
  - intros n c i _ [].
Qed.

(** Where a column of the result comes from. *)
Definition col_ok (n : tname) (x : string * colsrc) : Prop :=
  match snd x with
  | FromRow c => c = fst x
  | FromId => True
  | FromRemote t src dst => exists d i, t_ref t = TTemp d i /\ ~ hidden n src /\ ~ hidden d dst
  end.
Lemma columns_ok st n m cols ccols : swf st -> dget ms n = Some m -> forall l counts xs,
  copy_columns reopen ms st cols ccols (remote_compact compact m) counts l = Ok xs -> map fst xs = l /\ Forall (col_ok n) xs.
Proof.
  intros Hw Hm. induction l as [|c l IH]; intros counts xs H; cbn [copy_columns] in H; [inv H; auto|].
  apply bind_Ok in H. destruct H as ([x counts1] & Hx & H). apply bind_Ok in H. destruct H as (xs1 & Hxs & H). inv H.
  destruct (IH _ _ Hxs) as [E F]. cbn [map fst]. split; [congruence|]. constructor; [|exact F]. unfold copy_column in Hx. unfold col_ok. cbn [fst snd].
  destruct (memb c ccols); [inv Hx; exact I|]. destruct (dget (remote_compact compact m) c) as [[d dc]|] eqn:Er.
  - apply bind_Ok in Hx. destruct Hx as ([t c1] & Ht & Hx). unfold lift_build in Ht.
    destruct (build_ctx reopen ms st (mkIdent (fst d) (snd d) true) counts) as [[t' c1']|] eqn:Ec; [|discriminate]. inv Ht.
    apply bind_Ok in Hx. destruct Hx as (u1 & _ & Hx). apply bind_Ok in Hx. destruct Hx as (u2 & _ & Hx). apply bind_Ok in Hx. destruct Hx as (u3 & _ & Hx). inv Hx.
    apply ctx_inv in Ec. destruct Ec as [(_ & i & Hi & _)|(Hs & _)]; [|discriminate]. unfold i_name in Hi. cbn [i_schema i_table] in Hi.
    assert (Ed : (fst d, snd d) = d) by (destruct d; reflexivity). rewrite Ed in Hi. destruct (Hw _ _ _ Hi) as (E1 & _). exists d, i. split; [exact E1|].
    apply remote_compact_In in Er. destruct Er as (fk & Hfk & Edst & Hin & _). destruct (Hfks Hm Hfk) as [S1 S2]. rewrite Edst in S2.
    split; [exact (S1 _ (in_combine_l _ _ _ _ Hin))|exact (S2 _ (in_combine_r _ _ _ _ Hin))].
  - apply bind_Ok in Hx. destruct Hx as (u & _ & Hx). inv Hx. reflexivity.
Qed.

Lemma rel_copy_row st st' n v r r' xs : rel st st' -> alike n r r' -> Forall (col_ok n) xs ->
  Forall2 (alike n) (copy_row source cmpf textf rawf st v r xs) (copy_row source' cmpf textf rawf st' v r' xs).
Proof.
  intros (Ro & Rl & Rd) Hr. induction 1 as [|[c x] xs Hx _ IH]; cbn [copy_row]; [constructor; [constructor|constructor]|].
  apply (Forall2_flat_map (P := fun a b => a = b \/ hidden n c)).
  - intros a b Hab. apply Forall2_map2. refine (Forall2_impl' _ IH). intros y y' Hy. constructor; [cbn; auto|exact Hy].
  - unfold col_ok in Hx. cbn [fst snd] in Hx. destruct x as [c'| |t src dst].
    + subst c'. constructor; [|constructor]. exact (alike_get c Hr).
    + constructor; [left; reflexivity|constructor].
    + destruct Hx as (d & i & Et & S1 & S2). unfold remote_values. rewrite Et. cbn [temp_db db_rows].
      assert (HF : Forall2 (alike d) (filter (fun r0 => is_true (cmp3 (cmp_env (tdb st)) CEq (rget r src) (rget r0 dst))) (dget_or (ts_data st) (d, i) []))
                     (filter (fun r0 => is_true (cmp3 (cmp_env (tdb' st')) CEq (rget r' src) (rget r0 dst))) (dget_or (ts_data st') (d, i) []))).
      { apply Forall2_filter; [|apply Rd]. intros a b Hab. rewrite (alike_seen Hr S1), (alike_seen Hab S2). reflexivity. }
      revert HF. generalize (filter (fun r0 => is_true (cmp3 (cmp_env (tdb st)) CEq (rget r src) (rget r0 dst))) (dget_or (ts_data st) (d, i) [])).
      generalize (filter (fun r0 => is_true (cmp3 (cmp_env (tdb' st')) CEq (rget r' src) (rget r0 dst))) (dget_or (ts_data st') (d, i) [])).
      intros l' l HF. assert (Hm : Forall2 (fun a b => a = b \/ hidden n c) (map (fun r0 => rget r0 id_column) l) (map (fun r0 => rget r0 id_column) l')).
      { apply Forall2_map2. refine (Forall2_impl' _ HF). intros a b Hab. left. exact (alike_seen Hab (@Hid d)). }
      destruct HF; [constructor; [left; reflexivity|constructor]|exact Hm].
Qed.

Lemma copy_columns_objs st st' cols ccols remote : ts_objs st = ts_objs st' -> forall l counts,
  copy_columns reopen ms st cols ccols remote counts l = copy_columns reopen ms st' cols ccols remote counts l.
Proof.
  intros E. induction l as [|c l IH]; intros counts; [reflexivity|]. cbn [copy_columns].
  assert (Ec : copy_column reopen ms st cols ccols remote counts c = copy_column reopen ms st' cols ccols remote counts c) by (unfold copy_column, build_ctx; rewrite E; reflexivity).
  rewrite Ec. destruct (copy_column reopen ms st' cols ccols remote counts c) as [[x k]|]; [|reflexivity]. cbn [bind]. rewrite IH. reflexivity.
Qed.
Lemma copy_statement_objs st st' n q : ts_objs st = ts_objs st' -> copy_statement reopen ms compact st n q = copy_statement reopen ms compact st' n q.
Proof.
  intros E. unfold copy_statement, build_ctx. rewrite E.
  destruct (match dget (ts_objs st') (n, 0) with Some t => _ | None => _ end) as [[b c]|]; [|reflexivity]. cbn [bind].
  destruct (dfind SxKeyError ms n) as [m|]; [|reflexivity]. cbn [bind]. destruct (_ && _); [reflexivity|]. destruct (selected_columns b) as [cols|]; [|reflexivity]. cbn [bind].
  destruct (need_cols _ _); [|reflexivity]. cbn [bind]. rewrite (copy_columns_objs _ _ _ E). reflexivity.
Qed.

(** What is copied for a table. *)
Definition crel (table : string) (o o' : option copied) : Prop :=
  match o, o' with
  | None, None => True
  | Some c, Some c' => In table (dkeys queries) /\ named table (co_name c) /\ co_name c' = co_name c /\ co_cols c' = co_cols c /\ NoDup (co_cols c) /\
      Forall2 (alike (co_name c)) (co_rows c) (co_rows c')
  | _, _ => False
  end.
Notation copy := (copy_table source cmpf textf rawf raw_cols z rank reopen ms compact start).
Notation copy' := (copy_table source' cmpf textf rawf raw_cols z rank reopen ms compact start).

Lemma rel_copy st st' table : rel st st' -> swf st -> swf st' -> cols_ok st -> xrel (crel table) (copy st queries table) (copy' st' queries table).
Proof.
  intros Hr Hw Hw' Hc. pose proof Hr as (Ro & Rl & Rd). unfold copy_table. apply xrel_same. intros n Hn. unfold parse in Hn. destruct (parse_table_name table) as [n0|] eqn:Ep; [|discriminate]. inv Hn.
  apply parse_named in Ep. destruct (dget queries table) as [q|] eqn:Eq; [|exact I]. rewrite <- (copy_statement_objs n q Ro). apply xrel_same. intros c Ec.
  cbn [xrel crel co_name co_cols co_rows]. split; [exact (dget_Some_key Eq)|]. split; [exact Ep|]. split; [reflexivity|]. split; [reflexivity|].
  unfold copy_statement in Ec. apply bind_Ok in Ec. destruct Ec as ([b cnt] & Eb & Ec). apply bind_Ok in Ec. destruct Ec as (m & Em & Ec). apply dfind_Ok in Em.
  destruct (Hreads (dget_In Eq) Ep) as (Q1 & stm & Q2 & Hro).
  assert (Hb : Forall2 (alike n) (eval_query (tdb st) (z PCopy n) b) (eval_query (tdb' st') (z PCopy n) b) /\ (forall cols, selected_columns b = Ok cols -> NoDup cols) /\
             (forall x y, b <> QRaw x y)).
  { destruct (dget (ts_objs st) (n, 0)) as [t|] eqn:Et.
    - inv Eb. rewrite !select_all. destruct (Hw _ _ _ Et) as (E1 & _). rewrite E1. cbn [temp_db db_rows]. split; [apply Rd|]. split; [|discriminate].
      intros cols E. cbn [selected_columns from_table] in E. inv E. exact (Hc _ _ Et).
    - destruct (build_query (build_ctx reopen ms st) q []) as [[b0 c0]|] eqn:Ebq; [|discriminate]. inv Eb.
      split; [exact (rel_eval PCopy Hr Hw Hw' (dget_In Eq) Ep (dget_Some_key Em) Ebq)|]. unfold build_query in Ebq. rewrite Q1, Q2 in Ebq. split.
      + intros cols E. rewrite <- (reads_selected Hro Em Ebq E). exact (proj1 (Hcols Em)).
      + destruct stm as [x|l].
        * cbn [build_stmt] in Ebq. destruct (build_sel_columns Ebq) as (t & s1 & f & gb & ws & lim & _ & -> & _). discriminate.
        * rewrite build_union in Ebq. apply bind_Ok in Ebq. destruct Ebq as ([qs s1] & _ & Ebq). inv Ebq. discriminate. }
  destruct Hb as (HF & HN & HR). destruct (is_nil (remote_compact compact m) && is_nil (dget_or compact n [])) eqn:Enil.
  - inv Ec. split; [|exact HF]. cbn [copy_keys]. destruct b as [cols f gb ws lim|l|x y]; [| |destruct (HR x y eq_refl)]; cbn [copy_keys].
    + destruct (selected_columns (QSelect cols f gb ws lim)) as [cs|]; [apply HN; reflexivity|constructor].
    + destruct (selected_columns (QUnion l)) as [cs|]; [apply HN; reflexivity|constructor].
  - apply bind_Ok in Ec. destruct Ec as (cols & Ecols & Ec). apply bind_Ok in Ec. destruct Ec as (u & _ & Ec). apply bind_Ok in Ec. destruct Ec as (xs & Exs & Ec). inv Ec.
    destruct (columns_ok Hw Em Exs) as [E1 E2]. cbn [copy_keys copy_rows]. split; [rewrite E1; exact (proj1 (Hcols Em))|].
    apply (Forall2_flat_map (P := fun x x' => fst x = fst x' /\ alike n (snd x) (snd x'))).
    + intros [v r] [v' r'] [Ev Ha]. cbn [fst snd] in *. subst v'. exact (rel_copy_row v Hr Ha E2).
    + destruct (memb id_column cols); [|exact (rel_number PCopy (pk_seen Em) HF)].
      apply Forall2_map2. refine (Forall2_impl' _ HF). intros r r' Ha. cbn [fst snd]. split; [exact (alike_seen Ha (@Hid n))|exact Ha].
Qed.
End Run.
