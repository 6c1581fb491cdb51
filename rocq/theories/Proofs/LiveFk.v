(** Foreign keys in runs on a changing source (C111, C112). *)
From Coq Require Import Lia.
From Verif Require Import Model.Base Model.Value Model.Names Model.PlanModel Model.SqlAlgebra Model.PlanBuild Model.Metadata Model.Planner Model.Filters Model.Multiply Model.Materialize Model.Dest Model.Output Model.Sampler Model.Live.
From Verif Require Import Spec.GraphSpec Spec.SchemaSpec Spec.SqlSem Spec.PlannerSpec Spec.FilterSpec Spec.OutputSpec Spec.SampleSpec Spec.RunSpec Spec.WholeSpec Spec.LiveSpec.
From Verif Require Import Proofs.BaseFacts Proofs.GraphFacts Proofs.NameFacts Proofs.MetadataFacts Proofs.PlannerGraph Proofs.PlannerTables Proofs.PlannerMain Proofs.PlannerFinal Proofs.PlannerWrap Proofs.PlanRun Proofs.WholeFk Proofs.LiveRun Proofs.LiveWhole.
From Verif Require Import Model.Dest.
Set Implicit Arguments. Unset Strict Implicit.
Open Scope list_scope.
Open Scope nat_scope.

(** ** An unchanging source *)
Section Constant.
Context {G : Type}.
Variable E : env G.
Variable rows : tname -> list row.
Variable raw : (tname -> list row) -> string -> option (dict string lit) -> list row.
Variable cfg : sampler_config.

Lemma forM_count {A S X} (f : S -> A -> res X S) l k s :
  forM (fun ks a => let '(k, s) := ks in let* s := f s a in Ok (Datatypes.S k, s)) l (k, s) = let* s' := forM f l s in Ok (k + length l, s').
Proof.
  revert k s. induction l as [|a l IH]; intros k s; cbn [forM length]; [cbn; f_equal; f_equal; lia|].
  destruct (f s a) as [s1|e]; cbn [bind]; [|reflexivity]. rewrite IH. replace (Datatypes.S k + length l) with (k + Datatypes.S (length l)) by lia. reflexivity.
Qed.
Lemma for_count {A S X} (f : S -> A -> io X S) l k s w :
  bind_io (for_io (fun ks a => let '(k, s) := ks in let+ s := f s a in ret (Datatypes.S k, s)) l (k, s)) (fun ks => ret (snd ks)) w = for_io f l s w.
Proof.
  revert k s w. induction l as [|a l IH]; intros k s w; cbn [for_io]; [reflexivity|].
  unfold bind_io in *. unfold ret in *. destruct (f s a w) as [w1 [s1|e]]; [|reflexivity]. apply IH.
Qed.
Lemma bind_same {X A B} (m : io X A) (k k' : A -> io X B) w : (forall a w1, k a w1 = k' a w1) -> bind_io m k w = bind_io m k' w.
Proof. intros H. unfold bind_io. destruct (m w) as [w1 [a|e]]; [apply H|reflexivity]. Qed.
Theorem live_constant p truncate create g w :
  sample_live E (fun _ => rows) raw cfg p truncate create g w = sample (reading_from E raw rows) cfg p truncate create g w.
Proof.
  rewrite (sample_rows_eq E raw cfg p rows truncate create g). unfold sample_live, sample_rows.
  set (M := materialize_live E (fun _ => rows) raw cfg) in *.
  assert (HM : forall ms compact, M ms compact (p_queries p) =
    let* order := materialization_order (en_ord_name E) ms compact (p_queries p) in
    let* st := materialize_tables rows (en_cmp E) (en_text E) (raw rows) (en_rnd E) (en_rank E) (en_reopen E) ms compact (cp_start (sc_compact cfg)) (en_ord_name E) (p_queries p) in
    Ok (length order, st)).
  { intros ms compact. unfold M, materialize_live, materialize_tables. destruct (materialization_order _ _ _ _) as [order|e]; [|reflexivity]. cbn [bind].
    exact (forM_count (materialize_one rows (en_cmp E) (en_text E) (raw rows) (en_rnd E) (en_rank E) (en_reopen E) ms compact (cp_start (sc_compact cfg)) (p_queries p)) order 0 no_temps). }
  clearbody M.
  do 9 (apply bind_same; intros).
  rewrite HM. unfold materialize_tables.
  destruct (materialization_order _ _ _ _) as [order|e]; [|reflexivity]. cbn [bind].
  destruct (forM _ _ _) as [st|e]; [|reflexivity]. cbn [bind of_samp]. unfold copy_live. apply for_count.
Qed.
End Constant.

(** ** The query of a referenced table reads the samples of the tables referring to it *)
Lemma join_ids fks js fk : Forall2 join_of fks js -> In fk fks -> exists id, In id (map j_right js) /\ i_sampled id = true /\ i_name id = fk_dst fk.
Proof.
  intros HF Hin. destruct (Forall2_In_l HF Hin) as (j & Hj & (Er & _ & _)). exists (j_right j). split; [apply in_map; exact Hj|].
  rewrite Er. split; [reflexivity|]. cbn. now destruct (fk_dst fk).
Qed.
Lemma join_select n js s f : js <> [] -> simp_sel (simp_wc (S f)) (Sel None (table_from n) (Some (WAnd [])) None (Some js) true) = Ok s ->
  s = Sel None (table_from n) None None (Some js) true.
Proof. intros Hne H. cbn in H. destruct js; [congruence|]. now inv H. Qed.
Lemma case_reads n t confs pa ch tgt st fk : table_case n t confs pa ch tgt st -> In fk ch ->
  (forall g, tgt = Some g -> tg_all g = false /\ tg_amount g <> None) ->
  exists id, In id (stmt_ids st) /\ i_sampled id = true /\ i_name id = fk_dst fk.
Proof.
  intros Hc Hin Htg. destruct Hc as [js ws st Hp Hch Hj Hw Hs|js st Hp Hch Hco Hj Hs|g js st Hp Hch Hco Ha Hj Hs|g st ws Hp Hch Hw Hs].
  - subst ch. destruct Hin.
  - destruct (join_ids Hj Hin) as (id & Hid & H1 & H2). assert (Hne : js <> []) by (intros ->; destruct Hid).
    unfold simplify_stmt in Hs. cbn [simp_stmt_with] in Hs. unfold simp_union in Hs. cbn [mapM] in Hs.
    match type of Hs with context [simp_sel (simp_wc (S ?d)) ?s] => destruct (simp_sel (simp_wc (S d)) s) as [s'|] eqn:Es; [|discriminate]; apply join_select in Es; [|exact Hne]; subst s' end.
    cbn in Hs. inv Hs. exists id. split; [|auto]. cbn [stmt_ids sel_ids]. right. apply in_app_iff. left. exact Hid.
  - destruct (join_ids Hj Hin) as (id & Hid & H1 & H2). assert (Hne : js <> []) by (intros ->; destruct Hid). destruct (Htg g eq_refl) as [_ Ham].
    unfold simplify_stmt in Hs. cbn [simp_stmt_with] in Hs. unfold simp_union in Hs. cbn [mapM] in Hs.
    match type of Hs with context [simp_sel (simp_wc (S ?d)) (Sel None (table_from n) (Some (WAnd [])) None (Some js) true)] => set (f := d) in * end.
    destruct (simp_sel (simp_wc (S f)) (Sel None (table_from n) (Some (WAnd [])) None (Some js) true)) as [s'|] eqn:Es; [|discriminate]. apply join_select in Es; [|exact Hne]. subst s'.
    cbn [bind] in Hs. destruct (simp_sel (simp_wc (S f)) (own_select n g)) as [so|] eqn:Eo; [|discriminate]. cbn [bind] in Hs.
    assert (Hlim : s_limit so = tg_amount g). { unfold own_select in Eo. cbn [simp_sel] in Eo. apply bind_Ok in Eo. destruct Eo as (w' & _ & Eo). now inv Eo. }
    exists id. split; [|auto]. cbn [filter where_is_false s_where negb] in Hs. destruct (negb (where_is_false so)).
    + cbn [forallb] in Hs. assert (Hm : mergeable (Sel None (table_from n) None None (Some js) true) so = false).
      { unfold mergeable. rewrite Hlim. destruct (tg_amount g); [|congruence]. cbn [is_some negb]. apply andb_false_r. }
      rewrite Hm in Hs. rewrite andb_false_r in Hs. inv Hs. cbn [stmt_ids map concat sel_ids]. right. apply in_app_iff. left. apply in_app_iff. left. exact Hid.
    + inv Hs. cbn [stmt_ids sel_ids]. right. apply in_app_iff. left. exact Hid.
  - destruct Hch as [->|Ha]; [destruct Hin|]. destruct (Htg g eq_refl). congruence.
Qed.

Section Planned.
Variables (fnm : string -> string -> bool) (cfg : config) (db : list table).
Variables (ord : list string -> list string) (ordp : list tname -> list tname).
Hypothesis Hdb : db_ok db.
Hypothesis Hord : any_order ord.
Hypothesis Hordp : any_order ordp.
Hypothesis Hcfg : config_ok cfg.
Hypothesis Hxv : extras_valid cfg.
Hypothesis Htf : targets_fit cfg db.
Variable p : plan.
Hypothesis Hplan : plan_db ord ordp fnm cfg db = Ok p.
Hypothesis Hself : forall s, In s (dkeys (p_queries p)) -> fnm s s = true.

Theorem planned_queries : queries_ok (p_queries p) /\ plan_wf (p_queries p) /\ own_table_only (p_queries p).
Proof.
  destruct (plan_ok_shape Hdb Hord Hordp Hplan) as (passl & ns & _ & Hshape & Hgood & _).
  destruct (sampler_meta_spec fnm (p_queries p) InferNone Hdb) as (ms & E & A & B & C).
  assert (Hmsp : forall n, planned p n -> In n (dkeys ms)) by (intros n Hp; apply C; exact (planned_matching Hdb Hord Hordp Hplan Hself Hp)).
  assert (Hqs := @planned_good fnm cfg db Hdb Hcfg Hxv Htf p ms B Hmsp passl ns Hshape Hgood).
  assert (Hnm : forall s, In s (dkeys (p_queries p)) -> exists n, named s n).
  { intros s Hs. apply (keys_In Hdb Hshape Hgood) in Hs. destruct Hs as (n & Hn & _). exists n. exact Hn. }
  split; [split; [exact (keys_NoDup Hdb Hshape Hgood)|exact Hnm]|]. split.
  - intros s q st Hin Hst. destruct (Hnm s) as (n & Hn); [apply in_map_iff; exists (s, q); auto|].
    destruct (Hqs s q n Hin Hn) as (st' & t & -> & Ht & Hp & _ & Hg). cbn in Hst. inv Hst.
    exact (proj1 (good_stmt_props (cols_of Hdb B Hmsp Hp Ht false) Hg)).
  - intros s q n Hin Hn. destruct (Hqs s q n Hin Hn) as (st' & t & -> & Ht & Hp & _ & Hg). split; [reflexivity|].
    intros id Hi Hs. cbn [query_ids q_sql q_stmt] in Hi. destruct (proj1 (proj2 (proj2 (good_stmt_props (cols_of Hdb B Hmsp Hp Ht false) Hg))) id Hi) as [->|[F _]]; [|congruence].
    cbn. now destruct n.
Qed.

(** The table a foreign key refers to is planned before, or its query reads the sample of the referring table. *)
Theorem parent_or_reads n fk : considered fnm cfg db n fk -> planned p n -> planned p (fk_dst fk) -> ~ passed_through fnm cfg db (fk_dst fk) ->
  (forall g, is_target cfg (fk_dst fk) g -> tg_all g = false /\ tg_amount g <> None) ->
  earlier_parent fnm cfg db p n fk \/ reads_sample (p_queries p) (fk_dst fk) n.
Proof.
  intros Hc Hn Hd Hnp Htg. destruct (plan_ok_shape Hdb Hord Hordp Hplan) as (passl & ns & _ & Hshape & Hgood & _ & _ & _ & Hop & _).
  apply (planned_iff Hdb Hshape Hgood) in Hd. destruct Hd as [Hd|Hd]; [contradiction|]. apply (ns_iff Hgood) in Hd. pose proof (ns_active Hgood Hd) as Hda.
  apply (planned_iff Hdb Hshape Hgood) in Hn. destruct Hn as [Hn|Hn].
  { exfalso. apply Hop. exists n, fk. split; [exact Hn|]. split; [exact Hc|]. apply Hda. }
  apply (ns_iff Hgood) in Hn. assert (Hne : fk_dst fk <> n) by (apply (no_self Hgood Hn Hc)).
  destruct (before_total Hd Hn Hne) as [Hb|Hb]; [left; apply (parent_iff Hdb Hshape Hgood); split; assumption|right].
  assert (Hpc : pos_child fnm cfg db ns (fk_dst fk) n fk) by (split; [exact Hc|split; [reflexivity|exact Hb]]).
  destruct Hshape as (_ & _ & _ & _ & _ & Htq). destruct (Htq _ Hd) as (st & Hst & (t & pa & ch & _ & Hpa & Hch & Htc)).
  assert (Hin : In (mirror n fk) ch) by (apply Hch; exists n, fk; auto).
  assert (Hdot : no_dot (fst (fk_dst fk))) by (eapply chosen_no_dot; [exact Hdb|apply Hda]).
  destruct (@case_reads _ _ _ _ _ _ _ _ Htc Hin) as (id & I1 & I2 & I3).
  { intros g Hg. apply Htg. apply (is_target_iff g (proj1 Hcfg) Hdot). exact Hg. }
  exists (render (fk_dst fk)), (mkQuery None None (Some st)), id. split; [exact Hst|]. split; [apply named_render; exact Hdot|]. auto.
Qed.
End Planned.

Section Run.
Context {G : Type}.
Variable E : env G.
Variable h : nat -> tname -> list row.
Variable raw : (tname -> list row) -> string -> option (dict string lit) -> list row.
Variables (cfg : sampler_config) (p : plan) (pcfg : config).
Notation db := (en_source_schema E).

Lemma source_unique_keys rows : source_ok id_column db rows -> unique_keys db rows.
Proof. intros H t Ht Hpk. exact (proj2 (proj2 (H t Ht)) Hpk). Qed.

(** Runs of the planner's plans. *)
Theorem live_planned truncate create g w : any_order (en_ord_name E) -> (forall k, planned_by (reading_from E raw (h k)) p pcfg) -> writable E cfg p (w_dest w) ->
  exists moment, (forall w' g', sample_live E h raw cfg p truncate create g w = (w', Ok g') -> one_by_one (p_queries p) moment /\ (no_compaction (sc_compact cfg) -> others_later (p_queries p) moment)) /\
    sample_live E h raw cfg p truncate create g w = sample (reading_from E raw (at_moments h moment)) cfg p truncate create g w.
Proof.
  intros Hon Hpl Hw. destruct (Hpl 0) as (B1 & B2 & B3 & B4 & (ord & ordp & B5 & B6 & B7) & _ & B9).
  destruct (planned_queries B3 B5 B6 B1 B2 B4 B7 B9) as (Q1 & Q2 & Q3).
  exact (live_moments raw truncate create g Hon B3 (fun k => source_unique_keys (proj1 (proj2 (proj2 (proj2 (proj2 (proj2 (Hpl k)))))))) Q1 Q2 Q3 Hw).
Qed.

Lemma mixed_source moment : (forall k, planned_by (reading_from E raw (h k)) p pcfg) -> planned_by (reading_from E raw (at_moments h moment)) p pcfg.
Proof.
  intros Hpl. destruct (Hpl 0) as (B1 & B2 & B3 & B4 & B5 & _ & B9). split; [exact B1|]. split; [exact B2|]. split; [exact B3|]. split; [exact B4|]. split; [exact B5|]. split; [|exact B9].
  intros t Ht. exact (proj1 (proj2 (proj2 (proj2 (proj2 (proj2 (Hpl (moment (tb_name t)))))))) t Ht).
Qed.

Variables (c : db_config) (w : world).
(** C112 *)
Theorem live_consistent truncate create g w' g' : live_setup E h raw cfg c p pcfg w ->
  sample_live E h raw cfg p truncate create g w = (w', Ok g') ->
  forall n fk n' nd', considered (en_fnm E) pcfg db n fk -> copied_pair E cfg c p w w' truncate n fk n' nd' ->
    earlier_parent (en_fnm E) pcfg db p n fk \/ lasting (en_cmp E) h n fk /\ sampled_for_references (en_fnm E) pcfg db (fk_dst fk) ->
    fk_holds (en_cmp E) fk (rows_of (w_dest w') n') (rows_of (w_dest w') nd').
Proof.
  intros ((A1 & A2 & A3) & Hpl & Hnc & Hout & Hw & Hnil & Hplain & Hsym & Hsc & Hall) Hs n fk n' nd' Hc (t & td & Ht & Htd & Hn & Hnd & G1 & G2 & T1 & T2 & S1 & S2 & U1 & U2) Hor.
  destruct (live_planned truncate create g A1 Hpl Hw) as (moment & Hm & Heq). destruct (Hm w' g' Hs) as [Hm1 _]. clear Hm. rename Hm1 into Hm. rewrite Hs in Heq. symmetry in Heq.
  set (E' := reading_from E raw (at_moments h moment)) in *. pose proof (mixed_source moment Hpl) as Hpl'. fold E' in Hpl'.
  assert (He' : env_ok E') by (split; [exact A1|split; [exact A2|exact A3]]).
  assert (Hrun : run_ok E' cfg c p (w_dest w)).
  { unfold writable in Hw. rewrite Hout in Hw. destruct Hw as (W1 & W2 & W3). constructor; [exact Hout|apply Hpl'|exact W1|exact W2|exact W3|exact (planned_distinct He' Hpl' Hnc)]. }
  refine (@consistent1 G E' cfg c p w pcfg truncate create g w' g' He' Hpl' Hnc Hrun Hnil Hplain Heq Hsym Hall t td fk n n' nd' Ht Htd Hn Hnd Hc _ G1 G2 T1 T2 S1 S2 U1 U2).
  destruct Hor as [Hep|(Hl & Hnp & Htg)]; [left; exact Hep|].
  destruct (Hpl 0) as (B1 & B2 & B3 & B4 & (ord & ordp & B5 & B6 & B7) & _ & B9).
  assert (Pn : planned p n) by (exists t; auto). assert (Pd : planned p (fk_dst fk)) by (exists td; auto).
  destruct (parent_or_reads B3 B5 B6 B1 B7 Hc Pn Pd Hnp Htg) as [Hep|Hr]; [left; exact Hep|right].
  pose proof (proj2 Hm _ _ Hr) as Hlt. intros r Hin Hnn. cbn [E' reading_from en_source] in Hin |- *. unfold at_moments in *.
  apply (Hl (moment n) (moment (fk_dst fk)) r); [lia|exact Hin|]. exact (Hsc (moment n) n fk Hc r Hin Hnn).
Qed.
End Run.
