(** The planner's plans can be carried out by the sampler, and what is written satisfies the foreign keys (C77, C81). *)
From Coq Require Import Lia Relations.
From Verif Require Import Model.Base Model.Solver Model.Value Model.Names Model.PlanModel Spec.SqlSem Model.SqlAlgebra Model.PlanBuild
  Model.Metadata Model.Planner Model.Materialize Model.Sampler Spec.GraphSpec Spec.SchemaSpec Spec.PlannerSpec Spec.SampleSpec
  Proofs.BaseFacts Proofs.NameFacts Proofs.GraphFacts Proofs.SimplifyFacts Proofs.MetadataFacts Proofs.PlannerGraph Proofs.PlannerTables Proofs.PlannerMain Proofs.PlannerFinal Proofs.PlannerWrap
  Proofs.MaterializeRun Proofs.CompactColumns Proofs.SampleTotal Proofs.SampleFinal.
Set Implicit Arguments.
Unset Strict Implicit.

#[local] Arguments rn_meta {id reopen ms source compact queries} _.
#[local] Arguments rn_keys {id reopen ms source compact queries} _.
#[local] Arguments rn_names {id reopen ms source compact queries} _.
#[local] Arguments rn_reads {id reopen ms source compact queries} _ [s q n] _ _.

(** * Statements without sub-statements, and simplification *)
Fixpoint flat (t : list string) (c : wc) : Prop :=
  match c with
  | WOp _ c _ => In c t
  | WInVals cs _ _ => incl cs t
  | WInStmt _ _ _ => False
  | WAnd l | WOr l => fold_right and True (map (flat t) l)
  | _ => True
  end.
Lemma flat_and t l : flat t (WAnd l) <-> Forall (flat t) l.
Proof. apply fold_and_map. Qed.
Lemma flat_or t l : flat t (WOr l) <-> Forall (flat t) l.
Proof. apply fold_and_map. Qed.
Lemma flat_props cols t : forall c, flat t c -> wc_wf c /\ wc_fits cols t c /\ wc_ids c = [].
Proof.
  assert (Hl : forall l, Forall (fun c => flat t c -> wc_wf c /\ wc_fits cols t c /\ wc_ids c = []) l -> Forall (flat t) l ->
            fold_right and True (map wc_wf l) /\ fold_right and True (map (wc_fits cols t) l) /\ concat (map wc_ids l) = []).
  { induction l as [|c l IH]; intros H1 H2; [cbn; auto|]. apply Forall_cons_iff in H1, H2. destruct H1 as [H1 H1'], H2 as [H2 H2'].
    destruct (H1 H2) as (A & B & C). destruct (IH H1' H2') as (A' & B' & C'). cbn [map fold_right concat]. rewrite C, C'. auto. }
  induction c as [c Hleaf|l IHl|l IHl] using wc_ind'; intros H.
  - destruct c; try contradiction; cbn in *; auto; destruct Hleaf.
  - apply flat_and in H. exact (Hl l IHl H).
  - apply flat_or in H. exact (Hl l IHl H).
Qed.
Lemma simp_flat t f : forall c c', simp_wc (S f) c = Ok c' -> flat t c -> flat t c'.
Proof.
  assert (Hl : forall l l', Forall (fun c => forall c', simp_wc (S f) c = Ok c' -> flat t c -> flat t c') l ->
            mapM (simp_wc (S f)) l = Ok l' -> Forall (flat t) l -> Forall (flat t) l').
  { intros l l' HP Hm. apply mapM_Ok in Hm. induction Hm as [|c c' l l' H1 Hm IH]; intros Hs; [constructor|].
    apply Forall_cons_iff in HP, Hs. destruct HP as [HP HP'], Hs as [Hs Hs']. constructor; [exact (HP _ H1 Hs)|exact (IH HP' Hs')]. }
  induction c as [c Hleaf|l IHl|l IHl] using wc_ind'; intros c' H Hf.
  - destruct c; try contradiction; cbn [simp_wc] in H; inv H; try exact Hf.
    unfold random_simplified. destruct (Qle_bool _ _); [exact I|]. destruct (Qle_bool _ _); exact I.
  - rewrite simp_wc_and in H. apply bind_Ok in H. destruct H as (l' & Hm & H). inv H.
    apply (and_simplified_closed (flat_and t) I I). exact (Hl l l' IHl Hm (proj1 (flat_and t l) Hf)).
  - rewrite simp_wc_or in H. apply bind_Ok in H. destruct H as (l' & Hm & H). inv H.
    apply (or_simplified_closed (flat_or t) I I). exact (Hl l l' IHl Hm (proj1 (flat_or t l) Hf)).
Qed.

Section Good.
Variables (cols : ident -> option (list string)) (from : ident) (t : list string) (A : ident -> Prop).
Hypothesis Hcols : cols from = Some t.
Definition good_join (j : join) : Prop := join_wf j /\ join_fits cols t j /\ A (j_right j).
Definition good_sel (s : sel) : Prop :=
  s_columns s = None /\ s_from s = from /\ (forall js, s_joins s = Some js -> Forall good_join js) /\ (forall w, s_where s = Some w -> flat t w).
Definition good_stmt (st : stmt) : Prop :=
  match st with SSelect s => good_sel s | SUnion l => l <> [] /\ Forall good_sel l end.

Lemma simp_sel_good f s s' : simp_sel (simp_wc (S f)) s = Ok s' -> good_sel s -> good_sel s'.
Proof.
  destruct s as [cs fr [w|] lim js o]; cbn [simp_sel]; intros H (H1 & H2 & H3 & H4); cbn [s_columns s_from s_joins s_where] in *.
  - apply bind_Ok in H. destruct H as (w' & Hw & H). pose proof (simp_flat Hw (H4 w eq_refl)) as Hf.
    assert (Hwh : forall w0, (if is_WTrue w' then None else Some w') = Some w0 -> flat t w0).
    { intros w0 E. destruct (is_WTrue w'); inv E. exact Hf. }
    destruct js as [[|j js]|]; inv H; split; cbn [s_columns s_from s_joins s_where]; auto; split; auto; split; auto; try (intros ? E; discriminate E).
  - inv H. unfold good_sel. cbn [s_columns s_from s_joins s_where]. auto.
Qed.
Lemma simplify_good l st : l <> [] -> Forall good_sel l -> simplify_stmt (SUnion l) = Ok st -> good_stmt st.
Proof.
  intros Hne Hl H. unfold simplify_stmt in H. cbn [simp_stmt_with] in H. unfold simp_union in H. remember (stmt_depth (SUnion l)) as d eqn:Ed. clear Ed.
  apply bind_Ok in H. destruct H as (sm & Hm & H). apply mapM_Ok in Hm.
  assert (Hs : Forall good_sel sm).
  { clear - Hm Hl. revert Hl. induction Hm; intros Hl; [constructor|]. apply Forall_cons_iff in Hl. destruct Hl. constructor; [eapply simp_sel_good; eassumption|auto]. }
  assert (Hk : Forall good_sel (filter (fun s => negb (where_is_false s)) sm)).
  { apply Forall_forall. intros s Hx. apply filter_In in Hx. exact (proj1 (Forall_forall _ _) Hs s (proj1 Hx)). }
  destruct (filter _ sm) as [|s0 [|s1 rest]].
  - destruct l as [|s l]; [congruence|]. apply bind_Ok in H. destruct H as (s' & Hs' & H). inv H. apply Forall_cons_iff in Hl. cbn. eapply simp_sel_good; [exact Hs'|apply Hl].
  - inv H. apply Forall_cons_iff in Hk. apply Hk.
  - destruct (forallb _ _).
    + apply bind_Ok in H. destruct H as (s' & Hs' & H). inv H. cbn [good_stmt]. eapply simp_sel_good; [exact Hs'|].
      assert (Hs0 : good_sel s0) by (apply Forall_cons_iff in Hk; apply Hk). destruct Hs0 as (E1 & E2 & _).
      split; [exact E1|]. split; [exact E2|]. cbn [s_joins s_where]. split; [intros js E; discriminate|]. intros w E. inv E.
      apply flat_or. apply Forall_forall. intros c Hc. change (In c (map where_or_true (s0 :: s1 :: rest))) in Hc. apply in_map_iff in Hc. destruct Hc as (s & <- & Hin).
      pose proof (proj1 (Forall_forall _ _) Hk s Hin) as (_ & _ & _ & Hw). unfold where_or_true. destruct (s_where s) as [w|]; [apply Hw; reflexivity|exact I].
    + inv H. cbn [good_stmt]. split; [discriminate|exact Hk].
Qed.

Lemma good_sel_props s : good_sel s -> sel_wf s /\ sel_fits cols s /\ forall id, In id (sel_ids s) -> id = from \/ A id.
Proof.
  destruct s as [cs fr w lim js o]. intros (H1 & H2 & H3 & H4). cbn [s_columns s_from s_joins s_where] in *. subst cs fr.
  assert (Hj : match js with Some l => Forall good_join l | None => True end) by (destruct js; auto).
  assert (Hw : match w with Some w => wc_wf w /\ wc_fits cols t w /\ wc_ids w = [] | None => True end).
  { destruct w as [w|]; [|exact I]. apply flat_props. auto. }
  split; [|split].
  - assert (Hjw : joins_wf js). { destruct js as [l|]; [|exact I]. cbn. eapply Forall_impl; [|exact Hj]. intros j Hx. apply Hx. }
    destruct w as [w|]; cbn [sel_wf]; [split; [exact Hjw|apply Hw]|exact Hjw].
  - cbn [sel_fits]. exists t. split; [exact Hcols|]. split; [exact I|]. split.
    + destruct js as [l|]; [|exact I]. eapply Forall_impl; [|exact Hj]. intros j Hx. apply Hx.
    + destruct w as [w|]; [apply Hw|exact I].
  - intros id. cbn [sel_ids In]. intros [<-|Hin]; [left; reflexivity|right]. apply in_app_iff in Hin. destruct Hin as [Hin|Hin].
    + destruct js as [l|]; [|destruct Hin]. cbn [joins_ids] in Hin. apply in_map_iff in Hin. destruct Hin as (j & <- & Hj').
      exact (proj2 (proj2 (proj1 (Forall_forall _ _) Hj j Hj'))).
    + destruct w as [w|]; [|destruct Hin]. destruct Hw as (_ & _ & E). rewrite E in Hin. destruct Hin.
Qed.
Lemma good_stmt_props st : good_stmt st -> stmt_wf st /\ stmt_fits cols st /\ (forall id, In id (stmt_ids st) -> id = from \/ A id) /\ st <> SUnion [].
Proof.
  destruct st as [s|l]; cbn [good_stmt].
  - intros H. destruct (good_sel_props H) as (H1 & H2 & H3). split; [exact H1|]. split; [exact H2|]. split; [exact H3|discriminate].
  - intros [Hne H]. split; [|split; [|split]].
    + cbn [stmt_wf]. apply fold_and_map. eapply Forall_impl; [|exact H]. intros s Hs. apply (good_sel_props Hs).
    + cbn [stmt_fits]. apply fold_and_map. eapply Forall_impl; [|exact H]. intros s Hs. apply (good_sel_props Hs).
    + intros id. cbn [stmt_ids]. rewrite in_concat. intros (ids & Hi & Hid). apply in_map_iff in Hi. destruct Hi as (s & <- & Hs).
      exact (proj2 (proj2 (good_sel_props (proj1 (Forall_forall _ _) H s Hs))) id Hid).
    + intros E. inv E. congruence.
Qed.
End Good.

(** * The plans *)
Section Runnable.
Variables (fnm : string -> string -> bool) (cfg : config) (db : list table).
Variable ord : list string -> list string.
Variable ordp : list tname -> list tname.
Hypothesis Hdb : db_ok db.
Hypothesis Hord : any_order ord.
Hypothesis Hordp : any_order ordp.
Hypothesis Hcfg : config_ok cfg.
Hypothesis Hxv : extras_valid cfg.
Hypothesis Htf : targets_fit cfg db.
Variable p : plan.
Hypothesis Hplan : plan_db ord ordp fnm cfg db = Ok p.
Variable ms : meta.
Hypothesis Hms : meta_ok ms.
Hypothesis Hmst : forall n m, In (n, m) ms -> table_of db n (tm_table m).
Hypothesis Hmsp : forall n, planned p n -> In n (dkeys ms).

Lemma table_fun n t t' : table_of db n t -> table_of db n t' -> t = t'.
Proof. intros [H1 E1] [H2 E2]. destruct Hdb as [Hnd _]. eapply (NoDup_map_eq Hnd); [exact H1|exact H2|congruence]. Qed.
Lemma cols_of n t : planned p n -> table_of db n t -> forall b, source_cols ms (mkIdent (fst n) (snd n) b) = Some (tb_cols t).
Proof.
  intros Hp Ht b. unfold source_cols, i_name. cbn [i_schema i_table]. rewrite <- surjective_pairing.
  destruct (key_dget (Hmsp Hp)) as (m & Hm). rewrite Hm. f_equal. f_equal. exact (table_fun (Hmst (dget_In Hm)) Ht).
Qed.
Lemma considered_fits n fk : considered fnm cfg db n fk ->
  exists t d, table_of db n t /\ table_of db (fk_dst fk) d /\ incl (fk_cols fk) (tb_cols t) /\ incl (fk_dst_cols fk) (tb_cols d).
Proof.
  intros (_ & [[[(t & Ht & Hfk)|(_ & c & d & t & -> & Hne & Ht & Hc & (td & _ & Htd & Hpk & _) & _)] _]|(x & _ & Hn & Hd & Hc & Hdc & _ & (t & Ht & Hi) & (td & Htd & Hi'))]).
  - destruct Hdb as [_ Hall]. destruct (Hall t (proj1 Ht)) as (_ & _ & _ & Hw). destruct (Hw fk Hfk) as (_ & _ & Hi & d & Hd & Hi'). exists t, d. auto.
  - exists t, td. split; [exact Ht|]. split; [exact Htd|]. cbn [fk_cols fk_dst_cols]. split; [intros x [<-|[]]; exact Hc|].
    destruct Hdb as [_ Hall]. destruct (Hall td (proj1 Htd)) as (_ & _ & Hi & _). rewrite <- Hpk. exact Hi.
  - exists t, td. rewrite Hc, Hdc. auto.
Qed.

Section Shape.
Variables (passl ns : list tname).
Hypothesis Hshape : plan_shape fnm cfg db p passl ns.
Hypothesis Hgood : good_order fnm cfg db ns.
Let allowed n (id : ident) : Prop := i_sampled id = true /\ before ns (i_name id) n.

Lemma ns_planned n : In n ns -> planned p n.
Proof. intros H. apply (planned_iff Hdb Hshape Hgood). right. apply (ns_iff Hgood). exact H. Qed.
Lemma parent_join n fk j t : In n ns -> table_of db n t -> pos_parent fnm cfg db ns n fk -> join_of fk j -> good_join (source_cols ms) (tb_cols t) (allowed n) j.
Proof.
  intros Hn Ht (Hc & Hb) (E1 & E2 & E3). destruct (considered_len Hdb Hxv Hc) as [L1 L2]. destruct (considered_fits Hc) as (t' & d & Ht' & Hd & I1 & I2).
  rewrite (table_fun Ht' Ht) in I1. split; [|split].
  - unfold join_wf. rewrite E2, E3. auto.
  - unfold join_fits. rewrite E1, E2, E3. split; [exact I1|]. exists (tb_cols d). split; [|exact I2].
    apply cols_of; [apply ns_planned; exact (before_In_l Hb)|exact Hd].
  - unfold allowed, i_name. rewrite E1. cbn. rewrite <- surjective_pairing. auto.
Qed.
Lemma child_join n c fk j t : In n ns -> table_of db n t -> pos_child fnm cfg db ns n c fk -> join_of (mirror c fk) j -> good_join (source_cols ms) (tb_cols t) (allowed n) j.
Proof.
  intros Hn Ht (Hc & Hfk & Hb) (E1 & E2 & E3). cbn [mirror fk_cols fk_dst fk_dst_cols] in *.
  destruct (considered_len Hdb Hxv Hc) as [L1 L2]. destruct (considered_fits Hc) as (t' & d & Ht' & Hd & I1 & I2).
  rewrite Hfk in Hd. rewrite (table_fun Hd Ht) in I2. split; [|split].
  - unfold join_wf. rewrite E2, E3. split; [|symmetry; exact L2]. intros E. rewrite E in L2. destruct (fk_cols fk); [auto|discriminate].
  - unfold join_fits. rewrite E1, E2, E3. split; [exact I2|]. exists (tb_cols t'). split; [|exact I1].
    apply cols_of; [apply ns_planned; exact (before_In_l Hb)|exact Ht'].
  - unfold allowed, i_name. rewrite E1. cbn. rewrite <- surjective_pairing. auto.
Qed.
Lemma target_flat n g t : is_target cfg n g -> table_of db n t -> Forall (flat (tb_cols t)) (target_where g).
Proof.
  intros Hg Ht. unfold target_where. destruct (tg_all g); [constructor|]. rewrite !Forall_app. split; [|split; [|split]].
  - destruct (tg_percent g); repeat constructor.
  - destruct (tg_sql g); repeat constructor.
  - apply Forall_forall. intros w Hw. apply in_flat_map in Hw. destruct Hw as ([c ps] & Hc & Hw). apply in_map_iff in Hw. destruct Hw as (x & <- & _).
    cbn. eapply Htf; [exact Hg|exact Ht|]. left. exists ps. exact Hc.
  - apply Forall_forall. intros w Hw. apply in_map_iff in Hw. destruct Hw as ([c vs] & <- & Hc). cbn. intros x [<-|[]].
    eapply Htf; [exact Hg|exact Ht|]. right. exists vs. exact Hc.
Qed.
Lemma own_good n g t : is_target cfg n g -> table_of db n t -> good_sel (source_cols ms) (table_from n) (tb_cols t) (allowed n) (own_select n g).
Proof.
  intros Hg Ht. split; [reflexivity|]. split; [reflexivity|]. cbn [own_select s_joins s_where]. split; [intros js E; discriminate|].
  intros w E. inv E. apply flat_and. exact (target_flat Hg Ht).
Qed.
Lemma table_good n st : In n ns -> table_spec fnm cfg db ns n st ->
  exists t, table_of db n t /\ good_stmt (source_cols ms) (table_from n) (tb_cols t) (allowed n) st.
Proof.
  intros Hn (t & pa & ch & Ht & Hpa & Hch & Hcase). exists t. split; [exact Ht|].
  assert (Hpj : forall js, Forall2 join_of pa js -> Forall (good_join (source_cols ms) (tb_cols t) (allowed n)) js).
  { intros js H. apply Forall_forall. intros j Hj. destruct (Forall2_In_r H Hj) as (fk & Hfk & Hjo). exact (parent_join Hn Ht (proj1 (Hpa fk) Hfk) Hjo). }
  assert (Hcj : forall js, Forall2 join_of ch js -> Forall (good_join (source_cols ms) (tb_cols t) (allowed n)) js).
  { intros js H. apply Forall_forall. intros j Hj. destruct (Forall2_In_r H Hj) as (rk & Hrk & Hjo). destruct (proj1 (Hch rk) Hrk) as (c & fk & Hc & ->).
    exact (child_join Hn Ht Hc Hjo). }
  assert (Hcw : forall ws, Forall2 (conf_cond t) (confs_of cfg n) ws -> Forall (flat (tb_cols t)) ws).
  { intros ws H. apply Forall_forall. intros w Hw. destruct (Forall2_In_r H Hw) as (c & _ & Hc & v & _ & ->). exact Hc. }
  assert (Htg : forall g, tgt_of cfg n = Some g -> is_target cfg n g).
  { intros g Hg. apply (@is_target_iff cfg n g (proj1 Hcfg)); [|exact Hg]. eapply chosen_no_dot; [exact Hdb|]. apply (ns_active Hgood) in Hn. apply Hn. }
  assert (Hnone : forall js, Forall (good_join (source_cols ms) (tb_cols t) (allowed n)) js -> forall ws o, Forall (flat (tb_cols t)) ws ->
            good_sel (source_cols ms) (table_from n) (tb_cols t) (allowed n) (Sel None (table_from n) (Some (WAnd ws)) None (Some js) o)).
  { intros js Hj ws o Hw. split; [reflexivity|]. split; [reflexivity|]. cbn [s_joins s_where]. split; [intros js' E; inv E; exact Hj|intros w E; inv E; apply flat_and; exact Hw]. }
  remember (tgt_of cfg n) as tg eqn:Etg.
  destruct Hcase as [js ws st _ _ Hj Hw E|js st _ _ _ Hj E|g js st _ _ _ _ Hj E|g st ws _ _ Hw E];
    (eapply simplify_good; [| |exact E]; [discriminate|]); repeat constructor; try (apply Hnone; auto; constructor); try (eapply own_good; [apply Htg; reflexivity|exact Ht]).
Qed.
End Shape.

(** The statements of a plan: one table of the source, joined with earlier samples. *)
Lemma planned_good passl ns : plan_shape fnm cfg db p passl ns -> good_order fnm cfg db ns ->
  forall s q n, In (s, q) (p_queries p) -> named s n ->
    exists st t, q = mkQuery None None (Some st) /\ table_of db n t /\ planned p n /\ reads_only n st /\
      good_stmt (source_cols ms) (table_from n) (tb_cols t) (fun id => i_sampled id = true /\ before ns (i_name id) n) st.
Proof.
  intros Hshape Hgood s q n Hin Hn.
  assert (Hp : planned p n). { exists s. split; [exact Hn|]. apply in_map_iff. exists (s, q). auto. }
  destruct (query_reads Hdb Hshape Hgood Hin Hn) as (st0 & Hst0 & Hr).
  destruct (query_of Hdb Hshape Hgood Hin Hn) as [[Hi Eq]|(Hi & st & Eq & Hsp)]; rewrite Eq in Hst0; inv Hst0.
  - destruct (key_dget (Hmsp Hp)) as (m & Hm). eexists _, (tm_table m). split; [reflexivity|]. split; [exact (Hmst (dget_In Hm))|]. split; [exact Hp|].
    split; [exact Hr|]. cbn [good_stmt]. split; [reflexivity|]. split; [reflexivity|]. cbn [s_joins s_where]. split; intros ? E; discriminate.
  - destruct (table_good Hshape Hgood Hi Hsp) as (t & Ht & Hg). exists st0, t. auto.
Qed.

Section Source.
Variables (source : tname -> list row) (reopen : bool) (compact : dict tname (list string)).
Hypothesis Hkeys : forall t, In t db -> tb_pk t <> [] -> NoDup (map (fun r => map (rget r) (tb_pk t)) (source (tb_name t))).
Hypothesis Hrows : forall t, In t db -> NoDup (source (tb_name t)).
Hypothesis Hid : forall t, In t db -> ~ In id_column (tb_cols t).
Hypothesis Hck : NoDup (dkeys compact).
Hypothesis Hcne : forall n cs, In (n, cs) compact -> cs <> [].
Hypothesis Hcc : forall n c, compacted compact n c -> planned p n /\ exists t, table_of db n t /\ In c (tb_cols t).
Hypothesis Hone : reopen = false -> one_compacted ms compact.

Theorem plan_runnable : runnable id_column reopen ms source compact (p_queries p).
Proof.
  destruct (plan_ok_shape Hdb Hord Hordp Hplan) as (passl & ns & _ & Hshape & Hgood & _).
  assert (Hqs := planned_good Hshape Hgood).
  assert (Hprops : forall s q n, In (s, q) (p_queries p) -> named s n ->
    exists st t, q = mkQuery None None (Some st) /\ table_of db n t /\ planned p n /\ reads_only n st /\
      stmt_wf st /\ stmt_fits (source_cols ms) st /\
      (forall id, In id (stmt_ids st) -> i_sampled id = true -> before ns (i_name id) n) /\ st <> SUnion []).
  { intros s q n Hin Hn. destruct (Hqs s q n Hin Hn) as (st & t & Eq & Ht & Hp & Hr & Hg). exists st, t.
    destruct (good_stmt_props (cols_of Hp Ht false) Hg) as (G1 & G2 & G3 & G4).
    split; [exact Eq|]. split; [exact Ht|]. split; [exact Hp|]. split; [exact Hr|]. split; [exact G1|]. split; [exact G2|]. split; [|exact G4].
    intros id Hi Hs. destruct (G3 id Hi) as [->|G]; [discriminate|apply G]. }
  assert (Hreads : forall n d, reads_sample (p_queries p) n d -> before ns d n).
  { intros n d (s & q & id & Hin & Hn & Hid' & Hs & <-). destruct (Hprops s q n Hin Hn) as (st & t & -> & _ & _ & _ & _ & _ & G & _).
    exact (G id Hid' Hs). }
  assert (Hnm : forall s, In s (dkeys (p_queries p)) -> exists n, named s n).
  { intros s Hs. apply (keys_In Hdb Hshape Hgood) in Hs. destruct Hs as (n & Hn & _). exists n. exact Hn. }
  constructor.
  - exact Hms.
  - intros n m Hm Hpk. destruct (Hmst Hm) as [Ht Hname]. rewrite <- Hname. exact (Hkeys Ht Hpk).
  - intros n Hn. destruct (key_dget Hn) as (m & Hm). destruct (Hmst (dget_In Hm)) as [Ht <-]. exact (Hrows Ht).
  - split; [exact (keys_NoDup Hdb Hshape Hgood)|exact Hnm].
  - intros s q n Hin Hn. destruct (Hprops s q n Hin Hn) as (st & t & -> & _ & _ & Hr & _). split; [reflexivity|]. exists st. auto.
  - intros s q st Hin Hst. destruct (Hnm s) as (n & Hn); [apply in_map_iff; exists (s, q); auto|].
    destruct (Hprops s q n Hin Hn) as (st' & t & -> & _ & _ & _ & _ & _ & _ & G). cbn in Hst. inv Hst. exact G.
  - intros s q n Hin Hn. destruct (Hprops s q n Hin Hn) as (st' & t & -> & _ & Hp & _ & G1 & G2 & _). split; [exact (Hmsp Hp)|]. cbn. exists st'. auto.
  - intros n d Hr. apply Hreads in Hr. destruct (ns_planned Hshape Hgood (before_In_l Hr)) as (s & Hs & Hk). exists s. auto.
  - intros n Hc. unfold on_cycle in Hc.
    assert (Hb : forall x y, path (reads_sample (p_queries p)) x y -> before ns y x).
    { clear - Hreads Hgood. intros x y Hp. induction Hp; [apply Hreads; assumption|]. eapply before_trans; [apply Hgood|exact IHHp2|exact IHHp1]. }
    eapply before_irrefl; [apply Hgood|exact (Hb n n Hc)].
  - split; [exact Hck|]. split; [exact Hcne|]. split.
    + intros n m Hm. destruct (Hmst Hm) as [Ht _]. destruct Hdb as [_ Hall]. destruct (Hall _ Ht) as (_ & H1 & H2 & _). auto.
    + intros n c d dc (m & fk & _ & _ & _ & _ & Hcp) ->. destruct (Hcc Hcp) as (_ & t & [Ht _] & Hin). exact (Hid Ht Hin).
  - intros n c d dc _ (m & fk & _ & _ & _ & _ & Hcp). destruct (Hcc Hcp) as (Hp & t & Ht & Hin). split; [exact Hp|].
    destruct (key_dget (Hmsp Hp)) as (md & Hmd). exists md. split; [exact (dget_In Hmd)|]. rewrite (table_fun (Hmst (dget_In Hmd)) Ht). exact Hin.
  - exact Hone.
Qed.
End Source.
End Runnable.

(** * The sampler's view of the source *)
Lemma sampler_meta_spec fnm db queries infer : db_ok db ->
  exists ms, sampler_meta fnm db queries infer = Ok ms /\ meta_ok ms /\
    (forall n m, In (n, m) ms -> table_of db n (tm_table m)) /\
    (forall n, In n (dkeys ms) <-> matching fnm db (dkeys queries) n).
Proof.
  intros Hdb. destruct (from_engine_spec fnm (dkeys queries) false false Hdb) as (ms & extra & E & _ & Hnd & Hk & Ht).
  unfold sampler_meta. rewrite E. cbn [bind fst]. eexists. split; [reflexivity|].
  assert (Hm : forall n, In n (dkeys ms) <-> matching fnm db (dkeys queries) n).
  { intros n. rewrite Hk. split.
    - intros (m & Hm & Hp). unfold path0 in Hp. apply clos_rt_rt1n in Hp. destruct Hp as [|y w Hf _]; [exact Hm|]. destruct Hf as [[F _]|[F _]]; discriminate.
    - intros Hm. exists n. split; [exact Hm|apply rt_refl]. }
  assert (Hms : meta_ok ms). { split; [exact Hnd|]. intros n m Hin. destruct (Ht n m Hin) as (t & [_ Hname] & ->). exact Hname. }
  assert (Htab : forall n m, In (n, m) ms -> table_of db n (tm_table m)). { intros n m Hin. destruct (Ht n m Hin) as (t & Ht' & ->). exact Ht'. }
  assert (Hinf : forall b, meta_ok (infer_missing_foreign_keys b ms) /\
     (forall n m, In (n, m) (infer_missing_foreign_keys b ms) -> table_of db n (tm_table m)) /\
     (forall n, In n (dkeys (infer_missing_foreign_keys b ms)) <-> matching fnm db (dkeys queries) n)).
  { intros b. split; [apply infer_ok; exact Hms|]. split; [|rewrite infer_keys; exact Hm].
    intros n m Hin. apply infer_In in Hin. destruct Hin as (m0 & Hin & ->). cbn. exact (Htab n m0 Hin). }
  destruct infer; [split; [exact Hms|split; [exact Htab|exact Hm]]|apply Hinf|apply Hinf].
Qed.

Lemma out_named source cmpf textf rawf raw_cols z rank reopen ms compact start ord queries insert_order st outs o :
  extract source cmpf textf rawf raw_cols z rank reopen ms compact start ord queries insert_order = Ok (st, outs) -> In o outs ->
  named (render (co_name o)) (co_name o).
Proof.
  intros E Hin. unfold extract in E. apply bind_Ok in E. destruct E as (st0 & _ & E). apply bind_Ok in E. destruct E as (l & Hm & E). inv E.
  apply in_flat_map in Hin. destruct Hin as ([x|] & Hx & Hin); [|destruct Hin]. destruct Hin as [->|[]].
  apply mapM_Ok in Hm. destruct (Forall2_In_r Hm Hx) as (s & _ & Hs). unfold copy_table in Hs. apply bind_Ok in Hs. destruct Hs as (n & Hn & Hs).
  unfold parse in Hn. destruct (parse_table_name s) as [n'|] eqn:Ep; [|discriminate]. inv Hn. apply (proj1 (parse_named _ _)) in Ep.
  destruct (dget queries s); [|discriminate]. apply bind_Ok in Hs. destruct Hs as (c & _ & Hs). inv Hs. cbn [co_name].
  rewrite <- (named_eq Ep). exact Ep.
Qed.

(** The entries of the compaction settings' result are not empty. *)
Lemma compact_nonempty ccfg passthrough ms is_int has_autoinc acc :
  get_compact_columns ccfg passthrough ms is_int has_autoinc = Ok acc -> forall n cs, In (n, cs) acc -> cs <> [].
Proof.
  intros H. unfold get_compact_columns in H. apply bind_Ok in H. destruct H as (a0 & H0 & H).
  assert (Hd : forall (a : dict tname (list string)) k v, (forall n cs, In (n, cs) a -> cs <> []) -> v <> [] -> forall n cs, In (n, cs) (dset a k v) -> cs <> []).
  { intros a k v Ha Hv. induction a as [|[k0 v0] a IH]; cbn [dset].
    - intros n cs [E|[]]. inv E. exact Hv.
    - destruct (eq_dec k k0) as [_|_]; intros n cs Hin; (destruct Hin as [E|Hin]; [inv E|]).
      + exact Hv.
      + apply (Ha n). right. exact Hin.
      + apply (Ha n). left. reflexivity.
      + apply (IH (fun n cs Hx => Ha n cs (or_intror Hx)) n). exact Hin. }
  assert (Hs : forall x l, set_of (x :: l) <> (@nil string)).
  { intros x l E. assert (In x (set_of (x :: l))) by (apply set_of_In; left; reflexivity). rewrite E in H1. destruct H1. }
  assert (Ha0 : forall n cs, In (n, cs) a0 -> cs <> []).
  { clear H. unfold compact_listed in H0. refine (forM_inv (P := fun _ a => forall n cs, In (n, cs) a -> cs <> []) _ _ H0); [intros n cs []|].
    intros done [s cs] rest a a' _ Ha E. cbn [fst snd] in E. destruct cs as [|c cs]; cbn [is_nil] in E; [inv E; exact Ha|].
    apply bind_Ok in E. destruct E as (key & _ & E). destruct (negb _); [inv E; exact Ha|]. destruct (memb _ _); inv E; [exact Ha|].
    apply Hd; [exact Ha|apply Hs]. }
  destruct (negb (cp_primary_keys ccfg) && negb (cp_auto_increment ccfg)); [inv H; exact Ha0|].
  destruct (compact_in_fk _ _); [discriminate|]. inv H. unfold compact_keys. clear H0. revert a0 Ha0. induction ms as [|[n0 m0] l IH]; intros a0 Ha0; cbn [fold_left]; [exact Ha0|].
  apply IH. destruct (tb_pk (tm_table m0)) as [|c [|]]; try exact Ha0. destruct (memb _ _); [exact Ha0|]. destruct (negb _); [exact Ha0|].
  destruct (_ || _); [|exact Ha0]. apply Hd; [exact Ha0|]. intros E. assert (Hx : In c (set_add c (dget_or a0 n0 []))) by (apply set_add_In; left; reflexivity).
  rewrite E in Hx. destruct Hx.
Qed.

Section Whole.
Variables (fnm : string -> string -> bool) (cfg : config) (db : list table).
Variables (ord : list string -> list string) (ordp : list tname -> list tname).
Hypothesis Hdb : db_ok db.
Hypothesis Hord : any_order ord.
Hypothesis Hordp : any_order ordp.
Hypothesis Hcfg : config_ok cfg.
Hypothesis Hxv : extras_valid cfg.
Hypothesis Htf : targets_fit cfg db.
Variable p : plan.
Hypothesis Hplan : plan_db ord ordp fnm cfg db = Ok p.
Variables (source : tname -> list row) (infer : infer_mode).
Hypothesis Hsrc : source_ok id_column db source.

Lemma planned_table n : planned p n -> exists t, table_of db n t.
Proof.
  intros Hp. destruct (plan_ok_shape Hdb Hord Hordp Hplan) as (passl & ns & _ & Hshape & Hgood & _).
  apply (planned_iff Hdb Hshape Hgood) in Hp.
  assert (Hc : chosen fnm cfg db n). { destruct Hp as [[Hc _]|Hc]; [exact Hc|]. apply (@connected_active fnm cfg db) in Hc. apply Hc. }
  destruct (from_engine_spec fnm (c_select cfg ++ c_passthrough cfg) (c_include_deps cfg) false Hdb) as (ms & extra & _ & _ & _ & Hk & Ht).
  apply Hk in Hc. destruct (key_dget Hc) as (m & Hm). destruct (Ht n m (dget_In Hm)) as (t & Ht' & _). exists t. exact Ht'.
Qed.
Lemma planned_matching n : (forall s, In s (dkeys (p_queries p)) -> fnm s s = true) -> planned p n -> matching fnm db (dkeys (p_queries p)) n.
Proof.
  intros Hself Hp. destruct (planned_table Hp) as (t & Ht). destruct Hp as (s & Hs & Hk). exists t, s, s. auto.
Qed.

Lemma whole_runnable ms reopen compact : (forall s, In s (dkeys (p_queries p)) -> fnm s s = true) ->
  sampler_meta fnm db (p_queries p) infer = Ok ms -> NoDup (dkeys compact) -> (forall n cs, In (n, cs) compact -> cs <> []) ->
  (forall n c, compacted compact n c -> planned p n /\ exists t, table_of db n t /\ In c (tb_cols t)) ->
  (reopen = false -> one_compacted ms compact) ->
  runnable id_column reopen ms source compact (p_queries p).
Proof.
  intros Hself Hms H1 H2 H3 H4. destruct (sampler_meta_spec fnm (p_queries p) infer Hdb) as (ms' & E & A & B & C). rewrite Hms in E. inv E.
  apply (@plan_runnable fnm cfg db ord ordp Hdb Hord Hordp Hcfg Hxv Htf p Hplan ms' A B); try assumption.
  - intros n Hp. apply C. exact (planned_matching Hself Hp).
  - intros t Ht Hpk. exact (proj2 (proj2 (Hsrc Ht)) Hpk).
  - intros t Ht. exact (proj1 (Hsrc Ht)).
  - intros t Ht. exact (proj1 (proj2 (Hsrc Ht))).
Qed.

(** One foreign key. *)
Theorem full_run_foreign_key cmpf textf rawf raw_cols z rank reopen start ord' insert_order :
  (forall s, In s (dkeys (p_queries p)) -> fnm s s = true) ->
  any_order ord' -> (forall ph n, rnd_ok (z ph n)) -> (forall ph n ks, length (rank ph n ks) = length ks) ->
  (forall s, In s insert_order -> exists n, named s n) ->
  exists ms, sampler_meta fnm db (p_queries p) infer = Ok ms /\
  exists st outs, extract source cmpf textf rawf raw_cols z rank reopen ms [] start ord' (p_queries p) insert_order = Ok (st, outs) /\
    map (fun o => render (co_name o)) outs = filter (fun s => dmem (p_queries p) s) insert_order /\
    (eq_symmetric cmpf ->
     (forall n g, is_target cfg n g -> tg_all g = true -> tg_amount g = None) ->
     forall o o' fk, In o outs -> In o' outs -> considered fnm cfg db (co_name o) fk -> co_name o' = fk_dst fk ->
       earlier_parent fnm cfg db p (co_name o) fk \/ fk_holds cmpf fk (source (co_name o)) (source (fk_dst fk)) ->
       fk_holds cmpf fk (co_rows o) (co_rows o')).
Proof.
  intros Hself Ho Hz Hr Hi. destruct (sampler_meta_spec fnm (p_queries p) infer Hdb) as (ms & E & _). exists ms. split; [exact E|].
  assert (HR : runnable id_column reopen ms source [] (p_queries p)).
  { apply (whole_runnable Hself E); [constructor|intros n cs []|intros n c (cs & [] & _)|]. intros _ n m fk a b a' b' _ _ _ _ (cs & [] & _). }
  destruct (runnable_total cmpf textf rawf raw_cols start Hr Ho Hz HR Hi) as (st & outs & Ex). exists st, outs. split; [exact Ex|].
  assert (Hnil : NoDup (dkeys (@nil (tname * list string)))) by constructor.
  destruct (run_sees Ho (rn_meta HR) (rn_keys HR) (rn_names HR) (runnable_wf HR) Hnil Hr Ex) as (Hn & sample & rows & Hsel & Hsr & Hout).
  split; [exact Hn|]. intros Hsym Hall o o' fk Hin Hin' Hc Ed Hsc.
  assert (Hrow : forall x, In x outs -> co_rows x = sample (co_name x)).
  { intros x Hx. rewrite (Hsr (co_name x)); [|intros []]. apply (Hout x Hx). split; [intros []|]. intros c d dc (m & f & _ & _ & _ & _ & cs & [] & _). }
  assert (Hpl : forall x, In x outs -> planned p (co_name x)).
  { intros x Hx. assert (Hk : In (render (co_name x)) (filter (fun s => dmem (p_queries p) s) insert_order)) by (rewrite <- Hn; apply in_map_iff; exists x; auto).
    apply filter_In in Hk. destruct Hk as [_ Hk]. apply dmem_true in Hk. exists (render (co_name x)). split; [|exact Hk].
    exact (out_named Ex Hx). }
  rewrite (Hrow o Hin), (Hrow o' Hin'), Ed.
  eapply (fk_preserved1 Hdb Hord Hordp Hplan); try eassumption; [|exact (Hpl o Hin)|rewrite <- Ed; exact (Hpl o' Hin')].
  intros s q n Hq Hs. destruct (Hsel s q n Hq Hs) as ((w & (ph & ->) & Hw) & _).
  destruct (rn_reads HR Hq Hs) as (Hsql & stm & Hst & _). exists stm, (z ph n). split; [exact Hst|]. split; [apply Hz|].
  rewrite (Hsr n), Hw; [|intros []]. unfold query_result. rewrite Hsql, Hst. apply Permutation_refl.
Qed.

(** C77 *)
Theorem full_run_foreign_keys cmpf textf rawf raw_cols z rank reopen start ord' insert_order :
  (forall s, In s (dkeys (p_queries p)) -> fnm s s = true) ->
  any_order ord' -> (forall ph n, rnd_ok (z ph n)) -> (forall ph n ks, length (rank ph n ks) = length ks) ->
  (forall s, In s insert_order -> exists n, named s n) ->
  exists ms, sampler_meta fnm db (p_queries p) infer = Ok ms /\
  exists st outs, extract source cmpf textf rawf raw_cols z rank reopen ms [] start ord' (p_queries p) insert_order = Ok (st, outs) /\
    map (fun o => render (co_name o)) outs = filter (fun s => dmem (p_queries p) s) insert_order /\
    (eq_symmetric cmpf -> source_consistent fnm cfg db cmpf source ->
     (forall n g, is_target cfg n g -> tg_all g = true -> tg_amount g = None) ->
     forall o o' fk, In o outs -> In o' outs -> considered fnm cfg db (co_name o) fk -> co_name o' = fk_dst fk ->
       fk_holds cmpf fk (co_rows o) (co_rows o')).
Proof.
  intros Hself Ho Hz Hr Hi. destruct (full_run_foreign_key cmpf textf rawf raw_cols reopen start Hself Ho Hz Hr Hi) as (ms & A & st & outs & B & C & D).
  exists ms. split; [exact A|]. exists st, outs. split; [exact B|]. split; [exact C|]. intros Hsym Hsc Hall o o' fk H1 H2 H3 H4. apply (D Hsym Hall o o' fk H1 H2 H3 H4). right. exact (Hsc _ _ H3).
Qed.

(** C81 *)
Theorem full_run_total ccfg is_int has_autoinc ms compact cmpf textf rawf raw_cols z rank reopen ord' insert_order :
  (forall s k, In k (dkeys (p_queries p)) -> fnm s k = true <-> s = k) ->
  sampler_meta fnm db (p_queries p) infer = Ok ms ->
  NoDup (dkeys (cp_columns ccfg)) ->
  (forall s cs n t c, In (s, cs) (cp_columns ccfg) -> named s n -> table_of db n t -> In c cs -> In c (tb_cols t)) ->
  get_compact_columns ccfg (p_passthrough p) ms is_int has_autoinc = Ok compact ->
  (reopen = false -> one_compacted ms compact /\ no_self_references ms compact (p_queries p)) ->
  any_order ord' -> (forall ph n, rnd_ok (z ph n)) -> (forall ph n ks, length (rank ph n ks) = length ks) ->
  (forall s, In s insert_order -> exists n, named s n) ->
  exists run, extract source cmpf textf rawf raw_cols z rank reopen ms compact (cp_start ccfg) ord' (p_queries p) insert_order = Ok run /\
    Forall (stmt_runs reopen) (executed run).
Proof.
  intros Hlit E Hnd Hcols Ec Hmy Ho Hz Hr Hi.
  assert (Hself : forall s, In s (dkeys (p_queries p)) -> fnm s s = true) by (intros s Hs; apply (Hlit s s Hs); reflexivity).
  destruct (sampler_meta_spec fnm (p_queries p) infer Hdb) as (ms' & E' & Hms & Htab & Hkeys). rewrite E in E'. inv E'.
  destruct (@compact_columns_spec ccfg (p_passthrough p) ms' is_int has_autoinc Hnd compact Ec) as [Hck Hcs].
  assert (HR : runnable id_column reopen ms' source compact (p_queries p)).
  { apply (whole_runnable Hself E); [exact Hck|exact (compact_nonempty Ec)| |intros Hf; exact (proj1 (Hmy Hf))].
    intros n c Hc. apply Hcs in Hc. destruct Hc as (m & Hm & _ & Hc). split.
    - assert (Hk : In n (dkeys ms')) by (apply in_map_iff; exists (n, m); auto). apply Hkeys in Hk. destruct Hk as (t & s & k & _ & Hn & Hk & Hf).
      apply (Hlit s k Hk) in Hf. subst k. exists s. auto.
    - exists (tm_table m). split; [exact (Htab n m Hm)|]. destruct Hc as [(s & cs & Hin & Hn & Hc)|(Hpk & _)].
      + exact (Hcols s cs n _ c Hin Hn (Htab n m Hm) Hc).
      + destruct Hdb as [_ Hall]. destruct (Hall _ (proj1 (Htab n m Hm))) as (_ & _ & Hincl & _). apply Hincl. rewrite Hpk. left. reflexivity. }
  eapply run_executes; try eassumption. intros Hf. exact (proj2 (Hmy Hf)).
Qed.
End Whole.
