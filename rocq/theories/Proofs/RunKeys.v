(** Which foreign keys a run follows (C135). *)
From Verif Require Import Model.Base Model.Value Model.Names Model.PlanModel Model.Metadata Model.Planner Model.Sampler.
From Verif Require Import Spec.GraphSpec Spec.SchemaSpec Spec.PlannerSpec Spec.RunSpec Spec.WholeSpec Spec.RunKeysSpec.
From Verif Require Import Proofs.BaseFacts Proofs.NameFacts Proofs.MetadataFacts Proofs.MetadataMain Proofs.PlannerGraph Proofs.PlannerFinal Proofs.PlannerWrap Proofs.PlanRun.
Set Implicit Arguments. Unset Strict Implicit.
Open Scope list_scope.

Section Keys.
Variables (fnm : string -> string -> bool) (db : list table) (p : plan) (infer : infer_mode).
Hypothesis Hdb : db_ok db.
Notation sampled := (sampled_table fnm db p).

Lemma loaded : exists ms extra, from_engine fnm db (dkeys (p_queries p)) false false = Ok (ms, extra) /\ meta_ok ms /\
  forall n m, In (n, m) ms <-> exists t, table_of db n t /\ sampled n /\ m = new_meta t.
Proof.
  destruct (from_engine_spec fnm (dkeys (p_queries p)) false false Hdb) as (ms & extra & E & _ & Hnd & Hk & Ht).
  assert (Hm : forall n, In n (dkeys ms) <-> sampled n).
  { intros n. rewrite Hk. split.
    - intros (m & Hm & Hp). unfold path0 in Hp. apply Relations.Operators_Properties.clos_rt_rt1n in Hp. destruct Hp as [|y w Hf _]; [exact Hm|]. destruct Hf as [[F _]|[F _]]; discriminate.
    - intros Hm. exists n. split; [exact Hm|apply Relations.Relation_Operators.rt_refl]. }
  exists ms, extra. split; [exact E|]. split; [split; [exact Hnd|]; intros n m Hin; destruct (Ht n m Hin) as (t & [_ Hname] & ->); exact Hname|].
  intros n m. split.
  - intros Hin. destruct (Ht n m Hin) as (t & Ht' & ->). exists t. split; [exact Ht'|]. split; [|reflexivity]. apply Hm. apply in_map_iff. exists (n, new_meta t). tauto.
  - intros (t & Ht' & Hs & ->). apply Hm in Hs. apply in_map_iff in Hs. destruct Hs as ([n' m] & Hn' & Hin). cbn in Hn'. subst n'.
    destruct (Ht n m Hin) as (t2 & Ht2 & ->). rewrite (table_of_fun Hdb Ht' Ht2). exact Hin.
Qed.

Lemma followed_meta : exists ms, sampler_meta fnm db (p_queries p) infer = Ok ms /\ NoDup (dkeys ms) /\
  forall n fk, (exists m, In (n, m) ms /\ In fk (tm_fks m)) <-> followed_fk fnm db p infer n fk.
Proof.
  destruct loaded as (ms0 & extra & E & Hms0 & Htab). unfold sampler_meta. rewrite E. cbn [bind fst]. eexists. split; [reflexivity|].
  assert (Hpk : forall ia s c d, (ia = true <-> infer = InferAll) -> has_pk ia ms0 s c d <-> sampled_pk fnm db p infer s c d).
  { intros ia s c d Hia. unfold has_pk, sampled_pk. split.
    - intros (m & Hin & Hp & Hor). apply Htab in Hin. destruct Hin as (t & Ht & Hc & ->). exists t. rewrite <- Hia. tauto.
    - intros (t & Hc & Ht & Hp & Hor). exists (new_meta t). split; [apply Htab; exists t; tauto|]. rewrite Hia. tauto. }
  assert (Hone : forall ia, infer <> InferNone -> (ia = true <-> infer = InferAll) -> NoDup (dkeys (infer_missing_foreign_keys ia ms0)) /\
    forall n fk, (exists m, In (n, m) (infer_missing_foreign_keys ia ms0) /\ In fk (tm_fks m)) <-> followed_fk fnm db p infer n fk).
  { intros ia Hne Hia. split; [rewrite infer_keys; apply Hms0|]. intros n fk.
    assert (Hii : forall t, table_of db n t -> inferred ia ms0 n (new_meta t) fk <-> inferred_fk fnm db p infer n fk).
    { intros t Ht. unfold inferred, inferred_fk. cbn [new_meta tm_table]. split.
      - intros (c & d & -> & Hcc & [Hp Hu] & Hd). split; [exact Hne|]. exists c, d, t. split; [reflexivity|]. split; [exact Hd|].
        split; [exact Ht|]. split; [exact Hcc|]. split; [apply (Hpk ia _ _ _ Hia); exact Hp|]. intros d' Hd'. apply Hu. apply (Hpk ia _ _ _ Hia). exact Hd'.
      - intros (_ & c & d & t' & -> & Hd & Ht' & Hcc & Hp & Hu). rewrite <- (table_of_fun Hdb Ht Ht') in Hcc. exists c, d.
        split; [reflexivity|]. split; [exact Hcc|]. split; [|exact Hd]. split; [apply (Hpk ia _ _ _ Hia); exact Hp|].
        intros d' Hd'. apply Hu. apply (Hpk ia _ _ _ Hia). exact Hd'. }
    assert (Hfks : forall t, table_of db n t -> sampled n ->
      (In fk (tm_fks (infer_table ia (pk_map ia (dvals ms0)) (new_meta t))) <-> In fk (tb_fks t) \/ inferred_fk fnm db p infer n fk)).
    { intros t Ht Hs. assert (Hin0 : In (n, new_meta t) ms0) by (apply Htab; exists t; tauto). assert (Hnc : NoDup (tb_cols t)) by (apply Hdb; apply Ht).
      destruct (@infer_table_spec ia ms0 n (new_meta t) Hms0 Hin0 Hnc) as (new & -> & _ & Hnew). cbn [with_fks tm_fks]. rewrite in_app_iff, Hnew, (Hii t Ht). cbn [new_meta tm_fks].
      destruct (In_dec' fk (tb_fks t)); tauto. }
    split.
    - intros (m & Hin & Hfk). apply infer_In in Hin. destruct Hin as (m0 & Hin & ->). apply Htab in Hin. destruct Hin as (t & Ht & Hs & ->).
      split; [exact Hs|]. apply (Hfks t Ht Hs) in Hfk. destruct Hfk as [Hf|Hf]; [left; exists t; tauto|right; exact Hf].
    - intros [Hs Hor]. assert (Hs' := Hs). destruct Hs' as (t & _ & _ & Ht & _).
      exists (infer_table ia (pk_map ia (dvals ms0)) (new_meta t)). split; [apply infer_In; exists (new_meta t); split; [apply Htab; exists t; tauto|reflexivity]|].
      apply (Hfks t Ht Hs). destruct Hor as [(t' & Ht' & Hf)|Hf]; [left; rewrite (table_of_fun Hdb Ht Ht'); exact Hf|right; exact Hf]. }
  destruct infer eqn:Ei.
  - split; [apply Hms0|]. intros n fk. split.
    + intros (m & Hin & Hfk). apply Htab in Hin. destruct Hin as (t & Ht & Hs & ->). split; [exact Hs|]. left. exists t. tauto.
    + intros [Hs [(t & Ht & Hf)|[F _]]]; [|congruence]. exists (new_meta t). split; [apply Htab; exists t; tauto|exact Hf].
  - apply Hone; [discriminate|split; discriminate].
  - apply Hone; [discriminate|tauto].
Qed.
End Keys.

Theorem run_keys G (E : env G) cfg p : db_ok (en_source_schema E) -> forall n fk,
  source_fk E cfg p n fk <-> followed_fk (en_fnm E) (en_source_schema E) p (sc_infer cfg) n fk.
Proof.
  intros Hdb n fk. destruct (followed_meta (en_fnm E) p (sc_infer cfg) Hdb) as (ms & Ems & Hnd & Hf). rewrite <- Hf. split.
  - intros (ms' & m & Ems' & Hm & Hfk). rewrite Ems in Ems'. injection Ems' as <-. exists m. split; [exact (dget_In Hm)|exact Hfk].
  - intros (m & Hin & Hfk). exists ms, m. split; [exact Ems|]. split; [exact (In_dget Hnd Hin)|exact Hfk].
Qed.

Theorem run_meta fnm db p infer : db_ok db -> exists ms, sampler_meta fnm db (p_queries p) infer = Ok ms /\ NoDup (dkeys ms) /\
  (forall n, In n (dkeys ms) <-> sampled_table fnm db p n) /\
  forall n m, In (n, m) ms -> table_of db n (tm_table m) /\ forall fk, In fk (tm_fks m) <-> followed_fk fnm db p infer n fk.
Proof.
  intros Hdb. destruct (followed_meta fnm p infer Hdb) as (ms & Ems & Hnd & Hf). destruct (sampler_meta_spec fnm (p_queries p) infer Hdb) as (ms' & Ems' & _ & Ht & Hk).
  rewrite Ems in Ems'. injection Ems' as <-. exists ms. split; [exact Ems|]. split; [exact Hnd|]. split; [exact Hk|].
  intros n m Hin. split; [exact (Ht n m Hin)|]. intros fk. rewrite <- Hf. split; [intros H; exists m; split; assumption|].
  intros (m' & Hin' & Hfk). assert (m' = m) as -> by (assert (H1 := In_dget Hnd Hin); rewrite (In_dget Hnd Hin') in H1; injection H1 as <-; reflexivity). exact Hfk.
Qed.

Theorem run_keys_planned G (E : env G) cfg p pcfg : planned_by E p pcfg -> c_extra_fks pcfg = [] -> c_ignore_fks pcfg = [] ->
  c_infer pcfg = sc_infer cfg -> (sc_infer cfg = InferNone \/ forall n, chosen (en_fnm E) pcfg (en_source_schema E) n <-> sampled_table (en_fnm E) (en_source_schema E) p n) ->
  forall s n fk, In s (dkeys (p_queries p)) -> named s n -> (source_fk E cfg p n fk <-> considered (en_fnm E) pcfg (en_source_schema E) n fk).
Proof.
  intros (Hc & Hx & Hdb & _ & (ord & ordp & Ho & Hop & Hp) & _ & Hself) He Hi Hinf Hor s n fk Hs Hn. rewrite (run_keys cfg p Hdb).
  destruct (plan_covers Hdb Ho Hop Hp) as (_ & Hcov & _).
  assert (Hch : chosen (en_fnm E) pcfg (en_source_schema E) n).
  { apply Hcov in Hs. destruct Hs as (n0 & Hn0 & Hor0). rewrite (named_fun Hn Hn0). destruct Hor0 as [[H _]|H]; [exact H|]. apply connected_active in H. apply H. }
  assert (Hsam : sampled_table (en_fnm E) (en_source_schema E) p n).
  { assert (Ht : exists t, table_of (en_source_schema E) n t) by exact (chosen_table Hdb Hch). destruct Ht as (t & Ht). exists t, s, s. split; [exact Ht|]. split; [exact Hn|]. split; [exact Hs|exact (Hself s Hs)]. }
  assert (Hign : ~ ignored_fk pcfg n (fk_dst fk)) by (intros (a & b & F & _); rewrite Hi in F; exact F).
  assert (Hinfer : inferred_fk (en_fnm E) (en_source_schema E) p (sc_infer cfg) n fk <-> inferable (en_fnm E) pcfg (en_source_schema E) n fk).
  { unfold inferred_fk, inferable. rewrite Hinf. destruct Hor as [->|Hor]; [split; intros [F _]; congruence|].
    assert (Hpk : forall c d, sampled_pk (en_fnm E) (en_source_schema E) p (sc_infer cfg) (fst n) c d <-> chosen_pk (en_fnm E) pcfg (en_source_schema E) (fst n) c d).
    { intros c d. unfold sampled_pk, chosen_pk. rewrite Hinf. split; intros (t & H1 & H2); exists t; (split; [apply Hor; exact H1|exact H2]). }
    split; intros [H0 (c & d & t & H1 & H2 & H3 & H4 & H5 & H6)]; (split; [exact H0|]); exists c, d, t; (split; [exact H1|]); (split; [exact H2|]); (split; [exact H3|]); (split; [exact H4|]);
      (split; [apply Hpk; exact H5|]); intros d' Hd'; apply H6; apply Hpk; exact Hd'. }
  unfold followed_fk, considered. rewrite Hinfer. split.
  - intros [_ H]. split; [exact Hch|]. left. tauto.
  - intros [_ [[H _]|(x & F & _)]]; [tauto|]. rewrite He in F. elim F.
Qed.
