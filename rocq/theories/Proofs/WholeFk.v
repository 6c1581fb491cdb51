(** The planner's plans, carried out: foreign keys between the destination tables. *)
From Coq Require Import Lia Relations.
From Verif Require Import Model.Base Model.Value Model.Names Model.PlanModel Model.SqlAlgebra Model.PlanBuild Model.Metadata Model.Planner Model.Filters Model.Multiply Model.Materialize Model.Dest Model.Output Model.Sampler.
From Verif Require Import Spec.GraphSpec Spec.SchemaSpec Spec.SqlSem Spec.PlannerSpec Spec.FilterSpec Spec.OutputSpec Spec.RunSpec Spec.SampleSpec Spec.WholeSpec.
From Verif Require Import Proofs.BaseFacts Proofs.NameFacts Proofs.MetadataFacts Proofs.MaterializeRun Proofs.SampleRun Proofs.SampleTotal Proofs.CompactRun Proofs.SampleFinal Proofs.PlanRun Proofs.OutputMain Proofs.OutputMore Proofs.WholeRun.
From Verif Require Import Model.Dest.
Set Implicit Arguments.
Unset Strict Implicit.
Open Scope list_scope.
#[local] Arguments rn_names {id reopen ms source compact queries} _.
#[local] Arguments rn_compact {id reopen ms source compact queries} _.

Section Columns.
Variables (source : tname -> list row) (cmpf : cmpop -> value -> value -> bool)
          (textf : string -> option (dict string lit) -> row -> tv) (rawf : string -> option (dict string lit) -> list row)
          (raw_cols : string -> option (dict string lit) -> list string)
          (z : phase -> tname -> rnd) (rank : phase -> tname -> list (list value) -> list nat) (reopen : bool)
          (ms : meta) (compact : dict tname (list string)) (start : Z) (ord : list tname -> list tname) (queries : dict string table_query).
Hypothesis Hord : any_order ord.
Hypothesis Hz : forall ph n, rnd_ok (z ph n).
Hypothesis Hrank : forall ph n ks, length (rank ph n ks) = length ks.
Hypothesis HR : runnable id_column reopen ms source compact queries.

(** The columns copied are those of the source table. *)
Lemma copied_columns st t co : materialize_tables source cmpf textf rawf z rank reopen ms compact start ord queries = Ok st ->
  copy_table source cmpf textf rawf raw_cols z rank reopen ms compact start st queries t = Ok (Some co) ->
  named t (co_name co) /\ exists m, dget ms (co_name co) = Some m /\ co_cols co = tb_cols (tm_table m).
Proof.
  intros Hst H.
  assert (Hi : exists order, inv reopen ms compact order st).
  { destruct (mats_spec Hord (rn_names HR) Hst) as (_ & _ & order & Eo & _). destruct (runnable_mats cmpf textf rawf start Hrank Hord Hz HR Eo) as (s1 & E1 & I1). unfold mats in E1. rewrite Hst in E1. inv E1. eauto. }
  unfold copy_table in H. apply bind_Ok in H. destruct H as (n & Hp & H). unfold parse in Hp. destruct (parse_table_name t) as [n0|] eqn:Ep; [|discriminate]. inv Hp. apply parse_named in Ep.
  destruct (dget queries t) as [q|] eqn:Eq; [|discriminate]. apply bind_Ok in H. destruct H as (c & Hc & H). inv H. cbn [co_name co_cols]. split; [exact Ep|].
  unfold copy_statement in Hc. apply bind_Ok in Hc. destruct Hc as ([b cnt] & Hb & Hc). apply bind_Ok in Hc. destruct Hc as (m & Hm & Hc). apply dfind_Ok in Hm. exists m. split; [exact Hm|].
  destruct (base_query Hord HR Hst Hi (dget_In Eq) Ep Hm Hb) as [Es Hraw].
  destruct (is_nil (remote_compact compact m) && is_nil (dget_or compact n [])) eqn:En.
  - inv Hc. cbn [copy_keys]. assert (Hs : scols compact n m = tb_cols (tm_table m)).
    { unfold scols. destruct (dmem compact n) eqn:Ed; [|reflexivity]. apply dmem_true in Ed. destruct (key_dget Ed) as (cs & Ecs). apply andb_prop in En. destruct En as [_ En]. unfold dget_or in En. rewrite Ecs in En.
      destruct (rn_compact HR) as (_ & Hne & _). elim (Hne _ _ (dget_In Ecs)). destruct cs; [reflexivity|discriminate]. }
    rewrite Hs in Es. assert (Es' : selected_columns b = Ok (tb_cols (tm_table m))) by (destruct (dmem (ts_objs st) (n, 0)); exact Es).
    destruct b; try (rewrite Es'; reflexivity). exfalso. eapply Hraw; reflexivity.
  - apply bind_Ok in Hc. destruct Hc as (cols & _ & Hc). apply bind_Ok in Hc. destruct Hc as (u & _ & Hc). apply bind_Ok in Hc. destruct Hc as (xs & Hxs & Hc). inv Hc.
    cbn [copy_keys]. exact (proj1 (copy_columns_spec Hxs)).
Qed.
End Columns.

Lemma no_compaction_nil ccfg pt ms is_int has_autoinc compact : no_compaction ccfg ->
  get_compact_columns ccfg pt ms is_int has_autoinc = Ok compact -> compact = [].
Proof. intros (A & B & C) H. unfold get_compact_columns in H. unfold compact_listed in H. rewrite A, B, C in H. cbn in H. now injection H as <-. Qed.

Section Whole.
Context {G : Type}.
Variables (E : env G) (cfg : sampler_config) (c : db_config) (p : plan) (w : world) (pcfg : config).
Variables (ord : list string -> list string) (ordp : list tname -> list tname).
Notation db := (en_source_schema E).
Notation fnm := (en_fnm E).
Notation to := (lands (en_resub E) (oc_remap c)).
Hypothesis Hord : any_order ord.
Hypothesis Hordp : any_order ordp.
Hypothesis Hcfg : config_ok pcfg.
Hypothesis Hxv : extras_valid pcfg.
Hypothesis Hdb : db_ok db.
Hypothesis Htf : targets_fit pcfg db.
Hypothesis Hplan : plan_db ord ordp fnm pcfg db = Ok p.
Hypothesis Hsrc : source_ok id_column db (en_source E).
Hypothesis Hself : forall s, In s (dkeys (p_queries p)) -> fnm s s = true.
Hypothesis Hon : any_order (en_ord_name E).
Hypothesis Hz : forall ph n, rnd_ok (en_rnd E ph n).
Hypothesis Hrank : forall ph n ks, length (en_rank E ph n ks) = length ks.
Hypothesis Hnc : no_compaction (sc_compact cfg).

Lemma plain_runnable ms : sampler_meta fnm db (p_queries p) (sc_infer cfg) = Ok ms -> runnable id_column (en_reopen E) ms (en_source E) [] (p_queries p).
Proof.
  intros Hms. apply (whole_runnable Hdb Hord Hordp Hcfg Hxv Htf Hplan Hsrc Hself Hms); [constructor|intros n cs []|intros n x (cs & [] & _)|]. intros _ n m fk a b a' b' _ _ _ _ (cs & [] & _).
Qed.

(** The statements of the planner return differently named columns. *)
Lemma planned_columns : distinct_columns E cfg p.
Proof.
  intros ms compact st mults t co (Hms & _ & Hc & Hst) Hres. apply (no_compaction_nil Hnc) in Hc. subst compact.
  destruct (copied_columns Hon Hz Hrank (plain_runnable Hms) Hst Hres) as (_ & m & Hm & ->).
  destruct (sampler_meta_spec fnm (p_queries p) (sc_infer cfg) Hdb) as (ms' & E' & _ & B & _). rewrite Hms in E'. injection E' as <-.
  destruct (B _ _ (dget_In Hm)) as [Ht _]. exact (proj1 (proj2 (proj2 Hdb _ Ht))).
Qed.

(** The results the run copies are consistent. One foreign key. *)
Theorem plain_result t td fk n ms compact st mults co cod :
  eq_symmetric (en_cmp E) ->
  (forall n g, is_target pcfg n g -> tg_all g = true -> tg_amount g = None) ->
  In t (dkeys (p_queries p)) -> In td (dkeys (p_queries p)) -> named t n -> named td (fk_dst fk) -> considered fnm pcfg db n fk ->
  earlier_parent fnm pcfg db p n fk \/ fk_holds (en_cmp E) fk (en_source E n) (en_source E (fk_dst fk)) ->
  computed_by E cfg p ms compact st mults -> result_of E cfg p ms compact st t co -> result_of E cfg p ms compact st td cod ->
  incl (fk_cols fk) (co_cols co) /\ incl (fk_dst_cols fk) (co_cols cod) /\ fk_holds (en_cmp E) fk (co_rows co) (co_rows cod).
Proof.
  intros Hsym Hall Ht Htd Hn Hnd Hc Hsc (Hms & _ & Hcc & Hmat) Hres Hresd. apply (no_compaction_nil Hnc) in Hcc. subst compact.
  destruct (copied_columns Hon Hz Hrank (plain_runnable Hms) Hmat Hres) as (Hnc1 & m & Hmm & Hcols). destruct (copied_columns Hon Hz Hrank (plain_runnable Hms) Hmat Hresd) as (Hnc2 & md & Hmmd & Hcolsd).
  assert (En : co_name co = n) by exact (named_fun Hnc1 Hn). assert (End : co_name cod = fk_dst fk) by exact (named_fun Hnc2 Hnd).
  destruct (sampler_meta_spec fnm (p_queries p) (sc_infer cfg) Hdb) as (ms' & E' & _ & B & _). rewrite Hms in E'. injection E' as <-.
  destruct (considered_fits Hdb Hc) as (t1 & d1 & Ht1 & Hd1 & I1 & I2).
  rewrite En in Hmm. rewrite End in Hmmd. rewrite (MetadataFacts.table_of_fun Hdb Ht1 (B _ _ (dget_In Hmm))) in I1. rewrite (MetadataFacts.table_of_fun Hdb Hd1 (B _ _ (dget_In Hmmd))) in I2.
  destruct (full_run_foreign_key Hdb Hord Hordp Hcfg Hxv Htf Hplan (sc_infer cfg) Hsrc (en_cmp E) (en_text E) (en_raw E) (en_raw_cols E) (en_reopen E) (cp_start (sc_compact cfg)) (insert_order := [t; td]) Hself Hon Hz Hrank) as (ms0 & Hms0 & st0 & outs & Hex & _ & Hfk).
  { intros s [<-|[<-|[]]]; eauto. }
  rewrite Hms in Hms0. injection Hms0 as <-. unfold extract in Hex. rewrite Hmat in Hex. cbn [bind mapM] in Hex. unfold result_of in Hres, Hresd. rewrite Hres, Hresd in Hex. cbn in Hex. injection Hex as <- <-.
  specialize (Hfk Hsym Hall co cod fk (or_introl eq_refl) (or_intror (or_introl eq_refl))). rewrite En in Hfk. specialize (Hfk Hc End Hsc).
  rewrite Hcols, Hcolsd. split; [exact I1|]. split; [exact I2|exact Hfk].
Qed.

Theorem plain_results t td fk n ms compact st mults co cod :
  eq_symmetric (en_cmp E) -> source_consistent fnm pcfg db (en_cmp E) (en_source E) ->
  (forall n g, is_target pcfg n g -> tg_all g = true -> tg_amount g = None) ->
  In t (dkeys (p_queries p)) -> In td (dkeys (p_queries p)) -> named t n -> named td (fk_dst fk) -> considered fnm pcfg db n fk ->
  computed_by E cfg p ms compact st mults -> result_of E cfg p ms compact st t co -> result_of E cfg p ms compact st td cod ->
  incl (fk_cols fk) (co_cols co) /\ incl (fk_dst_cols fk) (co_cols cod) /\ fk_holds (en_cmp E) fk (co_rows co) (co_rows cod).
Proof. intros Hsym Hsc Hall Ht Htd Hn Hnd Hc. apply (plain_result Hsym Hall Ht Htd Hn Hnd Hc). right. exact (Hsc _ _ Hc). Qed.

Hypothesis Hok : run_ok E cfg c p (w_dest w).
Hypothesis Hnil : trace w = [].

Theorem destination_consistent1 truncate create g w' g' : sample E cfg p truncate create g w = (w', Ok g') ->
  oc_merge c = false -> oc_strategy c = SError -> (mc_multiplier (sc_multiplicity cfg) <= 1)%Z ->
  eq_symmetric (en_cmp E) ->
  (forall n g, is_target pcfg n g -> tg_all g = true -> tg_amount g = None) ->
  forall t td fk n n' nd', In t (dkeys (p_queries p)) -> In td (dkeys (p_queries p)) -> named t n -> named td (fk_dst fk) -> considered fnm pcfg db n fk ->
    earlier_parent fnm pcfg db p n fk \/ fk_holds (en_cmp E) fk (en_source E n) (en_source E (fk_dst fk)) ->
    goes_to (en_resub E) (oc_remap c) n n' -> goes_to (en_resub E) (oc_remap c) (fk_dst fk) nd' ->
    (exists tb, table_of (ds_tables (w_dest w')) n' tb) -> (exists tb, table_of (ds_tables (w_dest w')) nd' tb) ->
    (truncate = true \/ rows_of (w_dest w) n' = []) -> (truncate = true \/ rows_of (w_dest w) nd' = []) ->
    (forall k, In k (fk_cols fk) -> (forall f, In f (filters_of cfg t) -> ~ may_change f k) /\ en_computed E n' k = false) ->
    (forall k, In k (fk_dst_cols fk) -> (forall f, In f (filters_of cfg td) -> ~ may_change f k) /\ en_computed E nd' k = false) ->
    fk_holds (en_cmp E) fk (rows_of (w_dest w') n') (rows_of (w_dest w') nd').
Proof.
  intros Hs Hm Hst Hmu Hsym Hall t td fk n n' nd' Ht Htd Hn Hnd Hc Hsc Hg Hgd (tb & Htb) (tbd & Htbd) He Hed Hk Hkd.
  assert (Hto : to t n') by (exists n; split; assumption). assert (Htod : to td nd') by (exists (fk_dst fk); split; assumption).
  destruct (destination_holds Hok Hnil Hs Ht Hto Htb Hm Hst Hmu He) as (ms & compact & st & mults & co & (Hms & Hmu1 & Hcc & Hmat) & Hres & HF).
  destruct (destination_holds Hok Hnil Hs Htd Htod Htbd Hm Hst Hmu Hed) as (ms2 & compact2 & st2 & mults2 & cod & (Hms2 & _ & Hcc2 & Hmat2) & Hresd & HFd).
  rewrite Hms in Hms2. injection Hms2 as <-. rewrite Hcc in Hcc2. injection Hcc2 as <-. pose proof (no_compaction_nil Hnc Hcc) as E0. subst compact. pose proof Hcc as Hcc0. rewrite Hmat in Hmat2. injection Hmat2 as <-.
  destruct (@plain_result t td fk n ms [] st mults co cod Hsym Hall Ht Htd Hn Hnd Hc Hsc (conj Hms (conj Hmu1 (conj Hcc0 Hmat))) Hres Hresd) as (I1 & I2 & Hfk).
  intros row Hrow Hnn. destruct (Forall2_In_r HF Hrow) as (r & Hr & Hrr).
  assert (Heq : forall k, In k (fk_cols fk) -> rget row k = rget r k). { intros k Hi. destruct (Hk k Hi) as [A1 A2]. apply Hrr; [exact (I1 _ Hi)|exact A1|exact A2]. }
  destruct (Hfk r Hr) as (r' & Hr' & Href). { intros x Hx. rewrite <- (Heq x Hx). exact (Hnn x Hx). }
  destruct (Forall2_In_l HFd Hr') as (row' & Hrow' & Hrr'). exists row'. split; [exact Hrow'|].
  assert (Heqd : forall k, In k (fk_dst_cols fk) -> rget row' k = rget r' k). { intros k Hi. destruct (Hkd k Hi) as [A1 A2]. apply Hrr'; [exact (I2 _ Hi)|exact A1|exact A2]. }
  unfold refers in *. clear - Href Heq Heqd. induction Href as [|a b la lb (H1 & H2 & H3) _ IH]; constructor.
  - rewrite (Heq a (or_introl eq_refl)), (Heqd b (or_introl eq_refl)). auto.
  - apply IH; intros k Hk; [apply Heq|apply Heqd]; now right.
Qed.
(** C87 *)
Theorem destination_consistent truncate create g w' g' : sample E cfg p truncate create g w = (w', Ok g') ->
  oc_merge c = false -> oc_strategy c = SError -> (mc_multiplier (sc_multiplicity cfg) <= 1)%Z ->
  eq_symmetric (en_cmp E) -> source_consistent fnm pcfg db (en_cmp E) (en_source E) ->
  (forall n g, is_target pcfg n g -> tg_all g = true -> tg_amount g = None) ->
  forall t td fk n n' nd', In t (dkeys (p_queries p)) -> In td (dkeys (p_queries p)) -> named t n -> named td (fk_dst fk) -> considered fnm pcfg db n fk ->
    goes_to (en_resub E) (oc_remap c) n n' -> goes_to (en_resub E) (oc_remap c) (fk_dst fk) nd' ->
    (exists tb, table_of (ds_tables (w_dest w')) n' tb) -> (exists tb, table_of (ds_tables (w_dest w')) nd' tb) ->
    (truncate = true \/ rows_of (w_dest w) n' = []) -> (truncate = true \/ rows_of (w_dest w) nd' = []) ->
    (forall k, In k (fk_cols fk) -> (forall f, In f (filters_of cfg t) -> ~ may_change f k) /\ en_computed E n' k = false) ->
    (forall k, In k (fk_dst_cols fk) -> (forall f, In f (filters_of cfg td) -> ~ may_change f k) /\ en_computed E nd' k = false) ->
    fk_holds (en_cmp E) fk (rows_of (w_dest w') n') (rows_of (w_dest w') nd').
Proof.
  intros Hs Hm Hst Hmu Hsym Hsc Hall t td fk n n' nd' Ht Htd Hn Hnd Hc. apply (destination_consistent1 Hs Hm Hst Hmu Hsym Hall Ht Htd Hn Hnd Hc). right. exact (Hsc _ _ Hc).
Qed.
End Whole.

Section Packed.
Context {G : Type}.
Variables (E : env G) (cfg : sampler_config) (c : db_config) (p : plan) (w : world).

Theorem plain_destination truncate create g w' g' t n' tb :
  run_ok E cfg c p (w_dest w) -> trace w = [] -> plain_run cfg c -> sample E cfg p truncate create g w = (w', Ok g') ->
  In t (dkeys (p_queries p)) -> lands (en_resub E) (oc_remap c) t n' -> table_of (ds_tables (w_dest w')) n' tb -> starts_empty (w_dest w) truncate n' ->
  exists ms compact st mults co, computed_by E cfg p ms compact st mults /\ result_of E cfg p ms compact st t co /\
    Forall2 (fun r row => forall k, In k (co_cols co) -> untouched_column E cfg t n' k -> rget row k = rget r k) (co_rows co) (rows_of (w_dest w') n').
Proof.
  intros Hok Hnil (A & B & C) Hs Ht Hto Htb He. destruct (destination_holds Hok Hnil Hs Ht Hto Htb A B C He) as (ms & compact & st & mults & co & H1 & H2 & H3).
  exists ms, compact, st, mults, co. split; [exact H1|]. split; [exact H2|]. eapply OutputKeys.Forall2_impl2; [|exact H3]. intros r row H k Hk [U1 U2]. exact (H k Hk U1 U2).
Qed.
Theorem planned_distinct pcfg : env_ok E -> planned_by E p pcfg -> no_compaction (sc_compact cfg) -> distinct_columns E cfg p.
Proof.
  intros (A1 & A2 & A3) (B1 & B2 & B3 & B4 & (ord & ordp & B5 & B6 & B7) & B8 & B9) Hnc. exact (planned_columns B5 B6 B1 B2 B3 B4 B7 B8 B9 A1 A2 A3 Hnc).
Qed.
Theorem consistent pcfg truncate create g w' g' :
  env_ok E -> planned_by E p pcfg -> no_compaction (sc_compact cfg) -> run_ok E cfg c p (w_dest w) -> trace w = [] -> plain_run cfg c ->
  sample E cfg p truncate create g w = (w', Ok g') ->
  eq_symmetric (en_cmp E) -> source_consistent (en_fnm E) pcfg (en_source_schema E) (en_cmp E) (en_source E) ->
  (forall n g, is_target pcfg n g -> tg_all g = true -> tg_amount g = None) ->
  forall t td fk n n' nd', In t (dkeys (p_queries p)) -> In td (dkeys (p_queries p)) -> named t n -> named td (fk_dst fk) ->
    considered (en_fnm E) pcfg (en_source_schema E) n fk ->
    goes_to (en_resub E) (oc_remap c) n n' -> goes_to (en_resub E) (oc_remap c) (fk_dst fk) nd' ->
    (exists tb, table_of (ds_tables (w_dest w')) n' tb) -> (exists tb, table_of (ds_tables (w_dest w')) nd' tb) ->
    starts_empty (w_dest w) truncate n' -> starts_empty (w_dest w) truncate nd' ->
    (forall k, In k (fk_cols fk) -> untouched_column E cfg t n' k) -> (forall k, In k (fk_dst_cols fk) -> untouched_column E cfg td nd' k) ->
    fk_holds (en_cmp E) fk (rows_of (w_dest w') n') (rows_of (w_dest w') nd').
Proof.
  intros (A1 & A2 & A3) (B1 & B2 & B3 & B4 & (ord & ordp & B5 & B6 & B7) & B8 & B9) Hnc Hok Hnil (C1 & C2 & C3) Hs D1 D2 D3.
  exact (destination_consistent B5 B6 B1 B2 B3 B4 B7 B8 B9 A1 A2 A3 Hnc Hok Hnil Hs C1 C2 C3 D1 D2 D3).
Qed.
(** One foreign key: either the referenced table is sampled first, or the source has the referenced rows. *)
Theorem consistent1 pcfg truncate create g w' g' :
  env_ok E -> planned_by E p pcfg -> no_compaction (sc_compact cfg) -> run_ok E cfg c p (w_dest w) -> trace w = [] -> plain_run cfg c ->
  sample E cfg p truncate create g w = (w', Ok g') ->
  eq_symmetric (en_cmp E) ->
  (forall n g, is_target pcfg n g -> tg_all g = true -> tg_amount g = None) ->
  forall t td fk n n' nd', In t (dkeys (p_queries p)) -> In td (dkeys (p_queries p)) -> named t n -> named td (fk_dst fk) ->
    considered (en_fnm E) pcfg (en_source_schema E) n fk ->
    earlier_parent (en_fnm E) pcfg (en_source_schema E) p n fk \/ fk_holds (en_cmp E) fk (en_source E n) (en_source E (fk_dst fk)) ->
    goes_to (en_resub E) (oc_remap c) n n' -> goes_to (en_resub E) (oc_remap c) (fk_dst fk) nd' ->
    (exists tb, table_of (ds_tables (w_dest w')) n' tb) -> (exists tb, table_of (ds_tables (w_dest w')) nd' tb) ->
    starts_empty (w_dest w) truncate n' -> starts_empty (w_dest w) truncate nd' ->
    (forall k, In k (fk_cols fk) -> untouched_column E cfg t n' k) -> (forall k, In k (fk_dst_cols fk) -> untouched_column E cfg td nd' k) ->
    fk_holds (en_cmp E) fk (rows_of (w_dest w') n') (rows_of (w_dest w') nd').
Proof.
  intros (A1 & A2 & A3) (B1 & B2 & B3 & B4 & (ord & ordp & B5 & B6 & B7) & B8 & B9) Hnc Hok Hnil (C1 & C2 & C3) Hs D1 D2.
  exact (destination_consistent1 B5 B6 B1 B2 B3 B4 B7 B8 B9 A1 A2 A3 Hnc Hok Hnil Hs C1 C2 C3 D1 D2).
Qed.
End Packed.
