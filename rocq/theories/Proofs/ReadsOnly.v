(** A run reads only the source tables its plan mentions (C123). *)
From Coq Require Import Lia.
From Verif Require Import Model.Base Model.Solver Model.Value Model.Names Model.PlanModel Spec.SqlSem Model.SqlAlgebra Model.PlanBuild
  Model.Metadata Model.Planner Model.Materialize Model.Dest Model.Output Model.Sampler.
From Verif Require Import Spec.GraphSpec Spec.SchemaSpec Spec.PlannerSpec Spec.SampleSpec Spec.HiddenSpec Spec.WholeSpec Spec.LiveSpec Spec.ReadsSpec.
From Verif Require Import Proofs.BaseFacts Proofs.NameFacts Proofs.GraphFacts Proofs.BuildFacts Proofs.BuildRefs Proofs.MaterializeRun Proofs.PlanRun Proofs.Hidden Proofs.LiveFk.
Set Implicit Arguments.
Unset Strict Implicit.

(** induction on statements *)
Section Ind.
Variables (PC : sqlc -> Prop) (PQ : query -> Prop).
Hypothesis (Htrue : PC QTrue) (Hfalse : PC QFalse) (Hcmp : forall o c v, PC (QCmp o c v)) (Hnot : forall c, PC c -> PC (QNot c))
  (Hvals : forall cs vs, PC (QInVals cs vs)) (Hin : forall cs q, PQ q -> PC (QIn cs q)) (Hand : forall l, Forall PC l -> PC (QAnd l))
  (Hor : forall l, Forall PC l -> PC (QOr l)) (Hrnd : forall q, PC (QRandom q)) (Htext : forall s ps, PC (QText s ps))
  (Hex : forall t on, PC (QExists t on)) (Hnn : forall a c, PC (QNotNull a c)).
Hypothesis (Hsel : forall cs f gb ws lim, Forall PC ws -> PQ (QSelect cs f gb ws lim)) (Huni : forall l, Forall PQ l -> PQ (QUnion l))
  (Hraw : forall s ps, PQ (QRaw s ps)).
Fixpoint sqlc_all (c : sqlc) : PC c :=
  let conds := fix go (l : list sqlc) : Forall PC l := match l with [] => Forall_nil _ | c :: l' => Forall_cons _ (sqlc_all c) (go l') end in
  match c with
  | QTrue => Htrue | QFalse => Hfalse | QCmp o c v => Hcmp o c v | QNot c => Hnot (sqlc_all c) | QInVals cs vs => Hvals cs vs
  | QIn cs q => Hin cs (query_all q) | QAnd l => Hand (conds l) | QOr l => Hor (conds l) | QRandom q => Hrnd q | QText s ps => Htext s ps
  | QExists t on => Hex t on | QNotNull a c => Hnn a c
  end
with query_all (q : query) : PQ q :=
  let conds := fix go (l : list sqlc) : Forall PC l := match l with [] => Forall_nil _ | c :: l' => Forall_cons _ (sqlc_all c) (go l') end in
  match q with
  | QSelect cs f gb ws lim => Hsel cs f gb lim (conds ws)
  | QUnion l => Huni ((fix go (l : list query) : Forall PQ l := match l with [] => Forall_nil _ | q :: l' => Forall_cons _ (query_all q) (go l') end) l)
  | QRaw s ps => Hraw s ps
  end.
End Ind.

(** a statement sees only the tables it refers to *)
Section Eval.
Variables (rows rows' : tref -> list row) (cmpf : cmpop -> value -> value -> bool) (textf : string -> option (dict string lit) -> row -> tv)
  (rawf : string -> option (dict string lit) -> list row) (z : rnd).
Notation d := (mkDb rows cmpf textf rawf).
Notation d' := (mkDb rows' cmpf textf rawf).
Definition agree (refs : list tref) : Prop := forall t, In t refs -> rows' t = rows t.
Lemma agree_app a b : agree (a ++ b) -> agree a /\ agree b.
Proof. intros H. split; intros t Ht; apply H; apply in_or_app; auto. Qed.
Lemma agree_concat {A} (f : A -> list tref) l x : agree (concat (map f l)) -> In x l -> agree (f x).
Proof. intros H Hx t Ht. apply H. apply in_concat. exists (f x). split; [apply in_map; exact Hx|exact Ht]. Qed.

Lemma from_sees f : agree (from_refs f) -> eval_from d' f = eval_from d f.
Proof.
  induction f as [t|l IH a t on o]; intros H; cbn [eval_from from_refs] in *.
  - cbn [db_rows]. rewrite (H (t_ref t) (or_introl eq_refl)). reflexivity.
  - apply agree_app in H. destruct H as [H1 H2]. rewrite (IH H1). cbn [db_rows]. rewrite (H2 (t_ref t) (or_introl eq_refl)). reflexivity.
Qed.
Definition c_sees (c : sqlc) : Prop := agree (cond_refs c) -> forall jr, eval_c d' z jr c = eval_c d z jr c.
Definition q_sees (q : query) : Prop := agree (query_refs q) -> eval_query d' z q = eval_query d z q.
Lemma conds_sees l : Forall c_sees l -> agree (concat (map cond_refs l)) -> forall jr, map (eval_c d' z jr) l = map (eval_c d z jr) l.
Proof. intros HF H jr. apply map_ext_in. intros c Hc. exact (proj1 (Forall_forall _ _) HF c Hc (agree_concat H Hc) jr). Qed.
Theorem query_sees q : q_sees q.
Proof.
  apply (@query_all c_sees q_sees); unfold c_sees, q_sees; try (intros; reflexivity).
  - intros c IH H jr. cbn [eval_c cond_refs] in *. rewrite (IH H jr). reflexivity.
  - intros cs q0 IH H jr. cbn [eval_c cond_refs] in *. rewrite (IH H). reflexivity.
  - intros l IH H jr. cbn [eval_c cond_refs] in *. rewrite (conds_sees IH H). reflexivity.
  - intros l IH H jr. cbn [eval_c cond_refs] in *. rewrite (conds_sees IH H). reflexivity.
  - intros t on H jr. cbn [eval_c cond_refs db_rows] in *. rewrite (H (t_ref t) (or_introl eq_refl)). reflexivity.
  - intros cs f gb ws lim IH H. cbn [eval_query query_refs] in *. apply agree_app in H. destruct H as [H1 H2]. rewrite (from_sees H1).
    replace (filter (fun jr => forallb (fun c => is_true (eval_c d' z jr c)) ws) (eval_from d f))
      with (filter (fun jr => forallb (fun c => is_true (eval_c d z jr c)) ws) (eval_from d f)); [reflexivity|].
    apply filter_ext. intros jr. pose proof (conds_sees IH H2 jr) as E. revert E. clear. induction ws as [|c ws IH]; intros E; [reflexivity|]. cbn [forallb map] in *. injection E as E1 E2.
    rewrite E1, (IH E2). reflexivity.
  - intros l IH H. cbn [eval_query query_refs] in *. f_equal. f_equal. apply map_ext_in. intros q0 Hq. exact (proj1 (Forall_forall _ _) IH q0 Hq (agree_concat H Hq)).
Qed.
End Eval.

(** the statements of a run *)
Section Run.
Variables (source source' : tname -> list row) (cmpf : cmpop -> value -> value -> bool)
          (textf : string -> option (dict string lit) -> row -> tv)
          (rawf : string -> option (dict string lit) -> list row) (raw_cols : string -> option (dict string lit) -> list string)
          (z : phase -> tname -> rnd) (rank : phase -> tname -> list (list value) -> list nat) (reopen : bool)
          (ms : meta) (compact : dict tname (list string)) (start : Z) (queries : dict string table_query).
Hypothesis Hms : meta_ok ms.
Hypothesis Hsrc : forall n, mentions_source queries n -> source' n = source n.
Notation tdb := (temp_db source cmpf textf rawf).
Notation tdb' := (temp_db source' cmpf textf rawf).
Notation mat1 := (materialize_one source cmpf textf rawf z rank reopen ms compact start).
Notation mat1' := (materialize_one source' cmpf textf rawf z rank reopen ms compact start).

Definition temps (st : tstate) : Prop := forall k t, dget (ts_objs st) k = Some t -> t_ref t = TTemp (fst k) (snd k).

Lemma calls_refs st q : temps st -> forall ids, (forall id, In id ids -> In id (query_ids q)) -> forall c ts c', call_all (build_ctx reopen ms st) ids c = Ok (ts, c') ->
  forall n, In (TSource n) (map t_ref ts) -> exists id, In id (query_ids q) /\ i_sampled id = false /\ i_name id = n.
Proof.
  intros Ht. induction ids as [|id ids IH]; intros Hi c ts c' H n Hn; cbn [call_all] in H; [inv H; destruct Hn|].
  apply bind_Ok in H. destruct H as ([t c1] & H1 & H). apply bind_Ok in H. destruct H as ([ts1 c2] & H2 & H). inv H. destruct Hn as [E|Hn].
  - destruct (ctx_inv H1) as [(_ & i & Hd & _)|(Hs & _ & m & Hm & ->)].
    + rewrite (Ht _ _ Hd) in E. discriminate.
    + cbn [table_obj t_ref] in E. inv E. exists id. split; [apply Hi; left; reflexivity|]. split; [exact Hs|]. symmetry. exact (meta_name Hms Hm).
  - refine (IH _ _ _ _ H2 n Hn). intros x Hx. apply Hi. right. exact Hx.
Qed.
Lemma built_sees st s q b c zz : temps st -> In (s, q) queries -> build_query (build_ctx reopen ms st) q [] = Ok (b, c) -> eval_query (tdb' st) zz b = eval_query (tdb st) zz b.
Proof.
  intros Ht Hq Hb. apply build_query_calls in Hb. destruct Hb as (ts & Hc & HP). unfold temp_db. apply query_sees. intros t Hin. destruct t as [n|n i]; [|reflexivity].
  apply Hsrc. apply (Permutation_in _ HP) in Hin. destruct (calls_refs Ht (fun id H => H) Hc Hin) as (id & H1 & H2 & H3). exists s, q, id. auto.
Qed.
Lemma create_temps st n idx cols pk rows refs st' : temps st -> create_temp st n idx cols pk rows refs = Ok st' -> temps st'.
Proof.
  intros Ht H. destruct (create_Ok H) as (E & _). intros k t Hk. rewrite E, dget_dset in Hk. destruct (eq_dec k (n, idx)) as [->|]; [inv Hk; reflexivity|exact (Ht _ _ Hk)].
Qed.
Lemma copies_temps n pk l : forall st st', temps st ->
  forM (fun st index =>
          let* t := dfind SxKeyError (ts_objs st) (n, 0) in
          create_temp st n index (t_cols t) pk (dget_or (ts_data st) (n, 0) []) [t_ref t]) l st = Ok st' -> temps st'.
Proof.
  induction l as [|i l IH]; intros st st' Ht H; cbn [forM] in H; [inv H; exact Ht|]. apply bind_Ok in H. destruct H as (st1 & H1 & H).
  apply bind_Ok in H1. destruct H1 as (t & _ & H1). exact (IH _ _ (create_temps Ht H1) H).
Qed.
Lemma mat1_sees st nc : temps st -> mat1' queries st nc = mat1 queries st nc /\ (forall st', mat1 queries st nc = Ok st' -> temps st').
Proof.
  intros Ht. destruct nc as [n cnt]. unfold materialize_one. destruct (dfind SxKeyError ms n) as [m|]; cbn [bind]; [|split; [reflexivity|discriminate]].
  destruct (dfind SxKeyError queries (render n)) as [q|] eqn:Eq; cbn [bind]; [|split; [reflexivity|discriminate]]. apply dfind_Ok in Eq. apply dget_In in Eq.
  destruct (build_query (sql_build_context ms (ts_objs st) reopen) q []) as [[b c]|] eqn:Eb; cbn [lift_build bind]; [|split; [reflexivity|discriminate]].
  pose proof (built_sees (z PMaterialize n) Ht Eq Eb) as Es. unfold temp_db in Es. unfold temp_db. rewrite Es. split; [reflexivity|]. intros st' H.
  destruct (selected_columns b) as [cols|]; cbn [bind] in H; [|discriminate]. apply bind_Ok in H. destruct H as (st1 & H1 & H).
  assert (Ht1 : temps st1). { destruct (dmem compact n); [apply bind_Ok in H1; destruct H1 as (u & _ & H1)|]; exact (create_temps Ht H1). }
  destruct reopen; [inv H; exact Ht1|]. exact (copies_temps Ht1 H).
Qed.
Lemma mats_sees order : forall st, temps st -> forM (mat1' queries) order st = forM (mat1 queries) order st /\ (forall st', forM (mat1 queries) order st = Ok st' -> temps st').
Proof.
  induction order as [|nc order IH]; intros st Ht; cbn [forM]; [split; [reflexivity|intros st' H; inv H; exact Ht]|].
  destruct (mat1_sees nc Ht) as [-> Hn]. destruct (mat1 queries st nc) as [st1|] eqn:E; cbn [bind]; [|split; [reflexivity|discriminate]]. exact (IH _ (Hn _ eq_refl)).
Qed.
Lemma materialize_sees ord : materialize_tables source' cmpf textf rawf z rank reopen ms compact start ord queries = materialize_tables source cmpf textf rawf z rank reopen ms compact start ord queries /\
  (forall st, materialize_tables source cmpf textf rawf z rank reopen ms compact start ord queries = Ok st -> temps st).
Proof.
  unfold materialize_tables. destruct (materialization_order ord ms compact queries) as [order|]; cbn [bind]; [|split; [reflexivity|discriminate]].
  apply mats_sees. intros k t H. discriminate H.
Qed.

Lemma row_sees st id r cols : (forall c t s e, In (c, FromRemote t s e) cols -> exists n i, t_ref t = TTemp n i) ->
  copy_row source' cmpf textf rawf st id r cols = copy_row source cmpf textf rawf st id r cols.
Proof.
  induction cols as [|[c x] cols IH]; intros H; [reflexivity|]. cbn [copy_row]. rewrite IH; [|intros c0 t s e Hc; exact (H c0 t s e (or_intror Hc))].
  destruct x as [c0| |t s e]; try reflexivity. destruct (H c t s e (or_introl eq_refl)) as (n & i & E). unfold remote_values. cbn [temp_db db_rows]. rewrite E. reflexivity.
Qed.
Lemma columns_temps st cols ccols remote l : temps st -> forall counts xs, copy_columns reopen ms st cols ccols remote counts l = Ok xs ->
  forall c t s e, In (c, FromRemote t s e) xs -> exists n i, t_ref t = TTemp n i.
Proof.
  intros Ht. induction l as [|c l IH]; intros counts xs H; cbn [copy_columns] in H; [inv H; intros c t s e []|].
  apply bind_Ok in H. destruct H as ([x counts1] & Hx & H). apply bind_Ok in H. destruct H as (xs1 & Hxs & H). inv H. intros c0 t s e [E|Hin]; [|exact (IH _ _ Hxs _ _ _ _ Hin)]. inv E.
  unfold copy_column in Hx. destruct (memb c0 ccols); [inv Hx|]. destruct (dget remote c0) as [[d0 dc]|].
  - apply bind_Ok in Hx. destruct Hx as ([t1 counts2] & Hb & Hx). apply bind_Ok in Hx. destruct Hx as (u1 & _ & Hx). apply bind_Ok in Hx. destruct Hx as (u2 & _ & Hx).
    apply bind_Ok in Hx. destruct Hx as (u3 & _ & Hx). inv Hx.
    destruct (build_ctx reopen ms st (mkIdent (fst d0) (snd d0) true) counts) as [[t2 counts3]|] eqn:Eb; [|discriminate]. inv Hb.
    destruct (ctx_inv Eb) as [(_ & i & Hd & _)|(Hs & _)]; [|discriminate]. rewrite (Ht _ _ Hd). eauto.
  - apply bind_Ok in Hx. destruct Hx as (u1 & _ & Hx). inv Hx.
Qed.
Lemma copy_sees st table : temps st ->
  copy_table source' cmpf textf rawf raw_cols z rank reopen ms compact start st queries table = copy_table source cmpf textf rawf raw_cols z rank reopen ms compact start st queries table.
Proof.
  intros Ht. unfold copy_table. destruct (parse table) as [n|]; cbn [bind]; [|reflexivity]. destruct (dget queries table) as [q|] eqn:Eq; [|reflexivity]. apply dget_In in Eq.
  destruct (copy_statement reopen ms compact st n q) as [c|] eqn:Ec; cbn [bind]; [|reflexivity]. do 3 f_equal.
  unfold copy_statement in Ec. apply bind_Ok in Ec. destruct Ec as ([b counts] & Hb & Ec).
  assert (Es : forall zz, eval_query (tdb' st) zz b = eval_query (tdb st) zz b).
  { intros zz. destruct (dget (ts_objs st) (n, 0)) as [t|] eqn:Eo.
    - inv Hb. unfold temp_db. apply query_sees. intros t0 [<-|[]]. rewrite (Ht _ _ Eo). reflexivity.
    - destruct (build_query (build_ctx reopen ms st) q []) as [[b0 c0]|] eqn:Eb; [|discriminate]. inv Hb. exact (built_sees zz Ht Eq Eb). }
  apply bind_Ok in Ec. destruct Ec as (m & Hm & Ec).
  destruct (is_nil (remote_compact compact m) && is_nil (dget_or compact n [])).
  - inv Ec. exact (Es _).
  - apply bind_Ok in Ec. destruct Ec as (cols & _ & Ec). apply bind_Ok in Ec. destruct Ec as (u & _ & Ec). apply bind_Ok in Ec. destruct Ec as (xs & Hxs & Ec). inv Ec.
    cbn [copy_rows]. rewrite Es. apply flat_map_ext. intros vr. apply row_sees. exact (columns_temps Ht Hxs).
Qed.
End Run.

(** the whole run *)
Section Whole.
Context {G : Type}.
Variables (E : env G) (cfg : sampler_config) (p : plan) (src : tname -> list row).
Hypothesis Hdb : db_ok (en_source_schema E).
Hypothesis Hsrc : forall n, mentions_source (p_queries p) n -> src n = en_source E n.

Theorem reads_same truncate create g w : sample (with_source E src) cfg p truncate create g w = sample E cfg p truncate create g w.
Proof.
  revert w. change (same (sample (with_source E src) cfg p truncate create g) (sample E cfg p truncate create g)). unfold sample.
  cbn [with_source en_filters en_fnm en_source_schema en_src_int en_ord_str en_src_autoinc en_source en_cmp en_text en_raw en_rnd en_rank en_reopen en_ord_name].
  destruct (sampler_meta_spec (en_fnm E) (p_queries p) (sc_infer cfg) Hdb) as (ms & Ems & Hms & _). rewrite Ems.
  apply same_lift. intros ms0 E0. cbn in E0. injection E0 as <-. apply same_bind_l. intros u. apply same_bind_l. intros mults. apply same_bind; [apply same_refl|].
  intros o. apply same_bind; [apply same_refl|]. intros o'. apply same_bind; [apply same_refl|]. intros order. apply same_bind; [apply same_refl|]. intros u'.
  apply same_bind; [apply same_refl|]. intros o2. apply same_bind_l. intros compact.
  destruct (@materialize_sees (en_source E) src (en_cmp E) (en_text E) (en_raw E) (en_rnd E) (en_rank E) (en_reopen E) ms compact (cp_start (sc_compact cfg)) (p_queries p) Hms Hsrc (en_ord_name E)) as [-> Ht].
  apply same_lift. intros st Hst. assert (Hts : temps st). { apply Ht. destruct (materialize_tables _ _ _ _ _ _ _ _ _ _ _ _); cbn [of_samp] in Hst; [congruence|discriminate]. }
  unfold copy_results. refine (same_for (P := eq) _ _ _). { clear. induction order; constructor; auto. }
  intros g0 table b <-. unfold copy_one.
  cbn [with_source en_filters en_source en_cmp en_text en_raw en_raw_cols en_rnd en_rank en_reopen].
  rewrite (@copy_sees (en_source E) src (en_cmp E) (en_text E) (en_raw E) (en_raw_cols E) (en_rnd E) (en_rank E) (en_reopen E) ms compact (cp_start (sc_compact cfg)) (p_queries p) Hms Hsrc st table Hts).
  apply same_bind_l. intros [c|]; apply same_refl.
Qed.
End Whole.

(** the planner's plans: every query reads its own table only *)
Theorem planned_reads_same {G} (E : env G) (cfg : sampler_config) (p : plan) (pcfg : config) (src : tname -> list row) :
  planned_by E p pcfg -> (forall n, planned p n -> src n = en_source E n) ->
  forall truncate create g w, sample (with_source E src) cfg p truncate create g w = sample E cfg p truncate create g w.
Proof.
  intros (Hc & Hx & Hdb & Ht & (ord & ordp & Ho & Hop & Hp) & _ & Hself) Hsrc. apply reads_same; [exact Hdb|].
  destruct (planned_queries Hdb Ho Hop Hc Hx Ht Hp Hself) as (HQ & _ & Hown). intros n (s & q & id & Hin & Hid & Hs & <-).
  assert (Hk : In s (dkeys (p_queries p))) by (apply in_map_iff; exists (s, q); auto). destruct (proj2 HQ s Hk) as (n & Hn).
  rewrite (proj2 (Hown _ _ _ Hin Hn) _ Hid Hs). apply Hsrc. exists s. auto.
Qed.
