(** Runs that pass all the checks made before anything is written. *)
From Coq Require Import Lia Relations.
From Verif Require Import Model.Base Model.Value Model.Names Model.PlanModel Model.SqlAlgebra Model.PlanBuild Model.Metadata Model.Planner Model.Filters Model.Multiply Model.Materialize Model.Dest Model.Output Model.Sampler.
From Verif Require Import Spec.GraphSpec Spec.SchemaSpec Spec.SqlSem Spec.PlannerSpec Spec.FilterSpec Spec.OutputSpec Spec.RunSpec Spec.SampleSpec Spec.WholeSpec Spec.CompactWholeSpec Spec.CompleteSpec Spec.FinishSpec.
From Verif Require Import Proofs.BaseFacts Proofs.NameFacts Proofs.MetadataFacts Proofs.PlanRun Proofs.OutputRows Proofs.OutputRun Proofs.OutputDb Proofs.OutputCreate Proofs.OutputMain Proofs.WholeFk Proofs.WholeCompact Proofs.CompleteRun.
From Verif Require Import Model.Dest.
Set Implicit Arguments. Unset Strict Implicit.
Open Scope list_scope.
#[local] Arguments rn_names {id reopen ms source compact queries} _.
#[local] Arguments rn_fits {id reopen ms source compact queries} _ [s q n] _ _.

Section Start.
Context {G : Type}.
Variables (E : env G) (cfg : sampler_config) (p : plan) (pcfg : config) (ms : meta) (compact : dict tname (list string)) (c : db_config).
Hypothesis Hords : any_order (en_ord_str E).
Hypothesis Hpl : planned_by E p pcfg.
Hypothesis Hrn : renumbers E cfg p ms compact.
Notation queries := (dkeys (p_queries p)).
Notation landing := (lands (en_resub E) (oc_remap c)).
Notation becomes := (goes_to (en_resub E) (oc_remap c)).
Hypothesis Hplaced : placed E c p.

Lemma remap_total : exists rm, table_remap (en_resub E) c queries = Ok rm.
Proof.
  unfold table_remap. destruct Hplaced as [Hex Hinj].
  assert (Hgo : forall qs d, incl qs queries -> (forall k t, dget d k = Some t -> In t queries /\ maps (en_resub E) c t k) ->
    exists rm, forM (remap_step (en_resub E) c) qs d = Ok rm); [|exact (Hgo queries [] (incl_refl _) ltac:(intros k t F; discriminate F))].
  induction qs as [|t qs IH]; intros d Hq Hd; cbn [forM]; [eauto|]. assert (Ht : In t queries) by (apply Hq; left; reflexivity). destruct (Hex t Ht) as (n' & n & Hn & Hg).
  assert (Hs : exists d1, remap_step (en_resub E) c d t = Ok d1 /\ forall k s, dget d1 k = Some s -> In s queries /\ maps (en_resub E) c s k).
  { unfold remap_step, parse_name. rewrite (proj2 (parse_named _ _) Hn). cbn [bind]. assert (Hr := proj2 (remap_goes _ _ _ _) Hg). rewrite Hr. cbn [bind].
    assert (Hmaps : maps (en_resub E) c t (render n')) by (exists n, n'; auto). destruct (dget d (render n')) as [s|] eqn:Hk.
    - destruct (Hd _ _ Hk) as (Hs & m & m' & Hm & Hgm & Hrend). assert (m' = n') by (apply render_inj; [exact (goes_dot Hgm)|exact (goes_dot Hg)|now symmetry]). subst m'.
      assert (s = t) by (apply (Hinj s t n' Hs Ht); [exists m; auto|exists n; auto]). subst s. rewrite (proj2 (eqb_true _ _) eq_refl). eauto.
    - eexists. split; [reflexivity|]. intros k s Hx. destruct (eq_dec (render n') k) as [<-|Hne]; [rewrite dget_dset_eq in Hx; injection Hx as <-; auto|rewrite dget_dset_ne in Hx by congruence; exact (Hd k s Hx)]. }
  destruct Hs as (d1 & Hs & Hd1). rewrite Hs. cbn [bind]. apply IH; [intros x Hx; apply Hq; right; exact Hx|exact Hd1].
Qed.
Lemma init_total d : db_ok (ds_tables d) -> exists o, db_init (en_fnm E) (en_resub E) c d queries = Ok o.
Proof.
  intros Hdb. unfold db_init. destruct remap_total as (rm & Hrm). rewrite Hrm. cbn [bind]. destruct (from_engine_spec (en_fnm E) (dkeys rm) false true Hdb) as (m & extra & Hf & _). rewrite Hf. cbn [of_meta bind]. eauto.
Qed.

Lemma planned_meta t n : In t queries -> named t n -> exists sm, dget ms n = Some sm /\ table_of (en_source_schema E) n (tm_table sm).
Proof.
  intros Ht Hn. assert (HR := renumbered_runnable Hpl Hrn). destruct (key_dget Ht) as (q & Hq). destruct (rn_fits HR (dget_In Hq) Hn) as [Hkey _]. destruct (key_dget Hkey) as (sm & Hsm).
  exists sm. split; [exact Hsm|]. exact (proj1 (proj2 (meta_tables Hpl Hrn)) _ _ (dget_In Hsm)).
Qed.

Section Create.
Variables (d : dest) (o : db_output).
Hypothesis Hk : tracked (en_resub E) c queries (ds_tables d) o.
Hypothesis Hcreat : creatable E c p d.

(** The table that [s] is copied to, as far as [create] knows it. *)
Definition object (s : string) (t : table) : Prop :=
  forall n n', named s n -> becomes n n' -> match dget (ou_meta o) n' with Some m => t = tm_table m | None => exists sm, dget ms n = Some sm /\ tb_cols t = tb_cols (tm_table sm) /\ tb_name t = n' end.
Definition made (x : string * (table * table)) : Prop :=
  exists n n' sm, In (fst x) queries /\ named (fst x) n /\ becomes n n' /\ dget (ou_meta o) n' = None /\ dget ms n = Some sm /\ snd (snd x) = tm_table sm.

Lemma new_total : exists objs cr, new_tables o ms = Ok (objs, cr) /\ (forall s t, dget objs s = Some t -> object s t) /\ (forall s, In s queries -> exists t, dget objs s = Some t) /\ Forall made cr.
Proof.
  unfold new_tables. destruct (remap_spec (tk_remap Hk)) as (Hnd & Hrd).
  set (step := fun (acc : dict string table * list (string * (table * table))) (rt : string * string) => _).
  assert (Hgo : forall l objs0 cr0, incl l (ou_remap o) -> (forall s t, dget objs0 s = Some t -> object s t) -> Forall made cr0 ->
    exists objs cr, forM step l (objs0, cr0) = Ok (objs, cr) /\ (forall s t, dget objs s = Some t -> object s t) /\
      (forall s, dget objs0 s <> None \/ In s (map snd l) -> dget objs s <> None) /\ Forall made cr).
  { induction l as [|[k s] l IH]; intros objs0 cr0 Hl Ho Hc; cbn [forM].
    { exists objs0, cr0. split; [reflexivity|]. split; [exact Ho|]. split; [|exact Hc]. intros s [Hs|[]]. exact Hs. }
    assert (Hks := In_dget Hnd (Hl _ (or_introl eq_refl))). apply Hrd in Hks. destruct Hks as (Hs & n & n' & Hn & Hg & ->). destruct (planned_meta Hs Hn) as (sm & Hsm & _).
    assert (Hstep : exists t cr1, step (objs0, cr0) (render n', s) = Ok (dset objs0 s t, cr1) /\ object s t /\ Forall made cr1).
    { unfold step. cbn [fst snd]. unfold parse_name. assert (Hpn := proj2 (parse_named _ _) (named_render (goes_dot Hg))). rewrite Hpn. cbn [bind]. destruct (dget (ou_meta o) n') as [m|] eqn:Hm.
      - exists (tm_table m), cr0. split; [reflexivity|]. split; [|exact Hc]. intros n1 n1' H1 H2. rewrite (named_fun H1 Hn) in H2. rewrite (goes_fun H2 Hg). rewrite Hm. reflexivity.
      - rewrite (proj2 (parse_named _ _) Hn). cbn [bind]. unfold find_key, dfind. rewrite Hsm. cbn [bind]. eexists _, _. split; [reflexivity|]. split.
        + intros n1 n1' H1 H2. rewrite (named_fun H1 Hn) in *. rewrite (goes_fun H2 Hg). rewrite Hm. exists sm. auto.
        + apply Forall_app. split; [exact Hc|]. constructor; [|constructor]. exists n, n', sm. auto 8. }
    destruct Hstep as (t & cr1 & Hst & Hot & Hc1). rewrite Hst. cbn [bind].
    destruct (IH (dset objs0 s t) cr1) as (objs & cr & Hf & H1 & H2 & H3).
    - intros x Hx. apply Hl. right. exact Hx.
    - intros s1 t1 Hd. destruct (eq_dec s s1) as [<-|Hne]; [rewrite dget_dset_eq in Hd; injection Hd as <-; exact Hot|rewrite dget_dset_ne in Hd by congruence; exact (Ho s1 t1 Hd)].
    - exact Hc1.
    - exists objs, cr. split; [exact Hf|]. split; [exact H1|]. split; [|exact H3]. intros s1 Hs1. apply H2. destruct (eq_dec s s1) as [<-|Hne]; [left; rewrite dget_dset_eq; discriminate|].
      rewrite dget_dset_ne by congruence. destruct Hs1 as [Hs1|[Hs1|Hs1]]; [left; exact Hs1|cbn in Hs1; congruence|right; exact Hs1]. }
  destruct (Hgo (ou_remap o) [] [] (incl_refl _)) as (objs & cr & Hf & H1 & H2 & H3); [intros s t F; discriminate F|constructor|].
  exists objs, cr. split; [exact Hf|]. split; [exact H1|]. split; [|exact H3]. intros s Hs. destruct (dget objs s) as [t|] eqn:Hd; [eauto|]. exfalso. apply (H2 s); [right|exact Hd].
  destruct (proj1 Hplaced s Hs) as (n' & n & Hn & Hg). assert (Hx : dget (ou_remap o) (render n') = Some s) by (apply Hrd; split; [exact Hs|]; exists n, n'; auto).
  apply in_map_iff. exists (render n', s). split; [reflexivity|exact (dget_In Hx)].
Qed.

Lemma remap_cols_total objs s n cs t : named s n -> dget objs s = Some t -> incl cs (tb_cols t) -> exists x, remap_cols objs n cs = Ok x.
Proof.
  intros Hn Hd Hi. unfold remap_cols, find_key, dfind. rewrite <- (named_eq Hn), Hd. cbn [bind].
  assert (Hs : subsetb cs (tb_cols t) = true); [|rewrite Hs; eauto]. unfold subsetb. apply forallb_forall. intros x Hx. apply memb_true. exact (Hi x Hx).
Qed.
Lemma mapM_total {A B} (f : A -> ores B) l : (forall a, In a l -> exists b, f a = Ok b) -> exists bs, mapM f l = Ok bs.
Proof. induction l as [|a l IH]; intros H; cbn [mapM]; [eauto|]. destruct (H a (or_introl eq_refl)) as (b & Hb). destruct IH as (bs & Hbs); [intros x Hx; apply H; right; exact Hx|]. rewrite Hb, Hbs. cbn. eauto. Qed.
Lemma constraints_total objs x : (forall s t, dget objs s = Some t -> object s t) -> (forall s, In s queries -> exists t, dget objs s = Some t) -> made x ->
  exists t, copy_constraints objs (fst (snd x)) (snd (snd x)) = Ok t.
Proof.
  intros Ho Ha (n & n' & sm & Hs & Hn & Hg & Hno & Hsm & ->). destruct (planned_meta Hs Hn) as (sm' & Hsm' & Htab). rewrite Hsm in Hsm'. injection Hsm' as <-.
  assert (Hmiss : forall tb', ~ table_of (ds_tables d) n' tb').
  { intros tb' Htb. assert (Hkey : In n' (dkeys (ou_meta o))) by (apply (tk_keys Hk); exists n'; split; [exists (fst x), n; auto|split; [eauto|apply rt_refl]]). destruct (key_dget Hkey) as (m & Hm). congruence. }
  destruct (Hcreat Hs Hn Hg Htab Hmiss) as [Huq Hfk]. destruct (Ha _ Hs) as (t & Ht). assert (Hobj := Ho _ _ Ht n n' Hn Hg). rewrite Hno in Hobj. destruct Hobj as (sm' & Hsm' & Hcols & _). rewrite Hsm in Hsm'. injection Hsm' as <-.
  unfold copy_constraints. rewrite (proj2 Htab).
  destruct (@mapM_total _ _ (fun u => let* _ := remap_cols objs n u in Ok u) (tb_uniques (tm_table sm))) as (us & Hus).
  { intros u Hu. destruct (@remap_cols_total objs _ n u t Hn Ht) as (y & Hy); [rewrite Hcols; exact (Huq u Hu)|]. rewrite Hy. cbn. eauto. }
  rewrite Hus. cbn [bind]. destruct (meta_tables Hpl Hrn) as (_ & Htabs & Hdb). destruct (proj2 Hdb _ (proj1 Htab)) as (_ & _ & _ & Hwf).
  destruct (@mapM_total _ _ (fun fk => let* d := remap_cols objs (fk_dst fk) (fk_dst_cols fk) in let* _ := remap_cols objs n (fk_cols fk) in Ok (mkFK (fk_cols fk) d (fk_dst_cols fk))) (tb_fks (tm_table sm))) as (fks & Hfks).
  { intros fk Hin. destruct (Hwf fk Hin) as (W1 & W2 & W3 & td & Htd & W4). destruct (Hfk fk Hin) as (s & nd' & Hsq & Hsn & Hsg & Hinc). destruct (Ha s Hsq) as (t2 & Ht2). assert (Hobj2 := Ho _ _ Ht2 (fk_dst fk) nd' Hsn Hsg).
    assert (Hi2 : incl (fk_dst_cols fk) (tb_cols t2)).
    { destruct (dget (ou_meta o) nd') as [m|] eqn:Hm; [subst t2; exact (Hinc _ (proj1 (tk_tables Hk (dget_In Hm))))|]. destruct Hobj2 as (sm2 & Hsm2 & -> & _).
      rewrite (table_of_fun (proj1 Hdb) (Htabs _ _ (dget_In Hsm2)) Htd). exact W4. }
    destruct (@remap_cols_total objs s (fk_dst fk) (fk_dst_cols fk) t2 Hsn Ht2 Hi2) as (y & Hy). rewrite Hy. cbn [bind].
    destruct (@remap_cols_total objs _ n (fk_cols fk) t Hn Ht) as (y2 & Hy2); [rewrite Hcols; exact W3|]. rewrite Hy2. cbn. eauto. }
  rewrite Hfks. cbn. eauto.
Qed.
Lemma create_total w : w_dest w = d -> (forall d e, en_accepts E d e = true) -> exists w1 o1, db_create (en_dflt E) (en_accepts E) o ms w = (w1, Ok o1).
Proof.
  intros Hw Hyes. unfold db_create. destruct new_total as (objs & cr & Hnew & Ho & Ha & Hmade). unfold bind_io, lift. rewrite Hnew.
  destruct (@mapM_total _ _ (fun nt : string * (table * table) => copy_constraints objs (fst (snd nt)) (snd (snd nt))) cr) as (ts & Hts).
  { intros x Hx. apply constraints_total; [exact Ho|exact Ha|]. exact (proj1 (Forall_forall _ _) Hmade x Hx). }
  rewrite Hts. destruct (is_nil ts); [unfold ret; eauto|]. unfold send. rewrite Hyes. cbn [exec]. unfold ret. eauto.
Qed.
End Create.

(** The run reaches the point where it begins to write. *)
Lemma starts truncate create g w : run_ok E cfg c p (w_dest w) -> accepted E cfg p ms -> (create = true -> creatable E c p (w_dest w)) -> (forall d e, en_accepts E d e = true) ->
  exists mults o0 o1 w1, validate_filters (fe_load_plugin (en_filters E)) (sc_filters cfg) ms = Ok tt /\
    get_multiplied_columns (sc_multiplicity cfg) ms (en_src_int E) (en_ord_str E) p = Ok mults /\ db_init (en_fnm E) (en_resub E) c (w_dest w) queries = Ok o0 /\
    (if create then db_create (en_dflt E) (en_accepts E) o0 ms w = (w1, Ok o1) else w1 = w /\ o1 = o0) /\
    sample E cfg p truncate create g w = rest E cfg p ms truncate mults (OutDatabase c o1) g w1.
Proof.
  intros Hok Hacc Hcr Hyes. destruct (accepted_checks Hords Hacc) as [Hval (mults & Hmu)]. destruct (init_total (ro_dest Hok)) as (o0 & Ho0).
  assert (Hms : sampler_meta (en_fnm E) (en_source_schema E) (p_queries p) (sc_infer cfg) = Ok ms) by exact (proj1 Hrn).
  assert (Hop : exists o1 w1, (if create then db_create (en_dflt E) (en_accepts E) o0 ms w = (w1, Ok o1) else w1 = w /\ o1 = o0) /\
     (if create then create_tables E ms (OutDatabase c o0) else ret (OutDatabase c o0)) w = (w1, Ok (OutDatabase c o1))).
  { destruct create.
    - destruct (create_total (init_tracked (ro_dest Hok) (ro_plain Hok) Ho0) (Hcr eq_refl) (w := w) eq_refl Hyes) as (w1 & o1 & Hc). exists o1, w1. split; [exact Hc|].
      cbn [create_tables]. unfold bind_io. rewrite Hc. reflexivity.
    - exists o0, w. split; [auto|reflexivity]. }
  destruct Hop as (o1 & w1 & Hc & Hct). exists mults, o0, o1, w1. split; [exact Hval|]. split; [exact Hmu|]. split; [exact Ho0|]. split; [exact Hc|].
  unfold rest, sample. unfold bind_io at 1 2 3 4 5. unfold lift at 1 2 3. rewrite Hms. cbn [of_meta]. rewrite Hval. cbv beta iota. rewrite Hmu. cbn [of_mult]. unfold open_output. rewrite (ro_output Hok). unfold bind_io at 1, reading. rewrite Ho0. unfold ret at 1. rewrite Hct. reflexivity.
Qed.
End Start.
