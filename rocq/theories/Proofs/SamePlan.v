(** Two runs of the same plan, its queries in different orders. *)
From Coq Require Import Lia Permutation Relations.
From Verif Require Import Model.Base Model.Value Model.Names Model.PlanModel Model.SqlAlgebra Model.Metadata Model.Planner Model.Filters Model.Multiply Model.Materialize Model.Dest Model.Output Model.Sampler.
From Verif Require Import Spec.GraphSpec Spec.SchemaSpec Spec.SqlSem Spec.PlannerSpec Spec.FilterSpec Spec.OutputSpec Spec.SampleSpec Spec.RunSpec Spec.WholeSpec Spec.CompactWholeSpec Spec.SameSpec.
From Verif Require Spec.MultiplySpec Proofs.MultiplyFacts.
From Verif Require Import Proofs.BaseFacts Proofs.NameFacts Proofs.MetadataFacts Proofs.FilterFacts Proofs.PlanRun Proofs.SampleFinal Proofs.OutputRows Proofs.OutputDb Proofs.OutputCreate Proofs.OutputRun Proofs.OutputCopy Proofs.OutputSample Proofs.OutputMain
  Proofs.OutputColumn Proofs.OutputMerge Proofs.OutputKeys Proofs.OutputEvents Proofs.OutputMore Proofs.OutputDirectory Proofs.ConflictFacts Proofs.OutputRerun Proofs.WholeRun Proofs.WholeFk Proofs.WholeCompact Proofs.WholeCopies Proofs.TwoSteps.
From Verif Require Import Model.Dest.
Set Implicit Arguments.
Unset Strict Implicit.
Open Scope list_scope.

(** ** Steady filters *)
Section Steady.
Context {G : Type}.
Variable F : filter_env G.
Variable load : string -> string -> bool.
Notation avalues := (filter_values (fe_randint F) (fe_uniform F) (fe_index F) (fe_uuid4 F) (fe_fake F) (fe_plugin F)).
Notation asview := (apply_sview (fe_randint F) (fe_uniform F) (fe_index F) (fe_uuid4 F) (fe_fake F) (fe_plugin F)).
Definition steady_action (a : action) : Prop := forall vs g g', same_values (avalues a vs g) (avalues a vs g').
Lemma steady_sview v : (match v with SvColumns _ _ _ a => steady_action a | SvOmit _ _ _ => True end) -> forall r g g', same_values (asview v r g) (asview v r g').
Proof.
  intros H r g g' l1 g1 l2 g2. destruct v as [ci ca idx a|ci co idx]; cbn [apply_sview].
  - destruct (mapM (list_get r) idx) as [vs|e]; cbn [bind]; [|discriminate]. specialize (H vs g g'). destruct (avalues a vs g) as [[f x]|]; cbn [bind]; [|discriminate].
    destruct (avalues a vs g') as [[f' x']|]; cbn [bind]; [|discriminate]. rewrite (H f x f' x' eq_refl eq_refl). congruence.
  - destruct (mapM (list_get r) idx); cbn [bind]; congruence.
Qed.
Lemma steady_constructed s cols v : steady_simple F s -> construct_simple load s cols = Ok v -> match v with SvColumns _ _ _ a => steady_action a | SvOmit _ _ _ => True end.
Proof.
  intros H Hc. assert (Hfc : forall cs a, filter_columns cols cs a = Ok v -> steady_action a -> match v with SvColumns _ _ _ a => steady_action a | SvOmit _ _ _ => True end).
  { intros cs a Hx Ha. unfold filter_columns in Hx. apply bind_Ok in Hx. destruct Hx as (idx & _ & Hx). injection Hx as <-. exact Ha. }
  destruct s; cbn [steady_simple] in H; try (destruct H; fail); cbn [construct_simple] in Hc.
  - apply (Hfc _ _ Hc). intros vs g g' l1 g1 l2 g2. cbn [filter_values]. destruct (mapM zero_value vs); cbn [bind]; congruence.
  - unfold filter_omit in Hc. apply bind_Ok in Hc. destruct Hc as (idx & _ & Hc). injection Hc as <-. exact I.
  - apply (Hfc _ _ Hc). intros vs g g' l1 g1 l2 g2. cbn [filter_values]. congruence.
  - apply bind_Ok in Hc. destruct Hc as (v' & Hv & Hc). destruct (Nat.eqb _ _); [|discriminate]. injection Hc as <-. apply (Hfc _ _ Hv). intros vs g g' l1 g1 l2 g2. cbn [filter_values]. congruence.
  - destruct (load module clazz); [|discriminate]. apply (Hfc _ _ Hc). intros vs g g'. exact (H vs g g').
Qed.
Lemma steady_chain : forall fs cols chain out, construct_chain load fs cols = Ok (chain, out) -> (forall f, In f fs -> steady F f) ->
  forall r g g', same_values (run_filters F chain r g) (run_filters F chain r g').
Proof.
  induction fs as [|f fs IH]; intros cols chain out Hc Hs r g g'; cbn [construct_chain] in Hc.
  - injection Hc as <- _. intros l1 g1 l2 g2. unfold run_filters. cbn [apply_chain]. congruence.
  - apply bind_Ok in Hc. destruct Hc as (v & Hv & Hc). apply bind_Ok in Hc. destruct Hc as ([vs o] & Hvs & Hc). injection Hc as <- _.
    assert (Hv2 : forall r g g', same_values (apply_view (fe_randint F) (fe_uniform F) (fe_index F) (fe_uuid4 F) (fe_fake F) (fe_plugin F) (fe_is F) (fe_in F) (fe_eq F) (fe_lt F) (fe_gt F) (fe_le F) (fe_ge F) (fe_fnmatch F) v r g)
      (apply_view (fe_randint F) (fe_uniform F) (fe_index F) (fe_uuid4 F) (fe_fake F) (fe_plugin F) (fe_is F) (fe_in F) (fe_eq F) (fe_lt F) (fe_gt F) (fe_le F) (fe_ge F) (fe_fnmatch F) v r g')).
    { clear IH Hvs r g g'. pose proof (Hs f (or_introl eq_refl)) as Hf. intros r g g'. destruct f as [s|col conds]; cbn [construct_view] in Hv.
      - apply bind_Ok in Hv. destruct Hv as (sv & Hsv & Hv). injection Hv as <-. cbn [apply_view]. apply steady_sview. exact (steady_constructed Hf Hsv).
      - destruct (index_of col cols 0) as [i|]; [|discriminate]. apply bind_Ok in Hv. destruct Hv as (svs & Hsvs & Hv). apply bind_Ok in Hv. destruct Hv as (u & _ & Hv). injection Hv as <-.
        cbn [apply_view]. destruct (list_get r i) as [x|]; cbn [bind]; [|intros l1 g1 l2 g2; discriminate]. apply mapM_Ok in Hsvs. cbn [steady] in Hf. clear Hs.
        induction Hsvs as [|k sv conds svs Hk _ IH]; cbn [combine multiplex]; [intros l1 g1 l2 g2; congruence|].
        match goal with |- context [bind ?m _] => destruct m as [b|] end; cbn [bind]; [|intros l1 g1 l2 g2; discriminate]. destruct b.
        + apply steady_sview. exact (steady_constructed (Hf k (or_introl eq_refl)) Hk).
        + apply IH. intros k' Hk'. apply Hf. now right. }
    intros l1 g1 l2 g2. unfold run_filters. cbn [apply_chain]. intros H1 H2. apply bind_Ok in H1. destruct H1 as ([a1 x1] & A1 & H1). apply bind_Ok in H2. destruct H2 as ([a2 x2] & A2 & H2).
    rewrite (Hv2 r g g' _ _ _ _ A1 A2) in H1. exact (IH _ _ _ Hvs (fun f Hf => Hs f (or_intror Hf)) _ _ _ _ _ _ _ H1 H2).
Qed.
End Steady.

Lemma copies_same G (filt : list value -> G -> res filter_exn (list value * G)) (copy copy' : Z -> list value -> list value -> Prop) : (forall r g g', same_values (filt r g) (filt r g')) ->
  (forall i f out out', copy i f out -> copy' i f out' -> out = out') ->
  forall l g outs g1, copies filt copy l g outs g1 -> forall g' outs' g1', copies filt copy' l g' outs' g1' -> outs = outs'.
Proof.
  intros Hf Hc. induction 1 as [g|r i l g f g1 out outs g2 H1 H2 _ IH]; intros g' outs' g1' H; inversion H; subst; [reflexivity|]. f_equal; [|eapply IH; eassumption].
  match goal with H : filt r g' = _ |- _ => rewrite (Hf r g g' _ _ _ _ H1 H) in H2 end. eapply Hc; eassumption.
Qed.
Lemma copy_of_same cols mult mult' offs offs' m i r out out' : (forall k, In k mult <-> In k mult') -> (forall k, dget offs k = dget offs' k) ->
  copy_of cols mult offs m i r out -> copy_of cols mult' offs' m i r out' -> out = out'.
Proof.
  intros Hm Ho [_ H] [_ H']. revert out out' H H'. induction (combine cols r) as [|[k v] l IH]; intros out out' H H'; inversion H as [|? x ? xs A B]; inversion H' as [|? y ? ys A' B']; subst; [reflexivity|].
  f_equal; [|exact (IH _ _ B B')]. cbn [fst snd] in *. unfold copy_value in A, A'. rewrite <- Ho in A'.
  destruct (in_dec string_dec k mult) as [I|I], (in_dec string_dec k mult') as [I'|I']; try (exfalso; apply Hm in I; contradiction); try (exfalso; apply Hm in I'; contradiction); rewrite A in A'; congruence.
Qed.

(** ** One successful run *)
Section One.
Context {G : Type}.
Variable E : env G.
Variable cfg : sampler_config.
Variable p : plan.
Notation queries := (dkeys (p_queries p)).
Variable c : db_config.
Variable w : world.
Notation to := (lands (en_resub E) (oc_remap c)).
Hypothesis Hok : run_ok E cfg c p (w_dest w).
Hypothesis Hnil : trace w = [].
Variables (truncate create : bool) (g : G) (w' : world) (g' : G).
Hypothesis Hs : sample E cfg p truncate create g w = (w', Ok g').
Notation schema := (ds_tables (w_dest w')).

Theorem one_run : exists ms compact st mults offs ts,
  computed_with E cfg p c w truncate w' ms compact st mults offs /\
  (forall a b n', In a queries -> In b queries -> to a n' -> to b n' -> a = b) /\
  schema = ds_tables (w_dest w) ++ ts /\ creates E p c w create ms ts /\
  (forall t n' tb, In t queries -> to t n' -> table_of schema n' tb -> exists g1 g2, transfer E cfg p ms compact st mults c offs true t g1 n' (written (trace w') n') g2) /\
  (forall n, (forall t tb, In t queries -> to t n -> ~ table_of schema n tb) -> written (trace w') n = [] /\ batches (trace w') n = []) /\
  (exists del, (forall n, In n del <-> truncate = true /\ affected (en_resub E) (oc_remap c) schema queries n) /\
     forall n, batches (trace w') n = [] -> rows_of (w_dest w') n = if in_dec (@eq_dec _ _) n del then [] else rows_of (w_dest w) n).
Proof.
  destruct (run_trace Hok Hnil Hs) as (ts & dn & tw & d1 & d2 & o1 & Htr & Hi & Hdb & (Hd1 & _ & Hd1t & Hr1 & Hr2) & _ & Hpre & Hrest).
  assert (Hyes : exists x : G, @Ok out_exn G g' = Ok x) by eauto.
  destruct (Hpre (or_intror Hyes)) as (ms0 & mults0 & Hms0 & _ & _ & _ & Hcre).
  assert (Hw : forall n, batches (trace w') n = batches tw n).
  { intros n. destruct Htr as [[-> _]| ->]; [|change (batches (map EvDelete dn ++ tw) n = batches tw n)]; rewrite batches_app, deletes_batches; reflexivity. }
  destruct (Hrest (or_intror Hyes)) as (_ & del & l2 & Edel & Hdel & Hcopy). destruct (Hcopy (or_intror Hyes)) as (-> & Hk & order & samples & ms & compact & st & mults & o2 & (Hno & Hin & Hbef) & Hprep & Hof & (Hcb & g1 & Htrs) & Hnd & Hprog & Hall).
  rewrite app_nil_r in Edel. subst del. rewrite <- Hdb in *.
  assert (ms0 = ms) by (destruct Hcb as (X & _); congruence). subst ms0.
  destruct (validation_first Hok Hnil Hs (or_intror Hyes)) as (_ & _ & _ & _ & _ & _ & Hinj & _).
  destruct (transfers_names Htrs) as (ts1 & _ & Heq & HF). specialize (Heq eq_refl). subst ts1.
  destruct (progress_written Hprog Hnd) as (_ & Hnone & _).
  exists ms, compact, st, mults, (ou_offsets o2), ts. split; [|split; [exact Hinj|split; [exact Hdb|split; [exact Hcre|split; [|split]]]]].
  - split; [exact Hcb|]. split; [exact Hof|]. intros _. exists d2, o1, o2. split; [|split; [exact Hk|split; [exact Hprep|reflexivity]]].
    intros n tb Ht Htb. destruct (replay_deletes Hr1) as (A & B & _). unfold deletes in Hdel. destruct truncate.
    + apply A. apply Hdel. exact (target_affected Ht Htb).
    + subst dn. rewrite B by (intros []). unfold rows_of. now rewrite Hd1.
  - intros t n' tb Ht Hto Htb. assert (Hto2 : In t order) by (apply Hin; split; [exact Ht|exists n', tb; split; assumption]).
    destruct (Forall2_In_l HF Hto2) as ([n2 rows] & Hi2 & Hl). cbn in Hl. rewrite (lands_fun Hl Hto) in Hi2.
    unfold written. rewrite Hw. fold (written tw n'). rewrite (Hall g' eq_refl n' rows Hi2). destruct (transfers_transfer Htrs Hi2) as (t' & g2 & g3 & wh & Ht' & Htrf & Hwh).
    rewrite (Hwh eq_refl) in Htrf. apply Hin in Ht'. rewrite (Hinj t' t n' (proj1 Ht') Ht (transfer_lands Htrf) Hto) in Htrf. eauto.
  - intros n Hn. assert (Hb : batches tw n = []).
    { apply Hnone. intros F. apply in_map_iff in F. destruct F as ([n2 rows] & En & F). cbn in En. subst n2. destruct (Forall2_In_r HF F) as (t & Ht & Hl). cbn in Hl. apply Hin in Ht.
      destruct Ht as (Ht & n2 & tb & Hto & Htb). rewrite (lands_fun Hto Hl) in Htb. exact (Hn t tb Ht Hl Htb). }
    split; [unfold written|]; rewrite Hw, Hb; reflexivity.
  - exists dn. unfold deletes in Hdel. split.
    + destruct truncate; [|subst dn; intros n; split; [intros []|intros [F _]; discriminate]]. intros n. rewrite (proj1 (proj2 Hdel) n). tauto.
    + intros n Hb. rewrite Hw in Hb. rewrite (replay_untouched Hr2 Hi Hb). destruct (replay_deletes Hr1) as (A & B & _).
      destruct (in_dec (@eq_dec _ _) n dn) as [I|I]; [exact (A n I)|]. rewrite (B n I). unfold rows_of. now rewrite Hd1.
Qed.
End One.

(** ** Membership in the set of passthrough tables *)
Lemma memb_same (l l' : list string) x : (forall x, In x l <-> In x l') -> memb x l = memb x l'.
Proof. intros H. destruct (memb x l) eqn:A, (memb x l') eqn:B; try reflexivity; rewrite ?memb_true, ?memb_false, ?H in *; contradiction. Qed.
Lemma forM_ext E A B (f g : A -> B -> res E A) l : (forall a b, f a b = g a b) -> forall a, forM f l a = forM g l a.
Proof. intros H. induction l as [|b l IH]; intros a; cbn [forM]; [reflexivity|]. rewrite H. destruct (g a b); cbn [bind]; [apply IH|reflexivity]. Qed.
Lemma pass_compact cfg l l' ms i a : (forall x, In x l <-> In x l') -> get_compact_columns cfg l ms i a = get_compact_columns cfg l' ms i a.
Proof.
  intros H. unfold get_compact_columns. assert (A : compact_listed cfg l ms = compact_listed cfg l' ms).
  { unfold compact_listed. apply forM_ext. intros acc tc. rewrite (memb_same _ H). reflexivity. }
  assert (B : forall acc, compact_keys cfg l ms i a acc = compact_keys cfg l' ms i a acc).
  { clear A. intros acc. unfold compact_keys. revert acc. induction ms as [|nm ms' IH]; intros acc; cbn [fold_left]; [reflexivity|]. rewrite IH. destruct nm as [n m]. rewrite (memb_same _ H). reflexivity. }
  rewrite A. destruct (compact_listed cfg l' ms); cbn [bind]; [|reflexivity]. rewrite B. reflexivity.
Qed.
Lemma pass_prepare sub di c d o sm l l' qs : (forall x, In x l <-> In x l') -> db_prepare sub di c d o sm l qs = db_prepare sub di c d o sm l' qs.
Proof.
  intros H. assert (H' : forall x, In x (set_of l) <-> In x (set_of l')) by (intros x; rewrite !set_of_In; apply H).
  unfold db_prepare. assert (A : merge_keys sub di c d o l qs = merge_keys sub di c d o l' qs).
  { unfold merge_keys. apply forM_ext. intros acc t. rewrite (memb_same _ H'). reflexivity. }
  assert (B : forall mx offs, merge_references sub c sm mx l qs offs = merge_references sub c sm mx l' qs offs).
  { intros mx offs. unfold merge_references. apply forM_ext. intros acc t. rewrite (memb_same _ H'). reflexivity. }
  rewrite A. destruct (merge_keys sub di c d o l' qs) as [[x y]|]; cbn [bind]; [|reflexivity]. rewrite B. reflexivity.
Qed.

(** ** Two runs *)
Lemma perm_target sub rules l l' n : Permutation l l' -> target sub rules l n -> target sub rules l' n.
Proof. intros HP (s & x & Hs & H). exists s, x. split; [exact (Permutation_in _ HP Hs)|exact H]. Qed.
Lemma perm_multiplied ms mc p p' t k : Permutation (p_queries p) (p_queries p') -> (forall x, In x (p_passthrough p) <-> In x (p_passthrough p')) ->
  MultiplySpec.multiplied ms mc p t k -> MultiplySpec.multiplied ms mc p' t k.
Proof.
  intros HP Hpass. assert (Hp : forall t, MultiplySpec.planned p t -> MultiplySpec.planned p' t) by (intros x; exact (Permutation_in _ (Permutation_map fst HP))).
  assert (He : forall t, ~ MultiplySpec.excluded mc p t -> ~ MultiplySpec.excluded mc p' t) by (intros x; unfold MultiplySpec.excluded; rewrite Hpass; exact (fun h => h)).
  induction 1 as [t c A B C|t m c A B C D F|t m fk c A B C D F _ IH].
  - apply MultiplySpec.mul_extra; auto.
  - eapply MultiplySpec.mul_pk; eauto.
  - eapply MultiplySpec.mul_fk; eauto.
Qed.

Section Two.
Context {G : Type}.
Variables (E : env G) (cfg : sampler_config) (p p' : plan) (pcfg : config).
Hypothesis Henv : env_ok E.
Hypothesis Hplan : planned_by E p pcfg.
Hypothesis Hren : renumbers_soundly E cfg p.
Hypothesis HP : Permutation (p_queries p) (p_queries p').
Hypothesis Hpass : forall x, In x (p_passthrough p) <-> In x (p_passthrough p').
Variables (os : list string -> list string) (on : list tname -> list tname) (z : phase -> tname -> rnd).
Hypothesis Hos : any_order os.
Hypothesis Hon : any_order on.
Hypothesis Hz : forall ph n, rnd_ok (z ph n).
Notation EE := (in_process E os on z).
Hypothesis Hfree : plan_random_free (p_queries p).

Lemma sound_runnable ms compact : sampler_meta (en_fnm E) (en_source_schema E) (p_queries p) (sc_infer cfg) = Ok ms ->
  get_compact_columns (sc_compact cfg) (p_passthrough p) ms (en_src_int E) (en_src_autoinc E) = Ok compact -> runnable id_column (en_reopen E) ms (en_source E) compact (p_queries p).
Proof.
  intros M C. destruct Hren as [Hnc|(ms' & compact' & Hrn)].
  - apply (no_compaction_nil Hnc) in C. subst compact. destruct Hplan as (B1 & B2 & B3 & B4 & (ord & ordp & B5 & B6 & B7) & B8 & B9). exact (plain_runnable B5 B6 B1 B2 B3 B4 B7 B8 B9 M).
  - pose proof Hrn as (M' & C' & _). rewrite M in M'. injection M' as <-. rewrite C in C'. injection C' as <-. exact (renumbered_runnable Hplan Hrn).
Qed.
Lemma results_same ms compact st mults ms' compact' st' mults' t co co' :
  computed_by E cfg p ms compact st mults -> computed_by EE cfg p' ms' compact' st' mults' ->
  result_of E cfg p ms compact st t co -> result_of EE cfg p' ms' compact' st' t co' ->
  co_name co' = co_name co /\ co_cols co' = co_cols co /\ co_rows co' = co_rows co.
Proof.
  intros (M & _ & C & S) (M' & _ & C' & S') R R'. change (en_fnm EE) with (en_fnm E) in M'. change (en_source_schema EE) with (en_source_schema E) in M'. rewrite <- (perm_meta _ _ _ HP) in M'. rewrite M in M'. injection M' as <-.
  rewrite <- (pass_compact _ _ _ _ Hpass) in C'. change (en_src_int EE) with (en_src_int E) in C'. change (en_src_autoinc EE) with (en_src_autoinc E) in C'. rewrite C in C'. injection C' as <-. destruct Henv as (A1 & A2 & A3). pose proof (sound_runnable M C) as HR.
  assert (X : extract (en_source E) (en_cmp E) (en_text E) (en_raw E) (en_raw_cols E) (en_rnd E) (en_rank E) (en_reopen E) ms compact (cp_start (sc_compact cfg)) (en_ord_name E) (p_queries p) [t] = Ok (st, [co])).
  { unfold extract. rewrite S. cbn [bind mapM]. unfold result_of in R. rewrite R. reflexivity. }
  destruct (order_irrelevant A3 A1 Hon A2 Hz HP HR Hfree (Permutation_refl _) X) as (st0 & outs & X' & H).
  unfold extract in X'. cbn [in_process en_source en_cmp en_text en_raw en_raw_cols en_rnd en_rank en_reopen en_ord_name] in S', R'. rewrite S' in X'. cbn [bind mapM] in X'. unfold result_of in R'. cbn [in_process en_source en_cmp en_text en_raw en_raw_cols en_rnd en_rank en_reopen en_ord_name] in R'. rewrite R' in X'. cbn in X'. injection X' as <- <-.
  destruct (H co (or_introl eq_refl)) as (o & [<-|[]] & H1). exact H1.
Qed.
Lemma columns_distinct : distinct_columns EE cfg p'.
Proof.
  intros ms compact st mults t co (M & _ & C & S) R. change (en_fnm EE) with (en_fnm E) in M. change (en_source_schema EE) with (en_source_schema E) in M. rewrite <- (perm_meta _ _ _ HP) in M. rewrite <- (pass_compact _ _ _ _ Hpass) in C.
  destruct Henv as (A1 & A2 & A3). destruct (copied_columns Hon Hz A3 (perm_runnable HP (sound_runnable M C)) S R) as (_ & m & Hm & ->).
  assert (Hdb := proj1 (proj2 (proj2 Hplan))). destruct (sampler_meta_spec (en_fnm E) (p_queries p) (sc_infer cfg) Hdb) as (ms' & E' & _ & B & _). rewrite M in E'. injection E' as <-.
  destruct (B _ _ (dget_In Hm)) as [Ht _]. exact (proj1 (proj2 (proj2 Hdb _ Ht))).
Qed.
Lemma ok_same c d d0 : ds_tables d0 = ds_tables d -> run_ok E cfg c p d -> run_ok EE cfg c p' d0.
Proof.
  intros Hd [A B C D F _]. constructor; try assumption; [rewrite Hd; exact C| |exact columns_distinct]. intros n s Ht. apply F. exact (perm_target (Permutation_sym (Permutation_map fst HP)) Ht).
Qed.
(** Rows are multiplied in the same way. *)
Section Mults.
Variables (ms : meta) (mults mults' : dict string (list string)).
Hypothesis M : sampler_meta (en_fnm E) (en_source_schema E) (p_queries p) (sc_infer cfg) = Ok ms.
Hypothesis Hord : any_order (en_ord_str E).
Hypothesis H1 : get_multiplied_columns (sc_multiplicity cfg) ms (en_src_int E) (en_ord_str E) p = Ok mults.
Hypothesis H2 : get_multiplied_columns (sc_multiplicity cfg) ms (en_src_int E) os p' = Ok mults'.
Lemma mults_same t : times cfg mults' t = times cfg mults t /\ forall k, In k (mult_cols mults' t) <-> In k (mult_cols mults t).
Proof.
  unfold times, mult_cols, dget_or. destruct (Z_lt_dec 1 (mc_multiplier (sc_multiplicity cfg))) as [Hlt|Hlt].
  - pose proof (planned_reflected Hplan M) as Hr. assert (Hr' : forall t, In t (dkeys (p_queries p')) -> exists m, MultiplySpec.source_table ms t m).
    { intros x Hx. apply Hr. exact (Permutation_in _ (Permutation_sym (Permutation_map fst HP)) Hx). }
    pose proof (MultiplyFacts.multiplied_reflected (en_src_int E) Hord Hr Hlt) as S. rewrite H1 in S. destruct S as (_ & _ & K & C).
    pose proof (MultiplyFacts.multiplied_reflected (en_src_int E) Hos Hr' Hlt) as S. rewrite H2 in S. destruct S as (_ & _ & K' & C').
    assert (Hk : dmem mults' t = true <-> dmem mults t = true).
    { rewrite K, K'. unfold MultiplySpec.planned, MultiplySpec.excluded. rewrite Hpass. split; intros [A B]; (split; [|exact B]).
      - exact (Permutation_in _ (Permutation_sym (Permutation_map fst HP)) A).
      - exact (Permutation_in _ (Permutation_map fst HP) A). }
    unfold dmem in Hk. destruct (dget mults t) as [cs|] eqn:E1, (dget mults' t) as [cs'|] eqn:E2.
    + split; [reflexivity|]. intros k. rewrite (proj2 (C _ _ E1) k), (proj2 (C' _ _ E2) k). split; apply perm_multiplied; auto; [exact (Permutation_sym HP)|intros x; symmetry; apply Hpass].
    + exfalso. discriminate (proj2 Hk eq_refl).
    + exfalso. discriminate (proj1 Hk eq_refl).
    + split; reflexivity.
  - unfold get_multiplied_columns in H1, H2. assert (Hle : (mc_multiplier (sc_multiplicity cfg) <=? 1)%Z = true) by (apply Z.leb_le; lia). rewrite Hle in H1, H2. injection H1 as <-. injection H2 as <-. split; reflexivity.
Qed.
End Mults.

Section Database.
Variables (c : db_config) (w w0 : world) (truncate create : bool) (g g0 : G) (w2 w3 : world) (g2 g3 : G).
Notation to := (lands (en_resub E) (oc_remap c)).
Notation queries := (dkeys (p_queries p)).
Hypothesis Hok : run_ok E cfg c p (w_dest w).
Hypothesis Hnil : trace w = [].
Hypothesis Hnil0 : trace w0 = [].
Hypothesis Hsch : ds_tables (w_dest w0) = ds_tables (w_dest w).
Hypothesis Hrows0 : truncate = true \/ forall n, rows_of (w_dest w0) n = rows_of (w_dest w) n.
Hypothesis H2 : sample EE cfg p' truncate create g0 w0 = (w2, Ok g2).
Hypothesis H3 : sample E cfg p truncate create g w = (w3, Ok g3).
Let HPk : Permutation queries (dkeys (p_queries p')) := Permutation_map fst HP.
Lemma before_same n : (if truncate then [] else rows_of (w_dest w0) n) = if truncate then [] else rows_of (w_dest w) n.
Proof. destruct truncate; [reflexivity|]. destruct Hrows0 as [F|F]; [discriminate|apply F]. Qed.

Lemma fk_list_same rules (l : list fkey) : forall l1 l2,
  Forall2 (fun fk fk' => fk_cols fk' = fk_cols fk /\ fk_dst_cols fk' = fk_dst_cols fk /\ goes_to (en_resub E) rules (fk_dst fk) (fk_dst fk')) l l1 ->
  Forall2 (fun fk fk' => fk_cols fk' = fk_cols fk /\ fk_dst_cols fk' = fk_dst_cols fk /\ goes_to (en_resub E) rules (fk_dst fk) (fk_dst fk')) l l2 -> l1 = l2.
Proof.
  induction l as [|fk l IH]; intros l1 l2 F1 F2; inversion F1 as [|? a ? l1' (A1 & A2 & A3) F1']; inversion F2 as [|? b ? l2' (B1 & B2 & B3) F2']; subst; [reflexivity|].
  f_equal; [|exact (IH _ _ F1' F2')]. destruct a, b; cbn in *. subst. rewrite (named_fun A3 B3). reflexivity.
Qed.
Lemma created_same q q' ms ts ts' n tb : Permutation (dkeys (p_queries q)) (dkeys (p_queries q')) -> Permutation (dkeys (p_queries q)) queries ->
  sampler_meta (en_fnm E) (en_source_schema E) (p_queries p) (sc_infer cfg) = Ok ms -> (forall a b n', In a queries -> In b queries -> to a n' -> to b n' -> a = b) ->
  creates E q c w create ms ts -> creates E q' c w create ms ts' -> table_of (ds_tables (w_dest w) ++ ts) n tb -> table_of (ds_tables (w_dest w) ++ ts') n tb.
Proof.
  intros Hqq Hqp Hms Hinj (_ & A & B) (_ & A' & B') [Hi Hn]. split; [|exact Hn]. apply in_or_app. apply in_app_or in Hi. destruct Hi as [Hi|Hi]; [now left|right].
  assert (Hm : In n (map tb_name ts')).
  { assert (Hm : In n (map tb_name ts)) by (rewrite <- Hn; apply in_map; exact Hi). apply A in Hm. apply A'. destruct Hm as (X & Y & Z). split; [exact X|]. split; [exact (perm_target Hqq Y)|exact Z]. }
  apply in_map_iff in Hm. destruct Hm as (tb' & Hn' & Hi'). destruct (B tb Hi) as (s & ns & sm & S1 & S2 & S3 & S4 & _). destruct (B' tb' Hi') as (s' & ns' & sm' & S1' & S2' & S3' & S4' & _).
  assert (tb' = tb); [|subst; exact Hi']. destruct S4 as (T1 & T2 & T3 & T4 & T5). destruct S4' as (T1' & T2' & T3' & T4' & T5').
  assert (Hnm : forall x m, dget ms x = Some m -> tb_name (tm_table m) = x).
  { intros x m Hx. destruct (sampler_meta_spec (en_fnm E) (p_queries p) (sc_infer cfg) (ro_source Hok)) as (ms' & E' & _ & Bm & _). rewrite Hms in E'. injection E' as <-. exact (proj2 (Bm _ _ (dget_In Hx))). }
  rewrite (Hnm _ _ S3) in T1. rewrite (Hnm _ _ S3') in T1'. rewrite Hn in T1. rewrite Hn' in T1'.
  assert (s' = s).
  { apply (Hinj s' s n); [exact (Permutation_in _ (perm_trans (Permutation_sym Hqq) Hqp) S1')|exact (Permutation_in _ Hqp S1)|exists ns'; auto|exists ns; auto]. }
  subst s'. rewrite (named_fun S2' S2) in S3'. rewrite S3 in S3'. injection S3' as <-.
  pose proof (fk_list_same T5' T5) as Ef. destruct tb, tb'; cbn in *. congruence.
Qed.

Lemma affected_same db db' l l' n : (forall n tb, table_of db n tb <-> table_of db' n tb) -> Permutation l l' ->
  affected (en_resub E) (oc_remap c) db l n -> affected (en_resub E) (oc_remap c) db' l' n.
Proof.
  intros Hdb Hl (n' & Ht & (t & Htb) & Hpath). exists n'. split; [exact (perm_target Hl Ht)|]. split; [exists t; apply Hdb; exact Htb|].
  assert (Hr : forall a b, references db b a -> references db' b a) by (intros a b (x & fk & X & Y); exists x, fk; split; [apply Hdb; exact X|exact Y]).
  clear - Hpath Hr. induction Hpath as [x y Hxy|x|x y z _ IH1 _ IH2]; [apply rt_step; apply Hr; exact Hxy|apply rt_refl|exact (rt_trans _ _ _ _ _ IH1 IH2)].
Qed.

Lemma offsets_same ms compact st mults offs compact' st' mults' offs' t n' tb :
  (forall a b n', In a queries -> In b queries -> to a n' -> to b n' -> a = b) ->
  (forall n tb, table_of (ds_tables (w_dest w2)) n tb <-> table_of (ds_tables (w_dest w3)) n tb) ->
  computed_with E cfg p c w truncate w3 ms compact st mults offs -> computed_with EE cfg p' c w0 truncate w2 ms compact' st' mults' offs' ->
  In t queries -> to t n' -> table_of (ds_tables (w_dest w3)) n' tb -> forall k, dget (dget_or offs' n' []) k = dget (dget_or offs n' []) k.
Proof.
  intros Hinj Hdb (_ & Hno & Hyes) (_ & Hno' & Hyes') Ht Hto Htb k. destruct (oc_merge c) eqn:Hm; [|rewrite (Hno eq_refl), (Hno' eq_refl); reflexivity]. clear Hno Hno'.
  destruct (Hyes eq_refl) as (d & o1 & o2 & Hd & Hk & Hp & ->). destruct (Hyes' eq_refl) as (d' & o1' & o2' & Hd' & Hk' & Hp' & ->). rewrite <- (pass_prepare _ _ _ _ _ _ _ Hpass) in Hp'.
  assert (Hnd : NoDup queries). { destruct Hplan as (B1 & B2 & B3 & B4 & (ord & ordp & B5 & B6 & B7) & B8 & B9). exact (proj1 (PlanIOPlanner.planner_plain B7)). }
  assert (Hback : forall t, In t (dkeys (p_queries p')) -> In t queries) by (intros x; exact (Permutation_in _ (Permutation_sym HPk))).
  assert (Hforth : forall t, In t queries -> In t (dkeys (p_queries p'))) by (intros x; exact (Permutation_in _ HPk)).
  destruct (prepare_spec Hp Hm Hnd Hinj) as (maxes & A & B & C & D).
  destruct (prepare_spec Hp' Hm (Permutation_NoDup HPk Hnd) ltac:(intros a b x Ha Hb; exact (Hinj a b x (Hback a Ha) (Hback b Hb)))) as (maxes' & A' & B' & C' & D').
  assert (Hrows : forall x xb, In x queries -> forall nx, to x nx -> table_of (ds_tables (w_dest w3)) nx xb -> rows_of d' nx = rows_of d nx).
  { intros x xb Hx nx Hnx Hxb. destruct Hnx as (n0 & N1 & N2). rewrite (Hd nx xb); [|exists x, n0; auto|exact Hxb]. rewrite <- before_same. apply (Hd' nx xb); [exists x, n0; auto|apply Hdb; exact Hxb]. }
  assert (Hmx : forall x nx m m', In x queries -> to x nx -> dget (ou_meta o1) nx = Some m -> dget (ou_meta o1') nx = Some m' -> tm_table m' = tm_table m /\ rows_of d' nx = rows_of d nx).
  { intros x nx m m' Hx Hnx Hg Hg'. destruct (tk_tables Hk (dget_In Hg)) as [T _]. destruct (tk_tables Hk' (dget_In Hg')) as [T' _]. apply Hdb in T'.
    split; [|exact (Hrows x _ Hx nx Hnx T)]. exact (OutputDb.table_of_fun (tables_distinct Hok Hnil H3) T' T). }
  assert (Hmaxes : forall x, dget_or maxes' x None = dget_or maxes x None).
  { intros x. destruct (in_dec string_dec x queries) as [Hx|Hx]; [|rewrite B, B'; [reflexivity|left; auto|left; auto]].
    destruct (in_dec string_dec x (p_passthrough p)) as [Hxp|Hxp]; [rewrite B, B'; [reflexivity|right; exact Hxp|right; exact Hxp]|].
    destruct (validation_first Hok Hnil H3 (or_intror (ex_intro _ g3 eq_refl))) as (_ & _ & _ & _ & _ & Hl & _). destruct (Hl x Hx) as (nx & Hnx).
    destruct (A x nx Hx Hxp Hnx) as (m & Hg & ->). destruct (A' x nx (Hforth x Hx) Hxp Hnx) as (m' & Hg' & ->). destruct (Hmx x nx m m' Hx Hnx Hg Hg') as [-> Er].
    unfold key_max. rewrite Er. reflexivity. }
  change (off (ou_offsets o2') n' k = off (ou_offsets o2) n' k).
  destruct (in_dec string_dec t (p_passthrough p)) as [Htp|Htp].
  { rewrite D, D'; [reflexivity|..]; intros x Hx Hxp Hl; apply Hxp; [rewrite (Hinj x t n' (Hback x Hx) Ht Hl Hto)|rewrite (Hinj x t n' Hx Ht Hl Hto)]; exact Htp. }
  pose proof Hto as (n & Hn & Hg). destruct (A t n' Ht Htp Hto) as (m & Hm1 & _). destruct (A' t n' (Hforth t Ht) Htp Hto) as (m' & Hm1' & _).
  destruct (Hmx t n' m m' Ht Hto Hm1 Hm1') as [Etb Er].
  destruct (C t n n' m Ht Htp Hn Hg Hm1) as (sm & Hsm & _ & _ & C3). destruct (C' t n n' m' (Hforth t Ht) Htp Hn Hg Hm1') as (sm' & Hsm' & _ & _ & C3').
  rewrite Hsm in Hsm'. injection Hsm' as <-. rewrite (C3 k), (C3' k). unfold settle. rewrite Etb. unfold key_offsets. rewrite Er.
  match goal with |- fold_left ?f ?l ?a = fold_left ?h _ _ => assert (Ef : forall o fk, f o fk = h o fk) end.
  { intros o fk. unfold ref_max. rewrite Hmaxes. reflexivity. }
  change (en_dst_int EE) with (en_dst_int E). generalize (dget match merge_key (en_dst_int E) n' (tm_table m) with Some k0 => match max_value (rows_of d n') k0 with Some v => [(k0, (v + 1)%Z)] | None => [] end | None => [] end k).
  clear - Ef. induction (tm_fks sm) as [|fk fks IH]; intros o; [reflexivity|]. cbn [fold_left]. rewrite Ef. apply IH.
Qed.

(** The destination is the same. *)
Theorem tables_same n tb : table_of (ds_tables (w_dest w2)) n tb <-> table_of (ds_tables (w_dest w3)) n tb.
Proof.
  destruct (one_run (ok_same Hsch Hok) Hnil0 H2) as (ms2 & c2 & st2 & m2 & offs2 & ts2 & (C2 & _) & _ & T2 & K2 & _).
  destruct (one_run Hok Hnil H3) as (ms3 & c3 & st3 & m3 & offs3 & ts3 & (C3 & _) & Hinj & T3 & K3 & _).
  assert (M3 := proj1 C3). assert (M2 := proj1 C2). change (en_fnm EE) with (en_fnm E) in M2; change (en_source_schema EE) with (en_source_schema E) in M2; rewrite <- (perm_meta _ _ _ HP), M3 in M2. injection M2 as <-. unfold creates in K2. rewrite Hsch in K2. fold (creates E p' c w create ms3 ts2) in K2. rewrite T2, T3, Hsch. split.
  - exact (created_same (Permutation_sym HPk) (Permutation_sym HPk) M3 Hinj K2 K3).
  - exact (created_same HPk (Permutation_refl _) M3 Hinj K3 K2).
Qed.

Theorem written_same t n' tb : In t queries -> to t n' -> table_of (ds_tables (w_dest w3)) n' tb -> steady_table E cfg t -> written (trace w2) n' = written (trace w3) n'.
Proof.
  intros Ht Hto Htb Hst. destruct (one_run (ok_same Hsch Hok) Hnil0 H2) as (ms2 & c2 & st2 & m2 & offs2 & ts2 & C2 & _ & _ & _ & X2 & _).
  destruct (one_run Hok Hnil H3) as (ms3 & c3 & st3 & m3 & offs3 & ts3 & C3 & Hinj & _ & _ & X3 & _).
  destruct (X2 t n' tb (Permutation_in _ HPk Ht) Hto (proj2 (tables_same n' tb) Htb)) as (ga & gb & co2 & chain2 & cols2 & l2 & r2 & outs2 & R2 & Hc2 & _ & Ec2 & L2 & Co2 & ->).
  destruct (X3 t n' tb Ht Hto Htb) as (gc & gd & co3 & chain3 & cols3 & l3 & r3 & outs3 & R3 & Hc3 & _ & Ec3 & L3 & Co3 & ->).
  destruct (results_same (proj1 C3) (proj1 C2) R3 R2) as (_ & Ek & Er).
  assert (M3 := proj1 (proj1 C3)). assert (M2 := proj1 (proj1 C2)). change (en_fnm EE) with (en_fnm E) in M2; change (en_source_schema EE) with (en_source_schema E) in M2; rewrite <- (perm_meta _ _ _ HP), M3 in M2. injection M2 as <-.
  destruct (mults_same M3 (ro_order Hok) (proj1 (proj2 (proj1 C3))) (proj1 (proj2 (proj1 C2))) t) as [Etm Emc].
  specialize (L2 eq_refl). specialize (L3 eq_refl). subst r2 r3. rewrite app_nil_r in Ec2, Ec3. change (en_filters EE) with (en_filters E) in Hc2. rewrite Ek, Hc3 in Hc2. injection Hc2 as <- <-.
  assert (El : l2 = l3). { rewrite <- Ec2, <- Ec3, Etm. unfold result_rows. rewrite Er, Ek. reflexivity. } rewrite El, Etm in Co2.
  pose proof (offsets_same Hinj tables_same C3 C2 Ht Hto Htb) as Ho.
  f_equal. refine (copies_same _ _ Co2 Co3).
  - intros r x y o1 x1 o2 y2 A B. unfold filter_kept in A, B. apply bind_Ok in A. destruct A as ([f1 a1] & A1 & A). apply bind_Ok in B. destruct B as ([f2 b1] & B1 & B).
    rewrite (steady_chain Hc3 Hst A1 B1) in A. congruence.
  - intros i f out out'. apply copy_of_same; [exact Emc|exact Ho].
Qed.

Theorem rows_same n : (forall t, In t queries -> to t n -> steady_table E cfg t) ->
  truncate = true /\ affected (en_resub E) (oc_remap c) (ds_tables (w_dest w3)) queries n \/ rows_of (w_dest w0) n = rows_of (w_dest w) n -> rows_of (w_dest w2) n = rows_of (w_dest w3) n.
Proof.
  intros Hst Hbef. destruct (one_run (ok_same Hsch Hok) Hnil0 H2) as (ms2 & c2 & st2 & m2 & offs2 & ts2 & C2 & _ & _ & _ & _ & N2 & del2 & D2 & U2).
  destruct (one_run Hok Hnil H3) as (ms3 & c3 & st3 & m3 & offs3 & ts3 & C3 & Hinj & _ & _ & _ & N3 & del3 & D3 & U3).
  assert (Hcase : (exists t tb, In t queries /\ to t n /\ table_of (ds_tables (w_dest w3)) n tb) \/ forall t tb, In t queries -> to t n -> ~ table_of (ds_tables (w_dest w3)) n tb).
  { destruct (find (fun tb => if eq_dec (tb_name tb) n then true else false) (ds_tables (w_dest w3))) as [tb|] eqn:Ef.
    - apply find_some in Ef. destruct Ef as [Ei En]. destruct (eq_dec (tb_name tb) n) as [En'|]; [|discriminate].
      destruct (validation_first Hok Hnil H3 (or_intror (ex_intro _ g3 eq_refl))) as (_ & _ & _ & _ & _ & Hl & _).
      clear - Hl Ei En'. assert (Hi : incl queries queries) by (intros x; exact (fun h => h)). revert Hi. generalize queries at 1 3 4 as qs. induction qs as [|q qs IH]; intros Hi.
      + right. intros t tb' [].
      + destruct (Hl q (Hi q (or_introl eq_refl))) as (nq & Hq). destruct (eq_dec nq n) as [->|Hne].
        * left. exists q, tb. split; [now left|]. split; [exact Hq|split; assumption].
        * destruct IH as [(t & tb' & A & B)|Hno]; [intros x Hx; apply Hi; now right|left; exists t, tb'; split; [now right|exact B]|]. right. intros t tb' [<-|Ht] Hto; [elim Hne; exact (lands_fun Hq Hto)|exact (Hno t tb' Ht Hto)].
    - right. intros t tb _ _ [Hi Hn]. pose proof (find_none _ _ Ef tb Hi) as F. cbn in F. destruct (eq_dec (tb_name tb) n); [discriminate|contradiction]. }
  destruct Hcase as [(t & tb & Ht & Hto & Htb)|Hno].
  - pose proof (written_same Ht Hto Htb (Hst t Ht Hto)) as Ew. pose proof (proj2 (tables_same n tb) Htb) as Htb2. pose proof (Permutation_in _ HPk Ht) as Ht2.
    destruct (table_run (ok_same Hsch Hok) Hnil0 H2 Ht2 Hto Htb2) as (d2 & Hd2 & R2). destruct (table_run Hok Hnil H3 Ht Hto Htb) as (d3 & Hd3 & R3).
    assert (Es : rows_of d2 n = rows_of d3 n).
    { rewrite (starts_rows (ok_same Hsch Hok) Hnil0 H2 Hd2 (to_tgt Ht2 Hto) Htb2), (starts_rows Hok Hnil H3 Hd3 (to_tgt Ht Hto) Htb). apply before_same. }
    assert (Estr : strategy_of c p' t = strategy_of c p t) by (unfold strategy_of; destruct (in_dec string_dec t (p_passthrough p)) as [I|I], (in_dec string_dec t (p_passthrough p')) as [I'|I']; try reflexivity; exfalso; apply Hpass in I || apply Hpass in I'; contradiction). rewrite Estr, Ew, Es in R2.
    destruct R2 as [(W2 & ->)|(how2 & cols2 & I2 & _ & _ & K2 & R2)]; destruct R3 as [(W3 & ->)|(how3 & cols3 & I3 & _ & _ & K3 & R3)].
    + reflexivity.
    + rewrite W2 in R3. cbn in R3. congruence.
    + rewrite W3 in R2. cbn in R2. congruence.
    + destruct (written (trace w3) n) as [|row rows]; [cbn in R2, R3; congruence|].
      rewrite <- (K2 row (or_introl eq_refl)) in I2. rewrite <- (K3 row (or_introl eq_refl)) in I3. rewrite I3 in I2. injection I2 as <-. change (en_dflt EE) with (en_dflt E) in R2. congruence.
  - rewrite (U2 n), (U3 n).
    + destruct (in_dec (@eq_dec _ _) n del2) as [A|A], (in_dec (@eq_dec _ _) n del3) as [B|B]; try reflexivity; [exfalso|exfalso|destruct Hbef as [Hbef|Hbef]; [exfalso; apply B; apply D3; exact Hbef|exact Hbef]].
      * apply B. apply D3. apply D2 in A. split; [apply A|]. apply (affected_same tables_same (Permutation_sym HPk)). apply A.
      * apply A. apply D2. apply D3 in B. split; [apply B|]. apply (@affected_same _ _ _ _ n (fun n tb => iff_sym (tables_same n tb)) HPk). apply B.
    + apply N3. exact Hno.
    + apply N2. intros t tb Ht Hto Htb. apply tables_same in Htb. exact (Hno t tb (Permutation_in _ (Permutation_sym HPk) Ht) Hto Htb).
Qed.

(** Columns no filter touches, whatever the other filters do. *)
Theorem untouched_same t n n' tb tbs : In t queries -> named t n -> table_of (en_source_schema E) n tbs -> to t n' -> table_of (ds_tables (w_dest w3)) n' tb -> strategy_of c p t = SError ->
  exists new2 new3, rows_of (w_dest w2) n' = (if truncate then [] else rows_of (w_dest w) n') ++ new2 /\ rows_of (w_dest w3) n' = (if truncate then [] else rows_of (w_dest w) n') ++ new3 /\
    Forall2 (fun row2 row3 => forall k, In k (tb_cols tbs) -> untouched_column E cfg t n' k -> rget row2 k = rget row3 k) new2 new3.
Proof.
  intros Ht Hn Htbs Hto Htb Hstr. destruct (one_run (ok_same Hsch Hok) Hnil0 H2) as (ms2 & c2 & st2 & m2 & offs2 & ts2 & C2 & _ & _ & _ & X2 & _).
  destruct (one_run Hok Hnil H3) as (ms3 & c3 & st3 & m3 & offs3 & ts3 & C3 & Hinj & _ & _ & X3 & _).
  pose proof (proj2 (tables_same n' tb) Htb) as Htb2. pose proof (Permutation_in _ HPk Ht) as Ht2.
  destruct (X2 t n' tb Ht2 Hto Htb2) as (ga & gb & T2). destruct (X3 t n' tb Ht Hto Htb) as (gc & gd & T3).
  destruct (transfer_given (ok_same Hsch Hok) (proj1 C2) T2) as (co2 & l2 & r2 & R2 & Ec2 & L2 & F2). destruct (transfer_given Hok (proj1 C3) T3) as (co3 & l3 & r3 & R3 & Ec3 & L3 & F3).
  specialize (L2 eq_refl). specialize (L3 eq_refl). subst r2 r3. rewrite app_nil_r in Ec2, Ec3.
  destruct (results_same (proj1 C3) (proj1 C2) R3 R2) as (_ & Ek & Er).
  assert (M3 := proj1 (proj1 C3)). assert (M2 := proj1 (proj1 C2)). change (en_fnm EE) with (en_fnm E) in M2; change (en_source_schema EE) with (en_source_schema E) in M2; rewrite <- (perm_meta _ _ _ HP), M3 in M2. injection M2 as <-.
  destruct (mults_same M3 (ro_order Hok) (proj1 (proj2 (proj1 C3))) (proj1 (proj2 (proj1 C2))) t) as [Etm Emc].
  pose proof (offsets_same Hinj tables_same C3 C2 Ht Hto Htb) as Ho.
  assert (El : l2 = l3) by (rewrite <- Ec2, <- Ec3, Etm, Er; reflexivity). rewrite El in F2.
  assert (Ecols : co_cols co3 = tb_cols tbs).
  { pose proof (proj1 C3) as (M & _ & C & S). destruct Henv as (A1 & A2 & A3). destruct (copied_columns A1 A2 A3 (sound_runnable M C) S R3) as (Hn' & m & Hm & ->). rewrite (named_fun Hn' Hn) in Hm.
    assert (Hdb := proj1 (proj2 (proj2 Hplan))). destruct (sampler_meta_spec (en_fnm E) (p_queries p) (sc_infer cfg) Hdb) as (ms' & E' & _ & B & _). rewrite M in E'. injection E' as <-.
    rewrite (MetadataFacts.table_of_fun Hdb Htbs (B _ _ (dget_In Hm))). reflexivity. }
  assert (Hrows : Forall2 (fun row2 row3 => forall k, In k (tb_cols tbs) -> untouched_column E cfg t n' k -> In k (dkeys row2) /\ In k (dkeys row3) /\ rget row2 k = rget row3 k) (written (trace w2) n') (written (trace w3) n')).
  { unfold copied_rows in F2, F3. rewrite Ek, Etm, Ecols in F2. rewrite Ecols in F3. clear - F2 F3 Emc Ho. revert F2 F3. generalize (written (trace w2) n') as a2, (written (trace w3) n') as a3. induction l3 as [|ri l IH]; intros a2 a3 F2 F3; inversion F2 as [|? x ? xs A B]; inversion F3 as [|? y ? ys A' B']; subst; constructor; [|exact (IH _ _ B B')].
    intros k Hk Hu. destruct (A k Hk Hu) as [K1 V1]. destruct (A' k Hk Hu) as [K2 V2]. split; [exact K1|]. split; [exact K2|].
    unfold copy_value in V1, V2. rewrite Ho in V1. destruct (in_dec string_dec k (mult_cols m2 t)) as [I|I], (in_dec string_dec k (mult_cols m3 t)) as [I'|I']; try (exfalso; apply I'; apply Emc; exact I); try (exfalso; apply I; apply Emc; exact I'); (assert (Ex : Some (rget x k) = Some (rget y k)) by (rewrite <- V1; exact V2); congruence). }
  assert (Estr : strategy_of c p' t = strategy_of c p t) by (unfold strategy_of; destruct (in_dec string_dec t (p_passthrough p)) as [I|I], (in_dec string_dec t (p_passthrough p')) as [I'|I']; try reflexivity; exfalso; apply Hpass in I || apply Hpass in I'; contradiction).
  assert (Hins : forall (EQ : env G) q wi wq gq g1, run_ok EQ cfg c q (w_dest wi) -> trace wi = [] -> sample EQ cfg q truncate create g1 wi = (wq, Ok gq) -> lands (en_resub EQ) (oc_remap c) t n' -> In t (dkeys (p_queries q)) -> strategy_of c q t = SError -> table_of (ds_tables (w_dest wq)) n' tb ->
    exists new, rows_of (w_dest wq) n' = (if truncate then [] else rows_of (w_dest wi) n') ++ new /\ Forall2 (fun row row' => forall k, In k (dkeys row) -> rget row' k = rget row k) (written (trace wq) n') new).
  { intros EQ q wi wq gq g1 Oq Nq Sq Toq Tq Stq Tbq. destruct (table_run Oq Nq Sq Tq Toq Tbq) as (d & Hd & R). rewrite (starts_rows Oq Nq Sq Hd (to_tgt Tq Toq) Tbq) in R.
    destruct R as [(Wq & ->)|(how & cols & I & _ & Ic & K & R)]; [exists []; rewrite app_nil_r, Wq; split; [reflexivity|constructor]|].
    assert (how = Fail).
    { rewrite Stq in I. unfold conflict_insert in I. destruct (is_nil (tb_pk tb)); cbn [bind] in I.
      - destruct (oc_dialect c); now injection I as <-.
      - apply bind_Ok in I. destruct I as ([s np] & Hx & Hy). apply bind_Ok in Hx. destruct Hx as (u & _ & Hx). injection Hx as <- <-. destruct (oc_dialect c); now injection Hy as <-. }
    subst how. destruct (insert_fail R) as (new & -> & HF). exists new. split; [reflexivity|]. clear - HF K Ic. induction HF as [|row row' l l' [H1 H2] _ IH]; constructor.
    - intros k Hk. apply H2; [exact Hk|]. apply Ic. rewrite <- (K row (or_introl eq_refl)). exact Hk.
    - apply IH. intros x Hx. apply K. now right. }
  destruct (Hins EE p' w0 w2 g2 g0 (ok_same Hsch Hok) Hnil0 H2 Hto Ht2 (eq_trans Estr Hstr) Htb2) as (new2 & E2 & N2). rewrite before_same in E2. destruct (Hins E p w w3 g3 g Hok Hnil H3 Hto Ht Hstr Htb) as (new3 & E3 & N3).
  exists new2, new3. split; [exact E2|]. split; [exact E3|]. clear - Hrows N2 N3. revert new2 new3 N2 N3. induction Hrows as [|a b l l' Hab _ IH]; intros new2 new3 N2 N3; inversion N2 as [|? x ? xs A B]; inversion N3 as [|? y ? ys A' B']; subst; constructor; [|exact (IH _ _ B B')].
  intros k Hk Hu. destruct (Hab k Hk Hu) as (K1 & K2 & V). rewrite (A k K1), (A' k K2). exact V.
Qed.
End Database.

(** Output to files. *)
Theorem files_same dir truncate create g g0 w w0 w2 g2 w3 g3 path : sc_output cfg = ToDirectory dir -> any_order (en_ord_str E) ->
  sample EE cfg p' truncate create g0 w0 = (w2, Ok g2) -> sample E cfg p truncate create g w = (w3, Ok g3) ->
  (forall t, In t (dkeys (p_queries p)) -> path = json_file dir t -> steady_table E cfg t) ->
  (exists t, In t (dkeys (p_queries p)) /\ path = json_file dir t) \/ file_of (w_dest w0) path = file_of (w_dest w) path ->
  file_of (w_dest w2) path = file_of (w_dest w3) path.
Proof.
  intros Ho Hord H2 H3 Hst Hbef. assert (HPk : Permutation (dkeys (p_queries p)) (dkeys (p_queries p'))) by exact (Permutation_map fst HP).
  assert (Hnd : NoDup (dkeys (p_queries p))).
  { destruct Hplan as (B1 & B2 & B3 & B4 & (ord & ordp & B5 & B6 & B7) & B8 & B9). exact (proj1 (PlanIOPlanner.planner_plain B7)). }
  destruct (OutputDirectory.directory_files Ho (Permutation_NoDup HPk Hnd) H2) as (ms2 & c2 & st2 & m2 & f2 & x2 & C2 & N2 & E2 & F2 & O2 & _).
  destruct (OutputDirectory.directory_files Ho Hnd H3) as (ms3 & c3 & st3 & m3 & f3 & x3 & C3 & N3 & E3 & F3 & O3 & _).
  destruct (in_dec string_dec path (map (json_file dir) (dkeys (p_queries p)))) as [I|I].
  - apply in_map_iff in I. destruct I as (t & Ep & Ht). pose proof (Hst t Ht (eq_sym Ep)) as Hsteady. subst path.
    assert (I2 : In t (map fst f2)) by (rewrite N2; exact (Permutation_in _ HPk Ht)). assert (I3 : In t (map fst f3)) by (rewrite N3; exact Ht).
    apply in_map_iff in I2. destruct I2 as ([t2 rows2] & Et2 & I2). apply in_map_iff in I3. destruct I3 as ([t3 rows3] & Et3 & I3). cbn in Et2, Et3. subst t2 t3.
    rewrite (F2 _ _ I2), (F3 _ _ I3). destruct (exports_export E2 I2) as (ga & gb & co2 & chain2 & cols2 & l2 & r2 & outs2 & R2 & Hc2 & Ec2 & L2 & Co2 & ->).
    destruct (exports_export E3 I3) as (gc & gd & co3 & chain3 & cols3 & l3 & r3 & outs3 & R3 & Hc3 & Ec3 & L3 & Co3 & ->).
    destruct (results_same C3 C2 R3 R2) as (_ & Ek & Er).
    assert (M3 := proj1 C3). assert (M2 := proj1 C2). change (en_fnm EE) with (en_fnm E) in M2; change (en_source_schema EE) with (en_source_schema E) in M2; rewrite <- (perm_meta _ _ _ HP), M3 in M2. injection M2 as <-.
    destruct (mults_same M3 Hord (proj1 (proj2 C3)) (proj1 (proj2 C2)) t) as [Etm Emc].
    specialize (L2 eq_refl). specialize (L3 eq_refl). subst r2 r3. rewrite app_nil_r in Ec2, Ec3. change (en_filters EE) with (en_filters E) in Hc2. rewrite Ek, Hc3 in Hc2. injection Hc2 as <- <-.
    assert (El : l2 = l3). { rewrite <- Ec2, <- Ec3, Etm. unfold result_rows. rewrite Er, Ek. reflexivity. } rewrite El, Etm in Co2.
    f_equal. refine (copies_same _ _ Co2 Co3).
    + exact (steady_chain Hc3 Hsteady).
    + intros i f out out'. apply copy_of_same; [exact Emc|reflexivity].
  - rewrite (O2 path), (O3 path); [destruct Hbef as [(t & Ht & ->)|Hbef]; [elim I; apply in_map; exact Ht|exact Hbef]| |].
    + intros t Ht ->. apply I. apply in_map. exact Ht.
    + intros t Ht ->. apply I. apply in_map. exact (Permutation_in _ (Permutation_sym HPk) Ht).
Qed.

(** Columns no filter touches. *)
Lemma copies_column (chain : list view) cols0 fs cols mult mult' offs m k : construct_chain (fe_load_plugin (en_filters E)) fs cols0 = Ok (chain, cols) -> NoDup cols0 -> In k cols0 ->
  (forall f, In f fs -> ~ may_change f k) -> (forall k, In k mult <-> In k mult') ->
  forall l g outs g1, (forall ri, In ri l -> length (fst ri) = length cols0) -> copies (run_filters (en_filters E) chain) (copy_of cols mult offs m) l g outs g1 ->
  forall g' outs' g1', copies (run_filters (en_filters E) chain) (copy_of cols mult' offs m) l g' outs' g1' ->
  Forall2 (fun o o' => rget (dict_of (combine cols o)) k = rget (dict_of (combine cols o')) k) outs outs'.
Proof.
  intros Hch Hnd Hk Hf Hm l g outs g1 Hlen H1 g' outs' g1' H2. apply copies_Forall2 in H1. apply copies_Forall2 in H2. revert outs outs' H1 H2.
  induction l as [|[r i] l IH]; intros outs outs' H1 H2; inversion H1 as [|? o ? os0 (ga & f & gb & F1 & Hl & C1) T1]; inversion H2 as [|? o' ? os1 (ga' & f' & gb' & F2 & Hl' & C2) T2]; subst; constructor.
  - cbn [fst snd] in *. specialize (Hlen _ (or_introl eq_refl)). cbn [fst] in Hlen. destruct (chain_untouched Hnd Hch Hlen F1 Hf) as [V1 _]. destruct (chain_untouched Hnd Hch Hlen F2 Hf) as [V2 _].
    destruct (value_of cols0 r k) as [v|] eqn:Ev.
    2:{ exfalso. clear - Ev Hk Hlen. unfold value_of in Ev. revert r Hlen Ev. induction cols0 as [|a l IH]; intros [|b r] Hlen Ev; try discriminate; [destruct Hk|]. cbn [combine dget] in Ev.
        destruct (eq_dec k a) as [->|Hne]; [discriminate|]. destruct Hk as [->|Hk]; [contradiction|]. exact (IH Hk r (eq_add_S _ _ Hlen) Ev). }
    pose proof (chain_NoDup Hch Hnd) as Hnd2.
    destruct (@Forall2_value (fun k0 x v => copy_value mult offs m i k0 x = Some v) _ _ _ _ _ Hl C1 V1) as (x & X1 & X2).
    destruct (@Forall2_value (fun k0 x v => copy_value mult' offs m i k0 x = Some v) _ _ _ _ _ Hl' C2 V2) as (y & Y1 & Y2). cbn beta in X2, Y2.
    assert (L1 := Forall2_len C1). rewrite combine_length, Hl, Nat.min_id in L1. assert (L2 := Forall2_len C2). rewrite combine_length, Hl', Nat.min_id in L2.
    rewrite (rget_dict_of Hnd2 (eq_sym L1) X1), (rget_dict_of Hnd2 (eq_sym L2) Y1).
    unfold copy_value in X2, Y2. destruct (in_dec string_dec k mult) as [I|I], (in_dec string_dec k mult') as [I'|I']; try (exfalso; apply I'; apply Hm; exact I); try (exfalso; apply I; apply Hm; exact I');
      (assert (Ex : Some x = Some y) by (rewrite <- X2; exact Y2); congruence).
  - apply IH; [intros ri Hri; apply Hlen; now right|exact T1|exact T2].
Qed.
Theorem file_columns_same dir truncate create g g0 w w0 w2 g2 w3 g3 t n tb : sc_output cfg = ToDirectory dir -> any_order (en_ord_str E) ->
  sample EE cfg p' truncate create g0 w0 = (w2, Ok g2) -> sample E cfg p truncate create g w = (w3, Ok g3) ->
  In t (dkeys (p_queries p)) -> named t n -> table_of (en_source_schema E) n tb ->
  Forall2 (fun row2 row3 => forall k, In k (tb_cols tb) -> (forall f, In f (filters_of cfg t) -> ~ may_change f k) -> rget row2 k = rget row3 k)
    (file_of (w_dest w2) (json_file dir t)) (file_of (w_dest w3) (json_file dir t)).
Proof.
  intros Ho Hord H2 H3 Ht Hn Htb. assert (HPk : Permutation (dkeys (p_queries p)) (dkeys (p_queries p'))) by exact (Permutation_map fst HP).
  assert (Hnd : NoDup (dkeys (p_queries p))).
  { destruct Hplan as (B1 & B2 & B3 & B4 & (ord & ordp & B5 & B6 & B7) & B8 & B9). exact (proj1 (PlanIOPlanner.planner_plain B7)). }
  destruct (OutputDirectory.directory_files Ho (Permutation_NoDup HPk Hnd) H2) as (ms2 & c2 & st2 & m2 & f2 & x2 & C2 & N2 & E2 & F2 & O2 & _).
  destruct (OutputDirectory.directory_files Ho Hnd H3) as (ms3 & c3 & st3 & m3 & f3 & x3 & C3 & N3 & E3 & F3 & O3 & _).
  assert (I2 : In t (map fst f2)) by (rewrite N2; exact (Permutation_in _ HPk Ht)). assert (I3 : In t (map fst f3)) by (rewrite N3; exact Ht).
  apply in_map_iff in I2. destruct I2 as ([t2 rows2] & Et2 & I2). apply in_map_iff in I3. destruct I3 as ([t3 rows3] & Et3 & I3). cbn in Et2, Et3. subst t2 t3.
  rewrite (F2 _ _ I2), (F3 _ _ I3). destruct (exports_export E2 I2) as (ga & gb & co2 & chain2 & cols2 & l2 & r2 & outs2 & R2 & Hc2 & Ec2 & L2 & Co2 & ->).
  destruct (exports_export E3 I3) as (gc & gd & co3 & chain3 & cols3 & l3 & r3 & outs3 & R3 & Hc3 & Ec3 & L3 & Co3 & ->).
  destruct (results_same C3 C2 R3 R2) as (_ & Ek & Er).
  assert (M3 := proj1 C3). assert (M2 := proj1 C2). change (en_fnm EE) with (en_fnm E) in M2; change (en_source_schema EE) with (en_source_schema E) in M2; rewrite <- (perm_meta _ _ _ HP), M3 in M2. injection M2 as <-.
  destruct (mults_same M3 Hord (proj1 (proj2 C3)) (proj1 (proj2 C2)) t) as [Etm Emc].
  specialize (L2 eq_refl). specialize (L3 eq_refl). subst r2 r3. rewrite app_nil_r in Ec2, Ec3. change (en_filters EE) with (en_filters E) in Hc2. rewrite Ek, Hc3 in Hc2. injection Hc2 as <- <-.
  assert (El : l2 = l3). { rewrite <- Ec2, <- Ec3, Etm. unfold result_rows. rewrite Er, Ek. reflexivity. } rewrite El, Etm in Co2.
  assert (Ecols : co_cols co3 = tb_cols tb /\ NoDup (tb_cols tb)).
  { pose proof C3 as (M & _ & C & S). destruct Henv as (A1 & A2 & A3). destruct (copied_columns A1 A2 A3 (sound_runnable M C) S R3) as (Hn' & m & Hm & ->). rewrite (named_fun Hn' Hn) in Hm.
    assert (Hdb := proj1 (proj2 (proj2 Hplan))). destruct (sampler_meta_spec (en_fnm E) (p_queries p) (sc_infer cfg) Hdb) as (ms' & E' & _ & B & _). rewrite M in E'. injection E' as <-.
    rewrite (MetadataFacts.table_of_fun Hdb Htb (B _ _ (dget_In Hm))). destruct (B _ _ (dget_In Hm)) as [Hti _]. split; [reflexivity|]. exact (proj1 (proj2 (proj2 Hdb _ Hti))). }
  destruct Ecols as [Ecols Hndc]. rewrite Ecols in Hc3.
  assert (Hlen : forall ri, In ri l3 -> length (fst ri) = length (tb_cols tb)).
  { intros [v i] Hri. rewrite <- Ec3 in Hri. apply each_copy_In in Hri. destruct Hri as [Hri _]. apply in_map_iff in Hri. destruct Hri as (r0 & <- & _). cbn [fst]. rewrite map_length, Ecols. reflexivity. }
  assert (Hl : length outs2 = length outs3) by (apply copies_Forall2 in Co2; apply copies_Forall2 in Co3; apply Forall2_len in Co2; apply Forall2_len in Co3; congruence).
  set (P := fun k => In k (tb_cols tb) /\ forall f, In f (filters_of cfg t) -> ~ may_change f k).
  assert (HF : Forall2 (fun o o' => forall k, P k -> rget (dict_of (combine cols3 o)) k = rget (dict_of (combine cols3 o')) k) outs2 outs3).
  { apply Forall2_all; [exact Hl|]. intros k [Hk Hf]. exact (copies_column Hc3 Hndc Hk Hf Emc Hlen Co2 Co3). }
  clear - HF. induction HF as [|o o' l l' H _ IH]; constructor; [|exact IH]. intros k Hk Hf. exact (H k (conj Hk Hf)).
Qed.
End Two.
