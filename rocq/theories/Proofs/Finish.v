(** Runs in which no row gets a key that is taken: they complete. *)
From Coq Require Import Lia Relations.
From Verif Require Import Model.Base Model.Value Model.Names Model.PlanModel Model.SqlAlgebra Model.PlanBuild Model.Metadata Model.Planner Model.Filters Model.Multiply Model.Materialize Model.Dest Model.Output Model.Sampler.
From Verif Require Import Spec.GraphSpec Spec.SchemaSpec Spec.SqlSem Spec.PlannerSpec Spec.FilterSpec Spec.OutputSpec Spec.RunSpec Spec.ConflictSpec Spec.SampleSpec Spec.WholeSpec Spec.CompactWholeSpec Spec.CopiesSpec Spec.MomentsSpec Spec.CompleteSpec Spec.FinishSpec.
From Verif Require Spec.MultiplySpec.
From Verif Require Import Proofs.BaseFacts Proofs.NameFacts Proofs.MetadataFacts Proofs.GraphFacts Proofs.FilterFacts Proofs.MultiplyFacts Proofs.MultiplyMain Proofs.CompactRun Proofs.SampleRun Proofs.SampleFinal Proofs.PlanRun Proofs.OutputRows Proofs.OutputRun Proofs.OutputDb Proofs.OutputCreate Proofs.OutputCopy Proofs.OutputSample Proofs.OutputColumn Proofs.OutputMain Proofs.OutputMerge Proofs.OutputKeys Proofs.WholeFk Proofs.WholeCompact Proofs.Complete Proofs.CompleteRun Proofs.FinishRows Proofs.FinishStart Proofs.Lockstep Proofs.Moments.
From Verif Require Import Model.Dest.
Set Implicit Arguments. Unset Strict Implicit.
Open Scope list_scope.
#[local] Arguments rn_names {id reopen ms source compact queries} _.
#[local] Arguments rn_fits {id reopen ms source compact queries} _ [s q n] _ _.
#[local] Arguments rn_meta {id reopen ms source compact queries} _.
#[local] Arguments rn_compact {id reopen ms source compact queries} _.
#[local] Arguments rn_governs {id reopen ms source compact queries} _ [n c d dc] _ _.

Lemma dense_nth start N num i j z : dense start N num -> nth_error num i = Some z -> nth_error num j = Some z -> i = j.
Proof.
  intros Hd Hi Hj. assert (Hnd : NoDup num).
  { refine (Permutation_NoDup (Permutation_sym Hd) _). apply FinFun.Injective_map_NoDup; [intros a b; lia|apply seq_NoDup]. }
  apply (proj1 (NoDup_nth_error num) Hnd); [apply nth_error_Some; congruence|congruence].
Qed.
Lemma dense_least start N num z : dense start N num -> In z num -> (start <= z)%Z.
Proof. intros Hd Hz. apply (Permutation_in _ Hd) in Hz. apply in_map_iff in Hz. destruct Hz as (i & <- & _). lia. Qed.
Lemma combine_nth_error {A B} (l : list A) : forall (l' : list B) i a b, nth_error (combine l l') i = Some (a, b) -> nth_error l i = Some a /\ nth_error l' i = Some b.
Proof. induction l as [|x l IH]; intros [|y l'] [|i] a b H; try discriminate; [injection H as -> ->; auto|exact (IH _ _ _ _ H)]. Qed.
Lemma distinguishes_sub cmpf ks l l' : distinguishes cmpf ks l -> incl l' l -> NoDup l' -> distinguishes cmpf ks l'.
Proof.
  intros Hd Hi Hn i j r r' Hr Hr' Hm. destruct (In_nth_error _ _ (Hi _ (nth_error_In _ _ Hr))) as (i0 & Hi0). destruct (In_nth_error _ _ (Hi _ (nth_error_In _ _ Hr'))) as (j0 & Hj0).
  assert (i0 = j0) as -> by exact (Hd i0 j0 r r' Hi0 Hj0 Hm). rewrite Hi0 in Hj0. injection Hj0 as ->.
  apply (proj1 (NoDup_nth_error l') Hn); [apply nth_error_Some; congruence|congruence].
Qed.

Section Result.
Context {G : Type}.
Variables (E : env G) (cfg : sampler_config) (p : plan) (pcfg : config).
Hypothesis He : env_ok E.
Hypothesis Hnum : numbers_rows E.
Hypothesis Hpl : planned_by E p pcfg.
Variables (ms : meta) (compact : dict tname (list string)).
Hypothesis Hrn : renumbers E cfg p ms compact.
Notation queries := (dkeys (p_queries p)).
Notation materialized := (materialize_tables (en_source E) (en_cmp E) (en_text E) (en_raw E) (en_rnd E) (en_rank E) (en_reopen E)
                              ms compact (cp_start (sc_compact cfg)) (en_ord_name E) (p_queries p)).
Variables (st : tstate) (t : string) (co : copied).
Hypothesis Hmat : materialized = Ok st.
Hypothesis Ht : In t queries.
Hypothesis Hres : result_of E cfg p ms compact st t co.

(** The rows of a result come from rows of the source. *)
Lemma result_origin : exists m rows num, In (co_name co, m) ms /\ co_cols co = tb_cols (tm_table m) /\
  (forall d md, In (d, md) ms -> dense (cp_start (sc_compact cfg)) (length (rows d)) (num d)) /\
  incl (rows (co_name co)) (en_source E (co_name co)) /\ NoDup (rows (co_name co)) /\
  (forall k d dc, governs ms compact (co_name co) k d dc -> exists md, In (d, md) ms) /\
  Forall2 (fun kr r' => changed (en_cmp E) ms compact rows num (co_name co) m (fst kr) (snd kr) r') (combine (num (co_name co)) (rows (co_name co))) (co_rows co).
Proof.
  assert (HR := renumbered_runnable Hpl Hrn). destruct He as (A1 & A2 & A3). destruct (copied_columns A1 A2 A3 HR Hmat Hres) as (Hn & m & Hm & Hcols).
  destruct Hpl as (Hcfg & Hxv & Hdb & Htf & (ord & ordp & Hord & Hordp & Hplan) & Hsrc & Hself). destruct Hrn as (Hms & Hcc & Hndc & Hcols' & Hlit & Hu & Hone).
  assert (Hex : extract (en_source E) (en_cmp E) (en_text E) (en_raw E) (en_raw_cols E) (en_rnd E) (en_rank E) (en_reopen E) ms compact (cp_start (sc_compact cfg)) (en_ord_name E) (p_queries p) [t] = Ok (st, [co])).
  { unfold extract. rewrite Hmat. cbn [bind mapM]. unfold result_of in Hres. rewrite Hres. reflexivity. }
  assert (Hrk : forall ph x, rank_ok (fun _ _ => False) (en_rank E ph x)). { intros ph x ks. split; [apply Hnum|]. intros i j a b y y' _ _ _ _ []. }
  destruct (compact_run Hdb Hord Hordp Hcfg Hxv Htf Hplan Hsrc Hself Hms HR A1 A2 Hrk Hu Hex) as (rows & num & R1 & R2 & R3 & R4 & R5 & _).
  assert (Hpn : planned p (co_name co)) by (exists t; auto). destruct (R2 _ Hpn) as [Hincl Hnd].
  exists m, rows, num. split; [exact (dget_In Hm)|]. split; [exact Hcols|]. split; [exact R1|]. split; [exact Hincl|]. split; [exact Hnd|].
  split; [|exact (R5 co m (or_introl eq_refl) (dget_In Hm) (R4 _ Hpn))].
  intros k d dc Hg. destruct (rn_governs HR (ex_intro _ t (conj Hn Ht)) Hg) as (_ & md & Hmd & _). eauto.
Qed.

Lemma result_separate ks : eq_symmetric (en_cmp E) -> eq_transitive (en_cmp E) -> eq_reflexive (en_cmp E) ->
  distinguishes (en_cmp E) ks (en_source E (co_name co)) -> incl ks (co_cols co) -> separate ks (co_rows co).
Proof.
  intros Hsym Htrans Hrefl Hd Hks i j r1 r2 Hi Hj Hc. destruct result_origin as (m & rows & num & Hm & Hcols & Hden & Hincl & Hnd & Hgov & HF).
  destruct (Forall2_nth HF Hi) as ([z r] & Hir & Hch). destruct (Forall2_nth HF Hj) as ([z' r'] & Hjr & Hch'). cbn [fst snd] in *.
  apply combine_nth_error in Hir, Hjr. destruct Hir as [Hiz Hir], Hjr as [Hjz Hjr]. apply clash_true in Hc. destruct Hc as [_ Hc].
  destruct (existsb (fun k => if existsb (fun e : tname * list string => eqb (fst e) (co_name co) && memb k (snd e)) compact then true else false) ks) eqn:Ex.
  - apply existsb_exists in Ex. destruct Ex as (k & Hk & Ex). destruct (existsb _ compact) eqn:Ec; [|discriminate]. apply existsb_exists in Ec. destruct Ec as ([d cs] & Hdc & Ec). apply andb_prop in Ec. destruct Ec as [E1 E2].
    apply (proj1 (eqb_true _ _)) in E1. cbn [fst snd] in *. subst d. apply memb_true in E2. assert (Hcomp : compacted compact (co_name co) k) by (exists cs; auto).
    assert (Hkc := Hks k Hk). rewrite Hcols in Hkc. destruct (Hch k Hkc) as (C1 & _). destruct (Hch' k Hkc) as (C1' & _). assert (Heq := proj2 (Hc k Hk)). rewrite (C1 Hcomp), (C1' Hcomp) in Heq. injection Heq as <-.
    exact (dense_nth (Hden _ _ Hm) Hiz Hjz).
  - apply (distinguishes_sub Hd Hincl Hnd Hir Hjr). intros k Hk. destruct (Hc k Hk) as [Hnn Heq]. assert (Hkc := Hks k Hk). rewrite Hcols in Hkc. destruct (Hch k Hkc) as (_ & C2 & C3). destruct (Hch' k Hkc) as (_ & C2' & C3').
    assert (Hnc : ~ compacted compact (co_name co) k).
    { intros (cs & Hcs & Hin). assert (X : false = true); [|discriminate]. rewrite <- Ex. apply existsb_exists. exists k. split; [exact Hk|].
      assert (Y : existsb (fun e : tname * list string => eqb (fst e) (co_name co) && memb k (snd e)) compact = true); [|rewrite Y; reflexivity].
      apply existsb_exists. exists (co_name co, cs). split; [exact Hcs|]. apply andb_true_intro. split; [apply eqb_true; reflexivity|apply memb_true; exact Hin]. }
    destruct (governs_or ms compact (co_name co) k) as [(d & dc & Hg)|Hg].
    + destruct (governs_decides (proj1 (meta_tables Hpl Hrn)) (rn_compact (renumbered_runnable Hpl Hrn)) Hg) as (d' & dc' & Hdec).
      destruct (Hgov _ _ _ (decides_governs Hdec)) as (md & Hmd).
      destruct (C2 Hnc _ _ Hdec) as [(x & s & y & X1 & X2 & X3 & X4)|[_ X4]]; [|rewrite X4 in Hnn; now elim Hnn].
      destruct (C2' Hnc _ _ Hdec) as [(x' & s' & y' & Y1 & Y2 & Y3 & Y4)|[_ Y4]]; [|rewrite Heq, Y4 in Hnn; now elim Hnn].
      rewrite X4, Y4 in Heq. injection Heq as <-. assert (x = x') by exact (dense_nth (Hden _ _ Hmd) X2 Y2). subst x'. rewrite X1 in Y1. injection Y1 as <-.
      destruct X3 as (P1 & P2 & P3), Y3 as (Q1 & Q2 & Q3). split; [exact P1|]. split; [exact Q1|]. eapply Htrans; [exact P3|]. rewrite Hsym. exact Q3.
    + rewrite (C3 Hnc Hg) in Hnn, Heq. rewrite (C3' Hnc Hg) in Heq. split; [exact Hnn|]. rewrite <- Heq. split; [exact Hnn|]. apply Hrefl. exact Hnn.
Qed.
Lemma result_least k : In k (co_cols co) -> (0 <= cp_start (sc_compact cfg))%Z -> (forall r z, In r (en_source E (co_name co)) -> rget r k = VInt z -> (0 <= z)%Z) ->
  forall r z, In r (co_rows co) -> rget r k = VInt z -> (0 <= z)%Z.
Proof.
  intros Hk Hst Hpos r1 z1 Hr1 Hz1. destruct result_origin as (m & rows & num & Hm & Hcols & Hden & Hincl & Hnd & Hgov & HF).
  destruct (In_nth_error _ _ Hr1) as (i & Hi). destruct (Forall2_nth HF Hi) as ([z r] & Hir & Hch). cbn [fst snd] in *. apply combine_nth_error in Hir. destruct Hir as [Hiz Hir].
  rewrite Hcols in Hk. destruct (Hch k Hk) as (C1 & C2 & C3). assert (Hr := Hincl _ (nth_error_In _ _ Hir)).
  destruct (compacted_or compact (co_name co) k) as [Hc|Hc].
  - rewrite (C1 Hc) in Hz1. injection Hz1 as <-. assert (Hx := dense_least (Hden _ _ Hm) (nth_error_In _ _ Hiz)). lia.
  - destruct (governs_or ms compact (co_name co) k) as [(d & dc & Hg)|Hg]; [|rewrite (C3 Hc Hg) in Hz1; exact (Hpos r z1 Hr Hz1)].
    destruct (governs_decides (proj1 (meta_tables Hpl Hrn)) (rn_compact (renumbered_runnable Hpl Hrn)) Hg) as (d' & dc' & Hdec).
    destruct (C2 Hc _ _ Hdec) as [(x & s & y & X1 & X2 & X3 & X4)|[_ X4]]; [|congruence]. rewrite X4 in Hz1. injection Hz1 as <-.
    destruct (Hgov _ _ _ (decides_governs Hdec)) as (md & Hmd). assert (Hx := dense_least (Hden _ _ Hmd) (nth_error_In _ _ X2)). lia.
Qed.
End Result.

(** ** The rows that are copied violate no key *)
Section Whole.
Context {G : Type}.
Variables (E : env G) (cfg : sampler_config) (p : plan) (pcfg : config) (ms : meta) (compact : dict tname (list string)).
Hypothesis He : env_ok E.
Hypothesis Hords : any_order (en_ord_str E).
Hypothesis Hnum : numbers_rows E.
Hypothesis Hpl : planned_by E p pcfg.
Hypothesis Hrn : renumbers E cfg p ms compact.
Hypothesis Hwork : filters_work E cfg p.
Hypothesis Hint : integers E.
Hypothesis Hunf : multiplied_unfiltered cfg p ms.
Hypothesis Hsym : eq_symmetric (en_cmp E).
Hypothesis Htrans : eq_transitive (en_cmp E).
Hypothesis Hrefl : eq_reflexive (en_cmp E).
Notation queries := (dkeys (p_queries p)).
Notation multiplied ms := (get_multiplied_columns (sc_multiplicity cfg) ms (en_src_int E) (en_ord_str E) p).
Notation materialized := (materialize_tables (en_source E) (en_cmp E) (en_text E) (en_raw E) (en_rnd E) (en_rank E) (en_reopen E)
                              ms compact (cp_start (sc_compact cfg)) (en_ord_name E) (p_queries p)).

Section Rest.
Variables (c : db_config) (truncate : bool) (mults : dict string (list string)) (T : list table) (o1 : db_output) (w0 : world).
Hypothesis Hval : validate_filters (fe_load_plugin (en_filters E)) (sc_filters cfg) ms = Ok tt.
Hypothesis Hmu : multiplied ms = Ok mults.
Hypothesis Hk1 : tracked (en_resub E) c queries T o1.
Hypothesis Hoff1 : ou_offsets o1 = [].
Variable d' : dest.
Hypothesis HTd : ds_tables d' = T.
Hypothesis Hmf : merges_fit E cfg p c d'.
Hypothesis Hfit : columns_fit E cfg p c d'.
Notation prepared d o2 := (db_prepare (en_resub E) (en_dst_int E) c d o1 ms (p_passthrough p) queries = Ok o2).

Lemma times_multiplied t ks : In t queries ->
  ((1 < mc_multiplier (sc_multiplicity cfg))%Z -> ~ MultiplySpec.excluded (sc_multiplicity cfg) p t -> exists k, In k ks /\ MultiplySpec.multiplied ms (sc_multiplicity cfg) p t k) ->
  times cfg mults t = 1%Z \/ exists k, In k ks /\ In k (mult_cols mults t).
Proof.
  intros Ht Hk. unfold times, mult_cols, dget_or. destruct (dget mults t) as [cs|] eqn:Hd; [|now left].
  destruct (Z_lt_le_dec 1 (mc_multiplier (sc_multiplicity cfg))) as [Hgt|Hle].
  2:{ exfalso. unfold get_multiplied_columns in Hmu. rewrite (proj2 (Z.leb_le _ _) Hle) in Hmu. injection Hmu as Hx. rewrite <- Hx in Hd. discriminate. }
  right. assert (HR := renumbered_runnable Hpl Hrn).
  pose proof (@multiplied_reflected (sc_multiplicity cfg) ms (en_src_int E) (en_ord_str E) p Hords) as HM. rewrite Hmu in HM.
  destruct HM as (_ & _ & H3 & H4).
  - intros s Hs. destruct (proj2 (rn_names HR) s Hs) as (n & Hn). apply key_dget in Hs. destruct Hs as (q & Hq). apply dget_In in Hq.
    destruct (rn_fits HR Hq Hn) as [Hkey _]. destruct (key_dget Hkey) as (m0 & Hm0). exists m0, n. split; [exact (proj2 (parse_named _ _) Hn)|exact Hm0].
  - exact Hgt.
  - assert (Hdm : dmem mults t = true) by (unfold dmem; rewrite Hd; reflexivity). apply H3 in Hdm. destruct (Hk Hgt (proj2 Hdm)) as (k & Hkk & Hm). exists k. split; [exact Hkk|]. apply (proj2 (H4 t cs Hd)). exact Hm.
Qed.

Section Table.
Variables (d : dest) (o2 : db_output) (st : tstate) (t : string) (n n' : tname) (tb : table) (g0 g1 : G) (whole : bool) (rows : list row) (ks : list string).
Hypothesis Hprep : prepared d o2.
Hypothesis Hmat : materialized = Ok st.
Hypothesis Ht : In t queries.
Hypothesis Hn : named t n.
Hypothesis Hgo : goes_to (en_resub E) (oc_remap c) n n'.
Hypothesis Htab : table_of T n' tb.
Hypothesis Htr : transfer E cfg p ms compact st mults c (ou_offsets o2) whole t g0 n' rows g1.
Hypothesis Hfree : key_free E cfg c p ms truncate w0 T t n n' ks.
Hypothesis Hstart : rows_of d n' = starting truncate w0 n'.

Lemma copied_fine : rows <> [] -> fine tb (starting truncate w0 n') ks rows.
Proof.
  intros Hne. destruct Htr as (co & chain & cols & l1 & l2 & outs & Hres & Hch & _ & Hec & _ & Hco & Erows).
  destruct (one_facts He Hnum Hpl Hrn Hwork Hint Hunf Hords Hmu Hval Hmat Ht Hres) as (m & chain' & cols' & F1 & F2 & F3 & F4 & F5 & F6 & F7 & F8 & F9 & F10).
  rewrite Hch in F7. injection F7 as <- <-. assert (Hname : co_name co = n) by exact (named_fun F2 Hn). rewrite Hname in *.
  destruct Hfree as (K1 & K2 & K3 & K4).
  assert (Hks : forall k, In k ks -> In k (co_cols co) /\ untouched_column E cfg t n' k).
  { intros k Hk. destruct (K2 k Hk) as [U1 U2]. split; [rewrite F3; exact (U2 _ F4)|exact U1]. }
  assert (Hmeta : exists tm, dget (ou_meta o1) n' = Some tm /\ tm_table tm = tb).
  { assert (Hkey : In n' (dkeys (ou_meta o1))) by (apply (tk_keys Hk1); exists n'; split; [exists t, n; auto|split; [eauto|apply rt_refl]]).
    destruct (key_dget Hkey) as (tm & Htm). exists tm. split; [exact Htm|]. exact (table_of_fun (tk_names Hk1) (proj1 (tk_tables Hk1 (dget_In Htm))) Htab). }
  destruct Hmeta as (tm & Htm & Etm).
  assert (Hmerged : forall k r, In r (co_rows co) -> In k (co_cols co) -> oc_merge c = true -> ~ In t (p_passthrough p) -> merge_column E cfg p T n n' k -> whole_number (rget r k)).
  { intros k r Hr Hkc Hm Hpt Hcol. destruct (@Hmf Hm t n Ht Hpt Hn) as (_ & _ & Hv). rewrite HTd in Hv. destruct (Hv n' k Hgo Hcol) as [_ V2].
    pose proof (value_origin He Hnum Hpl Hrn Hmat Ht Hres Hr Hkc) as Ho. rewrite Hname in Ho.
    destruct Ho as [(r0 & Hr0 & ->)|[(y & ->)|[-> _]]]; [exact (V2 r0 Hr0)|right; eauto|left; reflexivity]. }
  assert (Hwhole : forall k r, In k ks -> In r (co_rows co) -> In k (mult_cols mults t) \/ dget (dget_or (ou_offsets o2) n' []) k <> None -> whole_number (rget r k)).
  { intros k r Hk Hr Hor. destruct (Hks k Hk) as [Hkc _]. destruct Hor as [Hmk|Ho].
    - apply (F10 k (map (rget r) (co_cols co)) (rget r k) Hmk); [apply in_map_iff; eauto|exact (value_map_rget r Hkc)].
    - destruct (dget (dget_or (ou_offsets o2) n' []) k) as [z|] eqn:Hz; [|congruence]. destruct (shifted_column Hpl Hrn Hk1 Hoff1 Hprep Ht Hn Hgo Htm Hz) as (Hm & Hpt & Hcol).
      exact (Hmerged k r Hr Hkc Hm Hpt Hcol). }
  assert (Hsep : separate ks (co_rows co)).
  { apply (result_separate He Hnum Hpl Hrn Hmat Ht Hres Hsym Htrans Hrefl); [rewrite Hname; exact K1|intros k Hk; exact (proj1 (Hks k Hk))]. }
  assert (Hkeys : forall r, In r rows -> incl ks (dkeys r)) by (intros r Hr k Hk; destruct (Hks k Hk) as [A B]; exact (transfer_keys Htr Hres F6 A B Hr)).
  split; [|split; [exact Hkeys|split]].
  - assert (Htb : tb_name (tm_table m) = n) by exact (proj2 F4).
    destruct (@Hfit t (tm_table m) chain cols n' tb F5) as (I1 & _); [rewrite Htb; exact Hgo|rewrite HTd; exact Htab|].
    intros k Hk. apply I1. destruct rows as [|r0 rows0] eqn:Er; [congruence|]. assert (Hkr := Hkeys r0 (or_introl eq_refl) k Hk).
    assert (Hr0 : In r0 (map (fun o => dict_of (combine (filter (fun x => negb (en_computed E n' x)) cols) o)) outs)) by (rewrite <- Erows; left; reflexivity).
    apply in_map_iff in Hr0. destruct Hr0 as (o & <- & _). unfold dkeys in Hkr. apply in_map_iff in Hkr. destruct Hkr as ([k0 v] & Ek & Hkr). cbn [fst] in Ek. subst k0.
    assert (Hkv := SampleRun.dict_of_incl Hkr). apply in_combine_l in Hkv. apply filter_In in Hkv. exact (proj1 Hkv).
  - exact (transfer_separate Htr Hres F6 Hks Hwhole (times_multiplied Ht K3) Hsep).
  - intros r o Hr Ho. destruct K4 as [Hnil|(Hm & Hcs & k & Hk & Hfk & Hpos)]; [rewrite Hnil in Ho; destruct Ho|].
    destruct (clash ks r o) eqn:Hc; [|reflexivity]. exfalso. apply clash_true in Hc. destruct (proj2 Hc k Hk) as [Hnn Heq].
    destruct Hfk as (_ & Hpt & _ & _ & Hik & _ & Hnofk). destruct Hik as (tb' & Htab' & Hpk & Hdi). rewrite (table_of_fun (tk_names Hk1) Htab' Htab) in Hpk.
    assert (Hq : queries_ok (p_queries p)) by exact (rn_names (renumbered_runnable Hpl Hrn)).
    destruct (prepare_spec Hprep Hm (proj1 Hq) (lands_inj Hk1)) as (maxes & _ & _ & P3 & _). destruct (P3 t n n' tm Ht Hpt Hn Hgo Htm) as (sm & Hsm & Pn & _).
    assert (Hoff : off (ou_offsets o2) n' k = dget (key_offsets (en_dst_int E) d n' (tm_table tm)) k).
    { apply Pn. intros fk Hfk Hc1. elim (Hnofk fk); [exists ms, sm; split; [exact (proj1 Hrn)|auto]|exact Hc1]. }
    rewrite Etm in Hoff. rewrite (proj1 (key_offset_get (E := E) d Hpk Hdi)) in Hoff. assert (Hroom := room_key d n' k). rewrite <- Hoff in Hroom. rewrite <- Hstart in Ho.
    destruct (off (ou_offsets o2) n' k) as [z|] eqn:Hz; cbn [room] in Hroom.
    + destruct (transfer_above Htr Hres F6 Hks Hwhole Hk Hz (fun r y Hr Hy => result_least He Hnum Hpl Hrn Hmat Ht Hres (proj1 (Hks k Hk)) Hcs (eq_ind_r (fun x => forall r z, In r (en_source E x) -> rget r k = VInt z -> (0 <= z)%Z) Hpos Hname) Hr Hy) Hr) as [Hx|(y & Hx & Hle)]; [contradiction|].
      rewrite Hx in Heq. assert (Hy := proj2 Hroom o y Ho (eq_sym Heq)). lia.
    + assert (Hw : exists y, rget r k = VInt y).
      { destruct (In_nth_error _ _ Hr) as (i & Hi). destruct (transfer_nth Htr Hres F6 Hks Hi) as (r0 & a & q & Hq0 & _ & _ & Hv). specialize (Hv k Hk). unfold off in Hz. unfold copy_value in Hv. rewrite Hz in Hv.
        assert (Hw0 : whole_number (rget r0 k)). { apply (Hmerged k r0 (nth_error_In _ _ Hq0) (proj1 (Hks k Hk)) Hm Hpt). left. exists tb. auto. }
        destruct Hw0 as [Hx|(y & Hx)]; rewrite Hx in Hv; destruct (in_dec string_dec k (mult_cols mults t)); cbn [times_plus] in Hv; injection Hv as Hv; try congruence; rewrite <- Hv; eauto. }
      destruct Hw as (y & Hy). apply (Hroom o y Ho). congruence.
Qed.
End Table.

Hypothesis Hdl : strategy_supported p c.
Hypothesis Hcyc : forall n, ~ on_cycle (references T) n.
Hypothesis Hseq : sequences_fit E cfg p ms compact c.
Hypothesis Hfree : conflict_free E cfg c p ms truncate w0 T.
Hypothesis Hyes : forall d e, en_accepts E d e = true.
Notation landing := (lands (en_resub E) (oc_remap c)).
Notation send := (send (en_dflt E) (en_accepts E) OxDbError).

Definition emptied (dels : list tname) (w : world) : Prop :=
  tabs T w /\ (truncate = false -> dels = []) /\ forall n, rows_of (w_dest w) n = if in_dec eq_dec n dels then [] else rows_of (w_dest w0) n.
Definition skipped (t : string) (tb : table) : Prop := strategy_of c p t = SSkip /\ tb_pk tb <> [].
Definition ready_to_copy (o2 : db_output) (w : world) : Prop :=
  tabs T w /\ exists d, prepared d o2 /\ forall t n1 tb, In t queries -> landing t n1 -> table_of T n1 tb -> rows_of d n1 = starting truncate w0 n1.
Definition waiting (done : list string) (w : world) : Prop :=
  forall t n1 tb, In t queries -> ~ In t done -> landing t n1 -> table_of T n1 tb -> rows_of (w_dest w) n1 = starting truncate w0 n1.
Definition filling (t : string) (sent : list row) (w : world) : Prop :=
  forall n1 tb, landing t n1 -> table_of T n1 tb -> skipped t tb \/ exists l2, rows_of (w_dest w) n1 = starting truncate w0 n1 ++ l2 /\ Forall2 (made_of tb) sent l2.

Lemma sent_ok e w (Q : unit -> world -> Prop) : (exists d, exec (en_dflt E) (w_dest w) e = Some d /\ Q tt (mkWorld d (trace w ++ [e]))) -> only E (fun _ => False) (send e) w Q.
Proof. intros (d & Hx & HQ) w' r H. unfold Dest.send in H. rewrite Hyes, Hx in H. inv H. exact HQ. Qed.

Lemma rest_completes g w1 : tabs T w1 -> ds_rows (w_dest w1) = ds_rows (w_dest w0) ->
  only E (fun _ => False) (rest E cfg p ms truncate mults (OutDatabase c o1) g) w1 (fun _ _ => True).
Proof.
  intros HT1 Hrows1.
  refine (only_weaken (@database_rest _ E cfg p pcfg ms compact He Hords Hnum Hpl Hrn Hwork Hint Hunf c truncate mults T o1 Hval Hmu Hk1 Hoff1 d' HTd Hmf Hdl Hcyc Hfit Hseq (fun _ => False)
            emptied (fun o2 _ done w => ready_to_copy o2 w /\ waiting done w) (fun o2 _ done t sent w => ready_to_copy o2 w /\ waiting (done ++ [t]) w /\ filling t sent w)
            _ _ _ _ _ _ g w1 _) (fun _ _ _ => I)).
  - intros Htr dels n w Hn (HT & Hno & Hr). apply sent_ok. eexists. split; [reflexivity|]. split; [exact HT|]. split; [congruence|]. intros n0. cbn [w_dest].
    destruct (eq_dec n0 n) as [->|Hne]; [rewrite rows_with_same|rewrite rows_with_other by exact Hne]; (destruct (in_dec eq_dec _ (dels ++ [n])) as [Hi|Hi]).
    + reflexivity.
    + elim Hi. apply in_or_app. right. left. reflexivity.
    + rewrite Hr. destruct (in_dec eq_dec n0 dels) as [_|Hd]; [reflexivity|]. apply in_app_or in Hi. destruct Hi as [Hi|[Hi|[]]]; congruence.
    + rewrite Hr. destruct (in_dec eq_dec n0 dels) as [Hd|_]; [|reflexivity]. elim Hi. apply in_or_app. left. exact Hd.
  - intros dels w o2 st Hdels (HT & Hno & Hr) Hprep _.
    assert (Hs : forall t n1 tb, In t queries -> landing t n1 -> table_of T n1 tb -> rows_of (w_dest w) n1 = starting truncate w0 n1).
    { intros t n1 tb Ht (n & Hn & Hg) Htb. rewrite Hr. unfold starting. destruct truncate.
      - assert (Haff : affected (en_resub E) (oc_remap c) T queries n1) by (exists n1; split; [exists t, n; auto|split; [eauto|apply rt_refl]]).
        destruct (in_dec eq_dec n1 dels) as [_|Hi]; [reflexivity|]. elim Hi. exact (Hdels eq_refl n1 Haff).
      - rewrite (Hno eq_refl). destruct (in_dec eq_dec n1 []) as [[]|_]. reflexivity. }
    split; [split; [exact HT|exists (w_dest w); split; [exact Hprep|exact Hs]]|]. intros t n1 tb Ht _ Hl Htb. exact (Hs t n1 tb Ht Hl Htb).
  - intros o2 st done t more w Hins [HRe HW].
    assert (Htd : ~ In t done). { destruct Hins as (Hnd & _). apply NoDup_remove_2 in Hnd. intros F. apply Hnd. apply in_or_app. left. exact F. }
    assert (Htq : In t queries) by (apply (proj1 (proj2 Hins)); apply in_or_app; right; left; reflexivity).
    split; [exact HRe|]. split; [intros t0 n1 tb Ht0 Hnd0; apply (HW t0 n1 tb Ht0); intros F; apply Hnd0; apply in_or_app; left; exact F|].
    intros n1 tb Hl Htb. right. exists []. rewrite app_nil_r. split; [exact (HW t n1 tb Htq Htd Hl Htb)|constructor].
  - intros o2 st done t more n n' tb how cols g0 g1 sent b w Hins _ Hmat Hn Hgo Htab Htr Hb _ Hhow (HRe & HW & HF).
    assert (Htq : In t queries) by (apply (proj1 (proj2 Hins)); apply in_or_app; right; left; reflexivity).
    assert (Hlt : landing t n') by (exists n; auto). destruct HRe as (HT & d & Hprep & Hd).
    assert (Hfind : find_table T n' = Some tb).
    { unfold find_table. destruct (find _ T) as [tb'|] eqn:Hf.
      - apply find_some in Hf. destruct Hf as [Hin Hx]. apply (proj1 (eqb_true _ _)) in Hx. f_equal. exact (table_of_fun (tk_names Hk1) (conj Hin Hx) Htab).
      - exfalso. pose proof (find_none _ _ Hf _ (proj1 Htab)) as Hx. cbn beta in Hx. rewrite (proj2 Htab), (proj2 (eqb_true _ _) eq_refl) in Hx. discriminate. }
    assert (Hx : exists l, insert_rows (en_dflt E) tb how (rows_of (w_dest w) n') b = Some l /\ (skipped t tb \/ exists l2, l = starting truncate w0 n' ++ l2 /\ Forall2 (made_of tb) (sent ++ b) l2)).
    { assert (Hsk : skipped t tb -> exists l, insert_rows (en_dflt E) tb how (rows_of (w_dest w) n') b = Some l /\ (skipped t tb \/ exists l2, l = starting truncate w0 n' ++ l2 /\ Forall2 (made_of tb) (sent ++ b) l2)).
      { intros Hs. assert (how = LeaveOut) as ->.
        { destruct Hs as [Hs Hpk]. unfold conflict_insert in Hhow. destruct (is_nil (tb_pk tb)) eqn:Hnil; [destruct (tb_pk tb); [congruence|discriminate]|]. rewrite Hs in Hhow.
          apply bind_Ok in Hhow. destruct Hhow as ([cs s] & Hx & Hhow). apply bind_Ok in Hx. destruct Hx as (s0 & _ & Hx). injection Hx as <- <-. destruct (oc_dialect c); inversion Hhow; reflexivity. }
        destruct (leave_out_total (en_dflt E) tb (rows_of (w_dest w) n') b) as (l & Hl). eauto. }
      destruct (HF n' tb Hlt Htab) as [Hs|(l2 & Hl2 & Hmade)]; [exact (Hsk Hs)|]. destruct (Hfree Htq Hn Hgo Htab) as [Hs|Hkf]; [exact (Hsk Hs)|].
      destruct (@insert_free (en_dflt E) tb how (starting truncate w0 n') b sent l2 Hmade) as (l3 & Hi & Hm3).
      { intros ks Hks Hne. apply (copied_fine Hprep Hmat Htq Hn Hgo Htab Htr (Hkf ks Hks Hne) (Hd t n' tb Htq Hlt Htab)). destruct sent; [destruct b; [congruence|discriminate]|discriminate]. }
      rewrite Hl2, Hi. exists (starting truncate w0 n' ++ l3). split; [reflexivity|]. right. eauto. }
    destruct Hx as (l & Hl & Hcase). apply sent_ok. exists (with_rows (w_dest w) n' l). split; [cbn [exec]; unfold tabs in HT; rewrite HT, Hfind, Hl; reflexivity|].
    split; [split; [exact HT|exists d; auto]|]. split.
    + intros t0 n1 tb0 Ht0 Hnd0 Hl0 Htb0. cbn [w_dest]. destruct (eq_dec n1 n') as [->|Hne].
      * elim Hnd0. rewrite (lands_inj Hk1 Ht0 Htq Hl0 Hlt). apply in_or_app. right. left. reflexivity.
      * rewrite rows_with_other by exact Hne. exact (HW t0 n1 tb0 Ht0 Hnd0 Hl0 Htb0).
    + intros n1 tb0 Hl0 Htb0. cbn [w_dest]. rewrite (lands_fun Hl0 Hlt) in *. rewrite (table_of_fun (tk_names Hk1) Htb0 Htab). rewrite rows_with_same. exact Hcase.
  - intros _ o2 st done t n' z sent w _ _ Hser (HRe & HW & HF). apply sent_ok. exists (set_seq (w_dest w) n' z). split.
    { cbn [exec]. destruct HRe as (HT & _). unfold tabs in HT. rewrite HT, Hser. reflexivity. }
    destruct (set_seq_same (w_dest w) n' z) as (S1 & S0 & _). assert (S2 : forall n1, rows_of (set_seq (w_dest w) n' z) n1 = rows_of (w_dest w) n1) by (intros n1; unfold rows_of; rewrite S0; reflexivity).
    split; [split; [unfold tabs; cbn [w_dest]; rewrite S1; exact (proj1 HRe)|exact (proj2 HRe)]|]. split.
    + intros t0 n1 tb Ht0 Hnd Hl Htb. cbn [w_dest]. rewrite S2. exact (HW t0 n1 tb Ht0 Hnd Hl Htb).
    + intros n1 tb Hl Htb. cbn [w_dest]. rewrite S2. exact (HF n1 tb Hl Htb).
  - intros o2 st done t sent w (HRe & HW & _). auto.
  - split; [exact HT1|]. split; [reflexivity|]. intros n. unfold rows_of. rewrite Hrows1. destruct (in_dec eq_dec n []) as [[]|_]. reflexivity.
Qed.
End Rest.

Lemma finishes c truncate create g w : run_ok E cfg c p (w_dest w) -> strategy_supported p c -> sequences_fit E cfg p ms compact c ->
  accepted E cfg p ms -> placed E c p -> (create = true -> creatable E c p (w_dest w)) -> (forall d e, en_accepts E d e = true) ->
  forall w' r, sample E cfg p truncate create g w = (w', r) ->
  (create = false -> ds_tables (w_dest w') = ds_tables (w_dest w)) /\
  (merges_fit E cfg p c (w_dest w') -> (forall n, ~ on_cycle (references (ds_tables (w_dest w'))) n) -> columns_fit E cfg p c (w_dest w') ->
   conflict_free E cfg c p ms truncate w (ds_tables (w_dest w')) -> exists g', r = Ok g').
Proof.
  intros Hok Hdl Hseq Hacc Hpla Hcr Hyes w' r H.
  destruct (starts Hords Hpl Hrn Hpla truncate g Hok Hacc Hcr Hyes) as (mults & o0 & o1 & w1 & Hval & Hmu & Ho0 & Hop & Heq). rewrite Heq in H.
  destruct (opened Hpl Hrn Hok Ho0 Hop) as (ts & Hk1 & Hoff1 & HT & Hrw). assert (HTw := keeps_rest H). split.
  { intros ->. destruct Hop as [-> _]. exact HTw. }
  intros Hmf Hcyc Hfit Hfree. rewrite HT in HTw. rewrite HTw in Hcyc, Hfree.
  assert (Hx := @rest_completes c truncate mults _ o1 w Hval Hmu Hk1 Hoff1 (w_dest w') HTw Hmf Hfit Hdl Hcyc Hseq Hfree Hyes g w1 HT Hrw _ _ H).
  destruct r as [g'|x]; [eauto|]. destruct Hx as (_ & e & [] & _).
Qed.
End Whole.

(** A destination that enforces its foreign keys. *)
Section Enforced.
Context {G : Type}.
Variables (E : env G) (cfg : sampler_config) (p : plan) (c : db_config).
Theorem enforced_finishes pcfg ms compact truncate create g w w' r :
  sound_run E cfg p pcfg ms compact -> eq_transitive (en_cmp E) -> eq_reflexive (en_cmp E) ->
  enforces_keys E -> good_start E cfg c p pcfg w -> accepted E cfg p ms -> placed E c p -> (create = true -> creatable E c p (w_dest w)) ->
  fitting E cfg p ms compact c (w_dest w) (w_dest w') -> conflict_free E cfg c p ms truncate w (ds_tables (w_dest w')) ->
  (forall n tb fk, table_of (ds_tables (w_dest w')) n tb -> In fk (tb_fks tb) ->
     respected E cfg c p pcfg truncate w (ds_tables (w_dest w')) n fk /\ fk_holds (en_cmp E) fk (rows_of (w_dest w) n) (rows_of (w_dest w) (fk_dst fk))) ->
  sample E cfg p truncate create g w = (w', r) -> (exists g', r = Ok g') \/ create = true /\ w' = w.
Proof.
  intros (He & Hords & Hnum & Hpl & Hrn & Hwork & Hint & Hunf) Htrans Hrefl Henf Hgood Hacc Hpla Hcr (Hok & Hmf & Hdl & Hcyc & Hfit & Hseq) Hfree Hfks H.
  destruct (sample (unchecked E) cfg p truncate create g w) as [w2 r2] eqn:H2.
  pose proof (proj1 (proj2 (proj2 (proj2 Hgood)))) as Hnil. pose proof (proj1 (proj2 (proj2 (proj2 (proj2 Hgood))))) as Hsym.
  destruct (@finishes _ (unchecked E) cfg p pcfg ms compact He Hords Hnum Hpl Hrn Hwork Hint Hunf Hsym Htrans Hrefl c truncate create g w (later_ok (fun _ _ => true) Hok) Hdl Hseq Hacc Hpla Hcr (fun _ _ => eq_refl) w2 r2 H2) as [Hf1 Hf2].
  destruct (lock_sample H (accepts := fun _ _ => true) H2) as (t1 & t2 & T1 & R1 & T2 & R2 & Hcase). rewrite Hnil in T1, T2. cbn in T1, T2.
  assert (Htabs : ds_tables (w_dest w') = ds_tables (w_dest w2) \/ create = true /\ w' = w).
  { destruct Hcase as [(-> & -> & _)|[(e & _ & F1 & _ & more & Hm)|(e & _ & F & _)]]; [now left| |discriminate].
    assert (Hi : initial_part t1 (trace w2)) by (exists (e :: more); rewrite T2; exact Hm).
    destruct (moment_tables (E := unchecked E) (later_ok (fun _ _ => true) Hok) Hnil H2 Hi R1) as [F|Htab]; [|left; exact Htab].
    assert (Hw : w' = w). { rewrite F in R1, T1. inversion R1 as [d Hd|]; subst. destruct w' as [dw' tw'], w as [dw tw]. cbn in *. congruence. }
    destruct create; [right; auto|left]. rewrite Hw. symmetry. apply Hf1. reflexivity. }
  destruct Htabs as [Htabs|Hw]; [|right; exact Hw]. left.
  assert (Hr2 : exists g', r2 = Ok g').
  { apply Hf2.
    - unfold merges_fit in *. cbn [unchecked en_resub en_source]. rewrite <- Htabs. exact Hmf.
    - rewrite <- Htabs. exact Hcyc.
    - unfold columns_fit in *. rewrite <- Htabs. exact Hfit.
    - rewrite <- Htabs. exact Hfree. }
  destruct Hr2 as (g' & ->). rewrite Htabs in Hfks. rewrite (enforcing_same Henf Hgood H2 Hfks) in H. injection H as _ <-. eauto.
Qed.
End Enforced.
