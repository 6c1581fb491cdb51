(** Whole runs of plans of the planner: nothing but the destination stops them once they have begun to write. *)
From Coq Require Import Lia Relations.
From Verif Require Import Model.Base Model.Value Model.Names Model.PlanModel Model.SqlAlgebra Model.PlanBuild Model.Metadata Model.Planner Model.Filters Model.Multiply Model.Materialize Model.Dest Model.Output Model.Sampler.
From Verif Require Import Spec.GraphSpec Spec.SchemaSpec Spec.SqlSem Spec.PlannerSpec Spec.FilterSpec Spec.OutputSpec Spec.RunSpec Spec.SampleSpec Spec.WholeSpec Spec.CompactWholeSpec Spec.CompleteSpec.
From Verif Require Spec.MultiplySpec.
From Verif Require Proofs.OutputEvents.
From Verif Require Import Proofs.BaseFacts Proofs.NameFacts Proofs.MetadataFacts Proofs.GraphFacts Proofs.FilterFacts Proofs.MultiplyFacts Proofs.MultiplyMain Proofs.CompactRun Proofs.SampleFinal Proofs.PlanRun Proofs.OutputRows Proofs.OutputRun Proofs.OutputDb Proofs.OutputCreate Proofs.OutputCopy Proofs.OutputSample Proofs.OutputColumn Proofs.OutputMain Proofs.OutputMerge Proofs.WholeFk Proofs.WholeCompact Proofs.Complete.
From Verif Require Import Model.Dest.
Set Implicit Arguments. Unset Strict Implicit.
Open Scope list_scope.
#[local] Arguments rn_names {id reopen ms source compact queries} _.
#[local] Arguments rn_fits {id reopen ms source compact queries} _ [s q n] _ _.
#[local] Arguments rn_meta {id reopen ms source compact queries} _.
#[local] Arguments rn_compact {id reopen ms source compact queries} _.

Lemma governs_or ms compact n c : (exists d dc, governs ms compact n c d dc) \/ forall d dc, ~ governs ms compact n c d dc.
Proof.
  set (b := existsb (fun nm : tname * tmeta => eqb (fst nm) n && existsb (fun fk => existsb (fun cd => eqb (fst cd) c &&
    existsb (fun e : tname * list string => eqb (fst e) (fk_dst fk) && memb (snd cd) (snd e)) compact) (combine (fk_cols fk) (fk_dst_cols fk))) (tm_fks (snd nm))) ms).
  destruct b eqn:Eb; unfold b in Eb; clear b.
  - left. apply existsb_exists in Eb. destruct Eb as ([n0 m] & Hm & Eb). apply andb_prop in Eb. destruct Eb as [En Eb]. apply (proj1 (eqb_true _ _)) in En. cbn [fst snd] in *. subst n0.
    apply existsb_exists in Eb. destruct Eb as (fk & Hfk & Eb). apply existsb_exists in Eb. destruct Eb as ([c0 dc] & Hcd & Eb). apply andb_prop in Eb. destruct Eb as [Ec Eb].
    apply (proj1 (eqb_true _ _)) in Ec. cbn [fst snd] in *. subst c0. apply existsb_exists in Eb. destruct Eb as ([d cs] & Hd & Eb). apply andb_prop in Eb. destruct Eb as [Ed Eb].
    apply (proj1 (eqb_true _ _)) in Ed. cbn [fst snd] in *. subst d. exists (fk_dst fk), dc, m, fk. split; [exact Hm|]. split; [exact Hfk|]. split; [reflexivity|]. split; [exact Hcd|].
    exists cs. split; [exact Hd|apply memb_true; exact Eb].
  - right. intros d dc (m & fk & Hm & Hfk & <- & Hcd & cs & Hcs & Hin).
    assert (X : false = true); [|discriminate]. rewrite <- Eb. apply existsb_exists. exists (n, m). split; [exact Hm|]. apply andb_true_intro. split; [apply eqb_true; reflexivity|].
    apply existsb_exists. exists fk. split; [exact Hfk|]. apply existsb_exists. exists (c, dc). split; [exact Hcd|]. apply andb_true_intro. split; [apply eqb_true; reflexivity|].
    apply existsb_exists. exists (fk_dst fk, cs). split; [exact Hcs|]. apply andb_true_intro. split; [apply eqb_true; reflexivity|apply memb_true; exact Hin].
Qed.
Lemma compacted_or (compact : dict tname (list string)) n c : compacted compact n c \/ ~ compacted compact n c.
Proof.
  destruct (existsb (fun e : tname * list string => eqb (fst e) n && memb c (snd e)) compact) eqn:Eb.
  - left. apply existsb_exists in Eb. destruct Eb as ([d cs] & Hd & Eb). apply andb_prop in Eb. destruct Eb as [Ed Eb]. apply (proj1 (eqb_true _ _)) in Ed. cbn [fst snd] in *. subst d.
    exists cs. split; [exact Hd|apply memb_true; exact Eb].
  - right. intros (cs & Hcs & Hin). assert (X : false = true); [|discriminate]. rewrite <- Eb. apply existsb_exists. exists (n, cs). split; [exact Hcs|].
    apply andb_true_intro. split; [apply eqb_true; reflexivity|apply memb_true; exact Hin].
Qed.

Section Run.
Context {G : Type}.
Variables (E : env G) (cfg : sampler_config) (p : plan) (pcfg : config).
Hypothesis He : env_ok E.
Hypothesis Hnum : numbers_rows E.
Hypothesis Hpl : planned_by E p pcfg.
Variables (ms : meta) (compact : dict tname (list string)).
Hypothesis Hrn : renumbers E cfg p ms compact.
Notation queries := (dkeys (p_queries p)).
Notation materialized := (materialize_tables (en_source E) (en_cmp E) (en_text E) (en_raw E) (en_rnd E) (en_rank E) (en_reopen E)
                              ms compact (cp_start (sc_compact cfg)) (en_ord_name E) (p_queries p)).

Let HR : runnable id_column (en_reopen E) ms (en_source E) compact (p_queries p).
Proof. exact (renumbered_runnable Hpl Hrn). Qed.

Lemma source_runs ts : incl ts queries -> exists st, materialized = Ok st /\ forall t, In t ts -> exists co, result_of E cfg p ms compact st t co.
Proof.
  intros Hts. destruct He as (A1 & A2 & A3).
  destruct (@runnable_total (en_source E) (en_cmp E) (en_text E) (en_raw E) (en_raw_cols E) (en_rank E) (en_reopen E) ms compact (cp_start (sc_compact cfg)) A3 (en_rnd E) (en_ord_name E) (p_queries p) ts A1 A2 HR) as (st & outs & Hex).
  { intros s Hs. exact (proj2 (rn_names HR) s (Hts s Hs)). }
  unfold extract in Hex. apply bind_Ok in Hex. destruct Hex as (st' & Hst & Hex). apply bind_Ok in Hex. destruct Hex as (l & Hl & Hex). injection Hex as -> _.
  exists st. split; [exact Hst|]. intros t Ht. unfold result_of. apply mapM_Ok in Hl. clear -Hl Ht Hts.
  induction Hl as [|a b ts l Hab Hl IH]; [destruct Ht|]. destruct Ht as [->|Ht]; [|apply IH; [intros x Hx; apply Hts; right; exact Hx|exact Ht]].
  destruct b as [co|]; [exists co; exact Hab|]. exfalso. unfold copy_table in Hab. apply bind_Ok in Hab. destruct Hab as (n & _ & Hab).
  destruct (key_dget (Hts t (or_introl eq_refl))) as (q & Hq). rewrite Hq in Hab. apply bind_Ok in Hab. destruct Hab as (x & _ & Hx). discriminate.
Qed.

Lemma meta_tables : meta_ok ms /\ (forall n m, In (n, m) ms -> table_of (en_source_schema E) n (tm_table m)) /\ db_ok (en_source_schema E).
Proof.
  destruct Hpl as (_ & _ & Hdb & _). destruct (sampler_meta_spec (en_fnm E) (p_queries p) (sc_infer cfg) Hdb) as (ms' & E' & B & C & _). destruct Hrn as (Hms & _). rewrite Hms in E'. injection E' as <-. auto.
Qed.

Lemma value_origin st t co r' k : materialized = Ok st -> In t queries -> result_of E cfg p ms compact st t co -> In r' (co_rows co) -> In k (co_cols co) ->
  (exists r, In r (en_source E (co_name co)) /\ rget r' k = rget r k) \/ (exists z, rget r' k = VInt z) \/
  (rget r' k = VNull /\ exists d dc, governs ms compact (co_name co) k d dc).
Proof.
  intros Hmat Ht Hres Hr' Hk. pose proof meta_tables as HMT. pose proof (rn_compact HR) as HMC. destruct He as (A1 & A2 & A3). destruct (copied_columns A1 A2 A3 HR Hmat Hres) as (Hn & m & Hm & Hcols).
  destruct Hpl as (Hcfg & Hxv & Hdb & Htf & (ord & ordp & Hord & Hordp & Hplan) & Hsrc & Hself). destruct Hrn as (Hms & Hcc & Hndc & Hcols' & Hlit & Hu & Hone).
  assert (Hex : extract (en_source E) (en_cmp E) (en_text E) (en_raw E) (en_raw_cols E) (en_rnd E) (en_rank E) (en_reopen E) ms compact (cp_start (sc_compact cfg)) (en_ord_name E) (p_queries p) [t] = Ok (st, [co])).
  { unfold extract. rewrite Hmat. cbn [bind mapM]. unfold result_of in Hres. rewrite Hres. reflexivity. }
  assert (Hrk : forall ph x, rank_ok (fun _ _ => False) (en_rank E ph x)). { intros ph x ks. split; [apply Hnum|]. intros i j a b y y' _ _ _ _ []. }
  destruct (compact_run Hdb Hord Hordp Hcfg Hxv Htf Hplan Hsrc Hself Hms HR A1 A2 Hrk Hu Hex) as (rows & num & R1 & R2 & R3 & R4 & R5 & _).
  assert (Hpn : planned p (co_name co)) by (exists t; auto).
  pose proof (R5 co m (or_introl eq_refl) (dget_In Hm) (R4 _ Hpn)) as HF. destruct (R2 _ Hpn) as [Hincl _].
  destruct (In_nth_error _ _ Hr') as (i & Hi).
  assert (Hx : exists kr, In kr (combine (num (co_name co)) (rows (co_name co))) /\ changed (en_cmp E) ms compact rows num (co_name co) m (fst kr) (snd kr) r').
  { clear -HF Hr'. induction HF as [|a b l l' Hab HF IH]; [destruct Hr'|]. destruct Hr' as [->|Hr']; [exists a; split; [left; reflexivity|exact Hab]|]. destruct (IH Hr') as (kr & Hkr & Hc). exists kr. split; [right; exact Hkr|exact Hc]. }
  destruct Hx as ([z r] & Hin & Hch). cbn [fst snd] in Hch. apply in_combine_r in Hin. apply Hincl in Hin. rewrite Hcols in Hk. destruct (Hch k Hk) as (C1 & C2 & C3).
  destruct (compacted_or compact (co_name co) k) as [Hc|Hc]; [right; left; eauto|]. destruct (governs_or ms compact (co_name co) k) as [(d & dc & Hg)|Hg]; [|left; exists r; split; [exact Hin|exact (C3 Hc Hg)]].
  destruct (governs_decides (proj1 HMT) HMC Hg) as (d' & dc' & Hd). right. destruct (C2 Hc _ _ Hd) as [(j & s & y & _ & _ & _ & ->)|[_ ->]]; [left; eauto|right; split; [reflexivity|eauto]].
Qed.

Hypothesis Hwork : filters_work E cfg p.
Hypothesis Hint : integers E.
Hypothesis Hunf : multiplied_unfiltered cfg p ms.
Hypothesis Hords : any_order (en_ord_str E).
Variable mults : dict string (list string).
Hypothesis Hmults : get_multiplied_columns (sc_multiplicity cfg) ms (en_src_int E) (en_ord_str E) p = Ok mults.
Hypothesis Hval : validate_filters (fe_load_plugin (en_filters E)) (sc_filters cfg) ms = Ok tt.

Lemma mult_whole t m k : MultiplySpec.source_table ms t m -> In k (mult_cols mults t) ->
  (1 < mc_multiplier (sc_multiplicity cfg))%Z /\ MultiplySpec.multiplied ms (sc_multiplicity cfg) p t k /\ en_src_int E (tm_name m) k = true.
Proof.
  intros Hst Hk. unfold mult_cols in Hk.
  destruct (Z_lt_le_dec 1 (mc_multiplier (sc_multiplicity cfg))) as [Hgt|Hle].
  2:{ unfold get_multiplied_columns in Hmults. rewrite (proj2 (Z.leb_le _ _) Hle) in Hmults. injection Hmults as <-. destruct Hk. }
  pose proof (@multiplied_reflected (sc_multiplicity cfg) ms (en_src_int E) (en_ord_str E) p Hords) as HM. rewrite Hmults in HM.
  destruct HM as (_ & H2 & _ & H4).
  - intros s Hs. destruct (proj2 (rn_names HR) s Hs) as (n & Hn). unfold MultiplySpec.planned in Hs. apply key_dget in Hs. destruct Hs as (q & Hq). apply dget_In in Hq.
    destruct (rn_fits HR Hq Hn) as [Hkey _]. destruct (key_dget Hkey) as (m0 & Hm0). exists m0, n. split; [exact (proj2 (parse_named _ _) Hn)|exact Hm0].
  - exact Hgt.
  - unfold dget_or in Hk. destruct (dget mults t) as [cs|] eqn:Hd; [|destruct Hk]. destruct (H4 t cs Hd) as [_ H5]. apply H5 in Hk. split; [exact Hgt|]. split; [exact Hk|].
    destruct (en_src_int E (tm_name m) k) eqn:Ei; [reflexivity|]. elim H2. exists t, m, k. auto.
Qed.

Lemma validated t n m : In (n, m) ms -> named t n -> In t queries -> exists chain cols, chain_of E cfg p t (tm_table m) chain cols.
Proof.
  intros Hm Hn Ht.
  assert (Hx : exists x, construct_chain (fe_load_plugin (en_filters E)) (filters_of cfg t) (tb_cols (tm_table m)) = Ok x).
  { unfold filters_of, dget_or. destruct (dget (sc_filters cfg) t) as [fs|] eqn:Hd; [|cbn; eauto]. apply dget_In in Hd. unfold validate_filters in Hval.
    assert (Hg : dget ms n = Some m) by (apply In_dget; [apply meta_tables|exact Hm]).
    revert Hval Hd. generalize (sc_filters cfg) as l. generalize tt at 1 as u. induction l as [|[s f0] l IH]; intros Hv Hd; [destruct Hd|]. cbn [forM] in Hv. apply bind_Ok in Hv. destruct Hv as (u' & Hv & Hrest).
    destruct Hd as [Heq|Hd]; [|destruct u'; exact (IH Hrest Hd)]. injection Heq as -> ->. cbn [fst snd] in Hv. destruct (is_nil fs) eqn:Hnil; [destruct fs; [cbn; eauto|discriminate]|].
    unfold parse_name in Hv. rewrite (proj2 (parse_named _ _) Hn) in Hv. cbn [bind] in Hv. rewrite Hg in Hv. apply bind_Ok in Hv. destruct Hv as (x & Hx & _).
    unfold of_filter in Hx. destruct (construct_chain _ fs _) as [y|]; [eauto|discriminate]. }
  destruct Hx as ([chain cols] & Hx). exists chain, cols. split; [exact Ht|]. split; [|exact Hx]. exists n. split; [exact Hn|]. exact (proj1 (proj2 meta_tables) _ _ Hm).
Qed.

Section One.
Variables (st : tstate) (t : string) (co : copied).
Hypothesis Hmat : materialized = Ok st.
Hypothesis Ht : In t queries.
Hypothesis Hres : result_of E cfg p ms compact st t co.

Lemma one_facts : exists m chain cols, In (co_name co, m) ms /\ named t (co_name co) /\ co_cols co = tb_cols (tm_table m) /\ table_of (en_source_schema E) (co_name co) (tm_table m) /\
  chain_of E cfg p t (tm_table m) chain cols /\ NoDup (co_cols co) /\
  construct_chain (fe_load_plugin (en_filters E)) (filters_of cfg t) (co_cols co) = Ok (chain, cols) /\
  (forall r g, length r = length (co_cols co) -> exists out, run_filters (en_filters E) chain r g = Ok out) /\
  (forall k f, In k (mult_cols mults t) -> In f (filters_of cfg t) -> ~ may_change f k) /\
  (forall k r v, In k (mult_cols mults t) -> In r (result_rows co) -> value_of (co_cols co) r k = Some v -> whole_number v).
Proof.
  destruct He as (A1 & A2 & A3). destruct (copied_columns A1 A2 A3 HR Hmat Hres) as (Hn & m & Hm & Hcols). assert (Hin := dget_In Hm).
  destruct (validated Hin Hn Ht) as (chain & cols & Hch). destruct meta_tables as (Hmo & Htab & Hdb). assert (Htb := Htab _ _ Hin).
  assert (Hsrc : MultiplySpec.source_table ms t m) by (exists (co_name co); split; [exact (proj2 (parse_named _ _) Hn)|exact Hm]).
  exists m, chain, cols. split; [exact Hin|]. split; [exact Hn|]. split; [exact Hcols|]. split; [exact Htb|]. split; [exact Hch|]. rewrite Hcols.
  split; [exact (proj1 (proj2 (proj2 Hdb _ (proj1 Htb))))|]. split; [exact (proj2 (proj2 Hch))|]. split; [|split].
  - intros r g Hl. exact (Hwork g Hch Hl).
  - intros k f Hk Hf. destruct (mult_whole Hsrc Hk) as (Hgt & Hmul & _). exact (Hunf Hgt Hmul Hf).
  - intros k r v Hk Hr Hv. unfold result_rows in Hr. apply in_map_iff in Hr. destruct Hr as (r' & <- & Hr'). rewrite Hcols in Hv.
    assert (Hkc : In k (tb_cols (tm_table m))) by exact (value_key Hv). rewrite (value_map_rget r' Hkc) in Hv. injection Hv as <-.
    destruct (mult_whole Hsrc Hk) as (_ & _ & Hi). rewrite (proj2 Hmo _ _ Hin) in Hi. rewrite <- Hcols in Hkc.
    destruct (value_origin Hmat Ht Hres Hr' Hkc) as [(r & Hr & ->)|[(z & ->)|[-> _]]]; [exact (Hint Hi Hr)|right; eauto|left; reflexivity].
Qed.
End One.

Lemma copy_only iss (Inv : list string -> world -> Prop) o order g w : Inv [] w -> incl order queries ->
  forall st, materialized = Ok st ->
  (forall done more t co m chain cols, order = done ++ t :: more -> result_of E cfg p ms compact st t co -> In (co_name co, m) ms -> named t (co_name co) ->
     co_cols co = tb_cols (tm_table m) -> table_of (en_source_schema E) (co_name co) (tm_table m) ->
     chain_of E cfg p t (tm_table m) chain cols -> NoDup (co_cols co) ->
     construct_chain (fe_load_plugin (en_filters E)) (filters_of cfg t) (co_cols co) = Ok (chain, cols) ->
     (forall r g, length r = length (co_cols co) -> exists out, run_filters (en_filters E) chain r g = Ok out) ->
     (forall k f, In k (mult_cols mults t) -> In f (filters_of cfg t) -> ~ may_change f k) ->
     (forall k r v, In k (mult_cols mults t) -> In r (result_rows co) -> value_of (co_cols co) r k = Some v -> whole_number v) ->
     forall g w, Inv done w ->
       only E iss (output_result_set E o (p_passthrough p) (co_name co) chain cols (result_rows co) (times cfg mults t) (mult_cols mults t) g) w (fun _ => Inv (done ++ [t]))) ->
  only E iss (copy_results E cfg o p ms compact st mults order g) w (fun _ => Inv order).
Proof.
  intros HI Hincl st Hmat Hout. unfold copy_results.
  refine (@only_for_prefix _ E iss _ _ _ (fun done _ => Inv done) order order [] _ w eq_refl HI _). intros done t more g1 w1 Hall HI1.
  assert (Ht : In t order) by (rewrite Hall; apply in_or_app; right; left; reflexivity).
  destruct (source_runs Hincl) as (st' & Hmat' & Hr). rewrite Hmat in Hmat'. injection Hmat' as <-. destruct (Hr t Ht) as (co & Hres).
  destruct (one_facts Hmat (Hincl t Ht) Hres) as (m & chain & cols & F1 & F2 & F3 & F4 & F5 & F6 & F7 & F8 & F9 & F10).
  unfold copy_one. apply (only_bind (P := fun x w' => x = Some co /\ Inv done w')); [apply (only_lift (Some co)); [unfold result_of in Hres; rewrite Hres; reflexivity|auto]|].
  intros x w2 [-> HI2]. apply (only_bind (P := fun x w' => x = (chain, cols) /\ Inv done w')); [apply (only_lift (chain, cols)); [unfold filters_of in F7; rewrite F7; reflexivity|auto]|].
  intros x w3 [-> HI3]. exact (Hout done more t co m chain cols Hall Hres F1 F2 F3 F4 F5 F6 F7 F8 F9 F10 g1 w3 HI3).
Qed.
End Run.

(** ** Programs that leave the tables of the destination as they are *)
Section Keeps.
Context {G : Type}.
Variable E : env G.
Notation send := (send (en_dflt E) (en_accepts E) OxDbError).
Definition keeps {A} (m : io out_exn A) : Prop := forall w w' r, m w = (w', r) -> ds_tables (w_dest w') = ds_tables (w_dest w).
Lemma keeps_ret {A} (a : A) : keeps (ret a).
Proof. intros w w' r H. inv H. reflexivity. Qed.
Lemma keeps_lift {A} (x : ores A) : keeps (lift x).
Proof. intros w w' r H. apply lift_inv in H. destruct H as [-> _]. reflexivity. Qed.
Lemma keeps_reading {A} (x : dest -> ores A) : keeps (reading x).
Proof. intros w w' r H. inv H. reflexivity. Qed.
Lemma keeps_bind {A B} (m : io out_exn A) (k : A -> io out_exn B) : keeps m -> (forall a, keeps (k a)) -> keeps (bind_io m k).
Proof.
  intros Hm Hk w w' r H. apply bind_io_inv in H. destruct H as [(w1 & a & H1 & H)|(e & H1 & ->)]; [|exact (Hm _ _ _ H1)].
  rewrite (Hk a _ _ _ H). exact (Hm _ _ _ H1).
Qed.
Lemma keeps_for {S A} (f : S -> A -> io out_exn S) : (forall s a, keeps (f s a)) -> forall l s, keeps (for_io f l s).
Proof. intros Hf. induction l as [|a l IH]; intros s; cbn [for_io]; [apply keeps_ret|]. apply keeps_bind; [apply Hf|exact IH]. Qed.
Lemma keeps_send e : (forall ts, e <> EvCreate ts) -> keeps (send e).
Proof.
  intros He w w' r H. unfold Dest.send in H. destruct (en_accepts E (w_dest w) e); [|inv H; reflexivity].
  destruct (exec (en_dflt E) (w_dest w) e) as [d|] eqn:Hx; inv H; [|reflexivity]. cbn [w_dest]. destruct e as [ts|n|n how rows|n v|q|q r]; try exact (proj1 (setval_same Hx)); cbn [exec] in Hx; [now elim (He ts)|..].
  - injection Hx as <-. reflexivity.
  - destruct (find_table (ds_tables (w_dest w)) n) as [t|]; [|discriminate]. destruct (insert_rows (en_dflt E) t how (rows_of (w_dest w) n) rows) as [l|]; [|discriminate]. injection Hx as <-. reflexivity.
  - injection Hx as <-. reflexivity.
  - injection Hx as <-. reflexivity.
Qed.
Lemma keeps_output o ps n chain cols rows m mult g : keeps (output_result_set E o ps n chain cols rows m mult g).
Proof.
  destruct o as [dir|c o]; cbn [output_result_set].
  - unfold directory_output. apply keeps_bind; [apply keeps_send; discriminate|]. intros u. apply keeps_for. intros s a. apply keeps_bind; [apply keeps_lift|].
    intros [out g']. apply keeps_bind; [apply keeps_send; discriminate|]. intros v. apply keeps_ret.
  - unfold database_output. assert (Hfl : forall cs t cs' b, keeps (flush (en_dflt E) (en_accepts E) c cs t cs' b)).
    { intros. unfold flush. apply keeps_bind; [apply keeps_lift|]. intros. apply keeps_send; discriminate. }
    apply keeps_bind; [apply keeps_lift|]. intros n'. apply keeps_bind; [apply keeps_lift|]. intros tm. destruct (negb _); [apply keeps_lift|].
    apply keeps_bind. { destruct (is_nil _); [apply keeps_ret|]. apply keeps_bind; [apply keeps_lift|]. intros. apply keeps_ret. }
    intros [chain' cols']. apply keeps_bind.
    { apply keeps_for. intros s a. unfold loop_body. apply keeps_bind; [apply keeps_lift|]. intros [out g']. apply keeps_bind.
      { destruct (match needs_updating c with true => _ | false => _ end); [|apply keeps_ret]. apply keeps_bind; [apply keeps_lift|]. intros. apply keeps_lift. }
      intros mx. destruct (Nat.ltb _ _); [|apply keeps_ret]. apply keeps_bind; [apply Hfl|]. intros. apply keeps_ret. }
    intros s. apply keeps_bind. { destruct (is_nil _); [apply keeps_ret|apply Hfl]. } intros u. apply keeps_bind; [|intros; apply keeps_ret].
    unfold autoincrement_update. destruct (needs_updating c); [|apply keeps_ret]. destruct (en_autoinc E n') as [ac|]; [|apply keeps_ret].
    destruct (lp_max s); try apply keeps_ret; try apply keeps_lift. destruct (en_currval E n') as [cv|]; [destruct (z <? cv)%Z; [apply keeps_bind; [apply keeps_reading|intros [sm|]; [apply keeps_ret|apply keeps_send; discriminate]]|]|]; (apply keeps_send; discriminate).
Qed.
Lemma keeps_copy cfg p o ms compact st mults order g : keeps (copy_results E cfg o p ms compact st mults order g).
Proof.
  unfold copy_results. apply keeps_for. intros s a. unfold copy_one. apply keeps_bind; [apply keeps_lift|]. intros [co|]; [|apply keeps_ret].
  apply keeps_bind; [apply keeps_lift|]. intros [chain cols]. apply keeps_output.
Qed.
End Keeps.

(** ** Preparing a merge *)
Section Prepare.
Variables (resub : string -> string -> string -> string) (is_int : tname -> string -> bool) (c : db_config) (d : dest) (o : db_output) (smeta : meta) (pt : list string).
Definition ready (t : string) : Prop :=
  exists n n' m sm, named t n /\ remap_table resub c n = Ok n' /\ dget (ou_meta o) n' = Some m /\ dget smeta n = Some sm /\
    forall fk k, In fk (tm_fks sm) -> fk_cols fk = [k] -> exists dm, dget smeta (fk_dst fk) = Some dm.
Definition has (offs : dict tname (dict string Z)) (n' : tname) : Prop := exists l, dget offs n' = Some l.
Lemma has_dset offs n' x l : has offs n' -> has (dset offs x l) n'.
Proof. intros (l0 & H). unfold has. destruct (eq_dec x n') as [->|Hne]; [rewrite dget_dset_eq; eauto|rewrite dget_dset_ne by congruence; eauto]. Qed.
Lemma pass_memb t : memb t (set_of pt) = true <-> In t pt.
Proof. rewrite memb_true. apply set_of_In. Qed.

Lemma keys_total : forall qs acc, (forall t, In t qs -> ~ In t pt -> ready t) ->
  exists offs maxes, forM (keys_step resub is_int c d pt o) qs acc = Ok (offs, maxes) /\
    (forall n', has (fst acc) n' -> has offs n') /\
    forall t n n', In t qs -> ~ In t pt -> named t n -> remap_table resub c n = Ok n' -> has offs n'.
Proof.
  induction qs as [|q qs IH]; intros [offs maxes] Hr; cbn [forM].
  { exists offs, maxes. split; [reflexivity|]. split; [auto|intros t n n' []]. }
  assert (Hr' : forall t, In t qs -> ~ In t pt -> ready t) by (intros t Ht; apply Hr; right; exact Ht).
  assert (Hs : exists acc', keys_step resub is_int c d pt o (offs, maxes) q = Ok acc' /\ (forall n', has offs n' -> has (fst acc') n') /\
    (~ In q pt -> forall n n', named q n -> remap_table resub c n = Ok n' -> has (fst acc') n')).
  { unfold keys_step. destruct (memb q (set_of pt)) eqn:Em.
    - apply pass_memb in Em. exists (offs, maxes). split; [reflexivity|]. split; [auto|contradiction].
    - assert (Hp : ~ In q pt) by (intros F; apply pass_memb in F; congruence). destruct (Hr q (or_introl eq_refl) Hp) as (n & n' & m & sm & Hn & Hg & Hm & _).
      unfold parse_name. rewrite (proj2 (parse_named _ _) Hn). cbn [bind]. rewrite Hg. cbn [bind]. unfold find_key, dfind. rewrite Hm. cbn [bind].
      assert (Hnow : forall l, has (dset offs n' l) n') by (intros l; exists l; apply dget_dset_eq).
      assert (Hq : forall o1, has o1 n' -> ~ In q pt -> forall n0 n1, named q n0 -> remap_table resub c n0 = Ok n1 -> has o1 n1).
      { intros o1 Ho _ n0 n1 Hn0 Hg0. rewrite (named_fun Hn0 Hn), Hg in Hg0. injection Hg0 as <-. exact Ho. }
      assert (Hk : forall mx, (forall n0, has offs n0 -> has (fst (dset offs n' [], mx)) n0) /\ (~ In q pt -> forall n0 n1, named q n0 -> remap_table resub c n0 = Ok n1 -> has (fst (dset offs n' [], mx : dict string (option Z))) n1)).
      { intros mx. split; [intros n0 H0; apply has_dset; exact H0|apply Hq, Hnow]. }
      destruct (tb_pk (tm_table m)) as [|k [|k2 ks]]; [eexists; split; [reflexivity|apply Hk]| |eexists; split; [reflexivity|apply Hk]].
      destruct (is_int n' k); [|eexists; split; [reflexivity|apply Hk]]. eexists. split; [reflexivity|]. destruct (max_value (rows_of d n') k) as [v|]; [|apply Hk].
      cbn [fst]. split; [intros n0 H0; apply has_dset, has_dset; exact H0|apply Hq, has_dset, Hnow]. }
  destruct Hs as (acc' & Hs & H1 & H2). rewrite Hs. cbn [bind]. destruct (IH acc' Hr') as (offs' & maxes' & Hf & H3 & H4). exists offs', maxes'. split; [exact Hf|].
  split; [intros n' Hn'; apply H3, H1, Hn'|]. intros t n n' [<-|Ht] Hp Hn Hg; [apply H3, (H2 Hp n n' Hn Hg)|exact (H4 t n n' Ht Hp Hn Hg)].
Qed.

Lemma fks_total maxes n n' : remap_table resub c n = Ok n' -> forall fks offs, has offs n' ->
  (forall fk k, In fk fks -> fk_cols fk = [k] -> exists dm, dget smeta (fk_dst fk) = Some dm) ->
  exists offs', forM (fk_step resub c smeta maxes n) fks offs = Ok offs' /\ forall x, has offs x -> has offs' x.
Proof.
  intros Hg. induction fks as [|fk fks IH]; intros offs Hh Hd; cbn [forM]; [exists offs; auto|].
  assert (Hs : exists offs1, fk_step resub c smeta maxes n offs fk = Ok offs1 /\ forall x, has offs x -> has offs1 x).
  { unfold fk_step. destruct (fk_cols fk) as [|k [|k2 ks]] eqn:Ef; [exists offs; auto| |exists offs; auto].
    destruct (Hd fk k (or_introl eq_refl) Ef) as (dm & Hdm). unfold find_key at 1, dfind. rewrite Hdm. cbn [bind].
    destruct (eqb (fk_dst_cols fk) (tb_pk (tm_table dm))); [|exists offs; auto]. destruct (dget_or maxes (render (fk_dst fk)) None) as [v|]; [|exists offs; auto].
    rewrite Hg. cbn [bind]. destruct Hh as (l & Hl). unfold find_key, dfind. rewrite Hl. cbn [bind]. eexists. split; [reflexivity|]. intros x Hx. apply has_dset. exact Hx. }
  destruct Hs as (offs1 & Hs & H1). rewrite Hs. cbn [bind]. destruct (IH offs1 (H1 _ Hh)) as (offs' & Hf & H2); [intros fk' k Hin; apply Hd; right; exact Hin|].
  exists offs'. split; [exact Hf|]. intros x Hx. apply H2, H1, Hx.
Qed.
Lemma refs_total maxes : forall qs offs, (forall t, In t qs -> ~ In t pt -> ready t) ->
  (forall t n n', In t qs -> ~ In t pt -> named t n -> remap_table resub c n = Ok n' -> has offs n') ->
  exists offs', forM (refs_step resub c pt smeta maxes) qs offs = Ok offs'.
Proof.
  induction qs as [|q qs IH]; intros offs Hr Hh; cbn [forM]; [eauto|].
  assert (Hr' : forall t, In t qs -> ~ In t pt -> ready t) by (intros t Ht; apply Hr; right; exact Ht).
  assert (Hs : exists offs1, refs_step resub c pt smeta maxes offs q = Ok offs1 /\ forall x, has offs x -> has offs1 x).
  { unfold refs_step. destruct (memb q (set_of pt)) eqn:Em; [exists offs; auto|]. assert (Hp : ~ In q pt) by (intros F; apply pass_memb in F; congruence).
    destruct (Hr q (or_introl eq_refl) Hp) as (n & n' & m & sm & Hn & Hg & Hm & Hsm & Hfk). unfold parse_name. rewrite (proj2 (parse_named _ _) Hn). cbn [bind]. unfold find_key, dfind. rewrite Hsm. cbn [bind].
    exact (@fks_total maxes n n' Hg (tm_fks sm) offs (Hh q n n' (or_introl eq_refl) Hp Hn Hg) Hfk). }
  destruct Hs as (offs1 & Hs & H1). rewrite Hs. cbn [bind]. apply IH; [exact Hr'|]. intros t n n' Ht Hp Hn Hg. apply H1, (Hh t n n' (or_intror Ht) Hp Hn Hg).
Qed.
Lemma prepare_total qs : (oc_merge c = true -> forall t, In t qs -> ~ In t pt -> ready t) ->
  exists o2, db_prepare resub is_int c d o smeta pt qs = Ok o2 /\ ou_meta o2 = ou_meta o.
Proof.
  intros Hr. unfold db_prepare. destruct (oc_merge c); cbn [negb]; [|eauto]. specialize (Hr eq_refl).
  destruct (keys_total ([], []) Hr) as (offs & maxes & Hk & _ & Hh). assert (Hk' : merge_keys resub is_int c d o pt qs = Ok (offs, maxes)) by exact Hk. rewrite Hk'. cbn [bind].
  destruct (refs_total maxes Hr Hh) as (offs2 & Hf). assert (Hf' : merge_references resub c smeta maxes pt qs offs = Ok offs2) by exact Hf. rewrite Hf'. cbn [bind]. eexists. split; [reflexivity|]. reflexivity.
Qed.
End Prepare.

(** ** The runs *)
Section Whole.
Context {G : Type}.
Variables (E : env G) (cfg : sampler_config) (p : plan) (pcfg : config) (ms : meta) (compact : dict tname (list string)).
Hypothesis He : env_ok E.
Hypothesis Hords : any_order (en_ord_str E).
Hypothesis Hnum : numbers_rows E.
Hypothesis Hpl : planned_by E p pcfg.
Hypothesis Hrn : renumbers E cfg p ms compact.
Hypothesis Hwork : filters_work E cfg p.
Hypothesis Hint : integers E.
Hypothesis Hunf : multiplied_unfiltered cfg p ms.
Notation queries := (dkeys (p_queries p)).
Notation stops t w x := (stopped_by_destination E cfg p t (w_dest w) x).
Notation multiplied ms := (get_multiplied_columns (sc_multiplicity cfg) ms (en_src_int E) (en_ord_str E) p).

(** What follows the creation of tables. *)
Definition rest (truncate : bool) (mults : dict string (list string)) (o : output) (g : G) : io out_exn G :=
  let+ order := lift (insertion_order E queries o) in
  let+ _ := if truncate then truncate_tables E o else ret tt in
  let+ o := prepare E ms (p_passthrough p) queries o in
  let+ compact := lift (of_samp (get_compact_columns (sc_compact cfg) (p_passthrough p) ms (en_src_int E) (en_src_autoinc E))) in
  let+ st := lift (of_samp (materialize_tables (en_source E) (en_cmp E) (en_text E) (en_raw E) (en_rnd E) (en_rank E) (en_reopen E)
                              ms compact (cp_start (sc_compact cfg)) (en_ord_name E) (p_queries p))) in
  copy_results E cfg o p ms compact st mults order g.
Lemma keeps_rest truncate mults o g : keeps (rest truncate mults o g).
Proof.
  unfold rest. apply keeps_bind; [apply keeps_lift|]. intros order. apply keeps_bind.
  { destruct truncate; [|apply keeps_ret]. destruct o as [dir|c o]; cbn [truncate_tables]; [apply keeps_ret|]. unfold db_truncate. apply keeps_bind; [apply keeps_lift|].
    intros ord. apply keeps_for. intros s a. apply keeps_send; discriminate. }
  intros u'. apply keeps_bind.
  { destruct o as [dir|c o]; cbn [prepare]; [apply keeps_ret|]. apply keeps_bind; [apply keeps_reading|]. intros. apply keeps_ret. }
  intros o2. apply keeps_bind; [apply keeps_lift|]. intros cc. apply keeps_bind; [apply keeps_lift|]. intros st. apply keeps_copy.
Qed.

Lemma sample_rest truncate create g w w' r : sample E cfg p truncate create g w = (w', r) ->
  ((exists e, r = Err e) /\ w' = w) \/
  exists mults o w1,
    validate_filters (fe_load_plugin (en_filters E)) (sc_filters cfg) ms = Ok tt /\ multiplied ms = Ok mults /\
    match sc_output cfg with
    | ToDirectory dir => o = OutDirectory dir /\ w1 = w
    | ToDatabase c => exists o0 o1, o = OutDatabase c o1 /\ db_init (en_fnm E) (en_resub E) c (w_dest w) queries = Ok o0 /\
        (if create then db_create (en_dflt E) (en_accepts E) o0 ms w = (w1, Ok o1) else w1 = w /\ o1 = o0)
    end /\ rest truncate mults o g w1 = (w', r).
Proof.
  intros H. unfold sample in H. destruct Hrn as (Hms & _).
  apply bind_io_inv in H. destruct H as [(w1 & ms0 & H1 & H)|(e & H1 & ->)]; [|left; apply lift_inv in H1; destruct H1 as [-> _]; eauto].
  apply lift_inv in H1. destruct H1 as [-> Hms']. rewrite Hms in Hms'. cbn [of_meta] in Hms'. inv Hms'.
  apply bind_io_inv in H. destruct H as [(w1 & u & H1 & H)|(e & H1 & ->)]; [|left; apply lift_inv in H1; destruct H1 as [-> _]; eauto].
  apply lift_inv in H1. destruct H1 as [-> Hval]. destruct u.
  apply bind_io_inv in H. destruct H as [(w1 & mults & H1 & H)|(e & H1 & ->)]; [|left; apply lift_inv in H1; destruct H1 as [-> _]; eauto].
  apply lift_inv in H1. destruct H1 as [-> Hmu]. unfold of_mult in Hmu. destruct (multiplied ms) as [mm|] eqn:Emu; [|discriminate]. inv Hmu.
  unfold open_output in H. destruct (sc_output cfg) as [dir|c] eqn:Hout.
  { right. exists mults, (OutDirectory dir), w. split; [exact Hval|]. split; [reflexivity|]. split; [auto|].
    apply bind_io_inv in H. destruct H as [(w1 & o & H1 & H)|(e & H1 & _)]; [|inv H1]. inv H1.
    apply bind_io_inv in H. destruct H as [(w2 & o & H1 & H)|(e & H1 & _)]; [|destruct create; inv H1]. destruct create; inv H1; exact H. }
  apply bind_io_inv in H. destruct H as [(w1 & oo & H1 & H)|(e & H1 & ->)].
  2:{ left. apply bind_io_inv in H1. destruct H1 as [(w1 & o & H1 & H2)|(e' & H1 & _)]; [inv H2|]. inv H1. eauto. }
  apply bind_io_inv in H1. destruct H1 as [(w2 & o & H1 & H2)|(e' & _ & Hx)]; [|discriminate]. inv H2. injection H1 as <- Hinit.
  apply bind_io_inv in H. destruct H as [(w1 & oo & H1 & H)|(e & H1 & ->)].
  2:{ left. destruct create; [|inv H1]. cbn [create_tables] in H1. apply bind_io_inv in H1. destruct H1 as [(w1 & o' & H1 & H2)|(e' & H1 & _)]; [inv H2|].
      apply create_err in H1. subst. eauto. }
  right. exists mults, oo, w1. split; [exact Hval|]. split; [reflexivity|]. split; [|exact H].
  destruct create.
  - cbn [create_tables] in H1. apply bind_io_inv in H1. destruct H1 as [(w1' & o' & H1 & H2)|(e' & _ & Hx)]; [|discriminate]. inv H2. exists o, o'. auto.
  - inv H1. exists o, o. auto.
Qed.

Lemma directory_rest dir truncate mults g w D : sc_output cfg = ToDirectory dir ->
  validate_filters (fe_load_plugin (en_filters E)) (sc_filters cfg) ms = Ok tt -> multiplied ms = Ok mults ->
  only E (issued E cfg p D truncate) (rest truncate mults (OutDirectory dir) g) w (fun _ => tabs (ds_tables (w_dest w))).
Proof.
  intros Hout Hval Hmu.
  unfold rest. cbn [insertion_order truncate_tables prepare].
  apply (only_bind (P := fun a w1 => a = queries /\ tabs (ds_tables (w_dest w)) w1)); [apply (only_lift queries); [reflexivity|split; reflexivity]|]. intros a w1 [-> HT1].
  apply (only_bind (P := fun _ w1 => tabs (ds_tables (w_dest w)) w1)); [destruct truncate; apply only_ret; exact HT1|]. intros [] w2 HT2.
  apply (only_bind (P := fun a w1 => a = OutDirectory dir /\ tabs (ds_tables (w_dest w)) w1)); [apply only_ret; auto|]. intros a w3 [-> HT3].
  destruct Hrn as (Hms & Hcc & Hrest). apply (only_bind (P := fun a w1 => a = compact /\ tabs (ds_tables (w_dest w)) w1)); [apply (only_lift compact); [rewrite Hcc; reflexivity|auto]|]. intros a w4 [-> HT4].
  destruct (source_runs He Hpl (conj Hms (conj Hcc Hrest)) (incl_refl queries)) as (st & Hst & _).
  apply (only_bind (P := fun a w1 => a = st /\ tabs (ds_tables (w_dest w)) w1)); [apply (only_lift st); [rewrite Hst; reflexivity|auto]|]. intros a w5 [-> HT5].
  refine (@copy_only _ E cfg p pcfg He Hnum Hpl ms compact (conj Hms (conj Hcc Hrest)) Hwork Hint Hunf Hords mults Hmu Hval _ (fun _ => tabs (ds_tables (w_dest w))) _ queries g w5 HT5 (incl_refl queries) st Hst _).
  intros done more t co m chain cols Hall _ _ F2 _ _ _ F6 F7 F8 F9 F10 g1 w6 HT6. cbn [output_result_set].
  assert (Ht : In t queries) by (rewrite Hall; apply in_or_app; right; left; reflexivity).
  apply (directory_only F7 F6 F8); [|exact F9|exact F10|exact HT6|].
  2:{ intros e Hev. unfold issued. rewrite Hout. exists t, (co_name co), (dir ++ "/" ++ render (co_name co) ++ ".json")%string. split; [exact Ht|]. split; [exact F2|]. split; [reflexivity|exact Hev]. }
  intros r Hr. unfold result_rows in Hr. apply in_map_iff in Hr. destruct Hr as (y & <- & _). apply map_length.
Qed.

Theorem directory_run dir truncate create g w w' x : sc_output cfg = ToDirectory dir ->
  sample E cfg p truncate create g w = (w', Err x) -> w' = w \/ stops truncate w' x.
Proof.
  intros Hout H. apply sample_rest in H. destruct H as [[_ H]|(mults & o & w1 & Hval & Hmu & Ho & H)]; [now left|]. right. rewrite Hout in Ho. destruct Ho as [-> ->].
  exact (directory_rest (ds_tables (w_dest w')) Hout Hval Hmu H).
Qed.
Lemma accepted_checks : accepted E cfg p ms ->
  validate_filters (fe_load_plugin (en_filters E)) (sc_filters cfg) ms = Ok tt /\ exists mults, multiplied ms = Ok mults.
Proof.
  intros [Hf Hm]. split.
  - unfold validate_filters. revert Hf. generalize (sc_filters cfg) as l. induction l as [|[t fs] l IH]; intros Hf; [reflexivity|]. cbn [forM fst snd].
    assert (Hrest := IH (fun t' fs' Hin => Hf t' fs' (or_intror Hin))). destruct fs as [|f fs]; cbn [is_nil]; [exact Hrest|].
    destruct (Hf t (f :: fs) (or_introl eq_refl) ltac:(discriminate)) as [(n & Hn) Hc]. unfold parse_name. rewrite (proj2 (parse_named _ _) Hn). cbn [bind].
    destruct (dget ms n) as [m|] eqn:Hd; [|exact Hrest]. destruct (Hc n m Hn (dget_In Hd)) as (x & Hx). rewrite Hx. cbn [of_filter bind]. exact Hrest.
  - destruct (Z_lt_le_dec 1 (mc_multiplier (sc_multiplicity cfg))) as [Hgt|Hle].
    + destruct (Hm Hgt) as ((W1 & W2) & N1 & N2). pose proof (@multiplied_reflected (sc_multiplicity cfg) ms (en_src_int E) (en_ord_str E) p Hords W1 Hgt) as HM.
      destruct (multiplied ms) as [mults|e]; [eauto|]. exfalso. destruct HM as [(_ & [HM|HM])|(_ & t & m & k & A & B & C)]; [exact (N1 HM)|exact (N2 HM)|exact (C (W2 _ _ _ A B))].
    + unfold get_multiplied_columns. rewrite (proj2 (Z.leb_le _ _) Hle). eauto.
Qed.
Theorem directory_completes dir truncate create g w : sc_output cfg = ToDirectory dir -> accepted E cfg p ms -> (forall d e, en_accepts E d e = true) ->
  exists w' g', sample E cfg p truncate create g w = (w', Ok g').
Proof.
  intros Hout Hacc Hyes. destruct (accepted_checks Hacc) as [Hval (mults & Hmu)].
  assert (Heq : sample E cfg p truncate create g w = rest truncate mults (OutDirectory dir) g w).
  { unfold rest, sample, bind_io, lift. destruct Hrn as (Hms & _). rewrite Hms. cbn [of_meta]. rewrite Hval. cbv beta iota. rewrite Hmu. cbn [of_mult]. unfold open_output. rewrite Hout. destruct create; reflexivity. }
  rewrite Heq. destruct (rest truncate mults (OutDirectory dir) g w) as [w' r] eqn:Hr. destruct r as [g'|x]; [eauto|].
  exfalso. destruct (directory_rest [] Hout Hval Hmu Hr) as (_ & e & Hi & [Ha|(n & how & rows & t & -> & _)]).
  - rewrite Hyes in Ha. discriminate.
  - unfold issued in Hi. rewrite Hout in Hi. destruct Hi as (s & n0 & f & _ & _ & _ & [Hx|(r & Hx)]); discriminate.
Qed.

(** The columns that are shifted. *)
Section Shifted.
Variables (c : db_config) (T : list table) (d : dest) (o1 o2 : db_output).
Hypothesis Hk : tracked (en_resub E) c queries T o1.
Hypothesis Hoff : ou_offsets o1 = [].
Hypothesis Hprep : db_prepare (en_resub E) (en_dst_int E) c d o1 ms (p_passthrough p) queries = Ok o2.

Lemma lands_inj a b n' : In a queries -> In b queries -> lands (en_resub E) (oc_remap c) a n' -> lands (en_resub E) (oc_remap c) b n' -> a = b.
Proof.
  intros Ha Hb (na & Hna & Hga) (nb & Hnb & Hgb). destruct (remap_spec (tk_remap Hk)) as (_ & Hd).
  assert (H1 : dget (ou_remap o1) (render n') = Some a) by (apply Hd; split; [exact Ha|]; exists na, n'; auto).
  assert (H2 : dget (ou_remap o1) (render n') = Some b) by (apply Hd; split; [exact Hb|]; exists nb, n'; auto). congruence.
Qed.

Lemma shifted_column t n n' tm k z : In t queries -> named t n -> goes_to (en_resub E) (oc_remap c) n n' -> dget (ou_meta o1) n' = Some tm ->
  dget (dget_or (ou_offsets o2) n' []) k = Some z -> oc_merge c = true /\ ~ In t (p_passthrough p) /\ merge_column E cfg p T n n' k.
Proof.
  intros Ht Hn Hg Htm Hz. destruct (oc_merge c) eqn:Hm.
  2:{ unfold db_prepare in Hprep. rewrite Hm in Hprep. cbn [negb] in Hprep. injection Hprep as <-. rewrite Hoff in Hz. discriminate Hz. }
  assert (Hq : queries_ok (p_queries p)) by exact (rn_names (renumbered_runnable Hpl Hrn)). destruct (meta_tables Hpl Hrn) as (_ & Htab & Hdb). destruct Hrn as (Hms & _).
  split; [reflexivity|].
  destruct (prepare_spec Hprep Hm (proj1 Hq) lands_inj) as (maxes & _ & P2 & P3 & P4). fold (off (ou_offsets o2) n' k) in Hz.
  destruct (in_dec string_dec t (p_passthrough p)) as [Hp|Hp].
  - exfalso. rewrite P4 in Hz; [discriminate|]. intros t' Ht' Hp' Hl. apply Hp'. rewrite (lands_inj Ht' Ht Hl (ex_intro _ n (conj Hn Hg))). exact Hp.
  - split; [exact Hp|]. destruct (P3 t n n' tm Ht Hp Hn Hg Htm) as (sm & Hsm & _ & _ & Hset). destruct (settled_cases (Hset k)) as [[Heq _]|(fk & v & Hfk & Hcols & Hr & _)].
    + left. exists (tm_table tm). split; [exact (proj1 (tk_tables Hk (dget_In Htm)))|]. rewrite Heq in Hz. unfold key_offsets, merge_key in Hz. destruct (tb_pk (tm_table tm)) as [|k0 [|k2 ks]]; try discriminate.
      destruct (en_dst_int E n' k0) eqn:Hi; [|discriminate]. destruct (max_value (rows_of d n') k0) as [v|]; [|discriminate]. cbn [dget] in Hz. destruct (eq_dec k0 k) as [->|Hne]; [auto|destruct (eq_dec k k0); [congruence|discriminate Hz]].
    + right. unfold ref_max in Hr. destruct (dget ms (fk_dst fk)) as [dm|] eqn:Hdm; [|discriminate]. destruct (eqb (fk_dst_cols fk) (tb_pk (tm_table dm))) eqn:Hpk; [|discriminate]. apply (proj1 (eqb_true _ _)) in Hpk.
      exists fk, (render (fk_dst fk)), (tm_table dm). split; [exists ms, sm; auto|]. split; [exact Hcols|].
      assert (Hin : In (render (fk_dst fk)) queries /\ ~ In (render (fk_dst fk)) (p_passthrough p)).
      { destruct (in_dec string_dec (render (fk_dst fk)) queries) as [A|A]; [|rewrite (P2 _ (or_introl A)) in Hr; discriminate].
        destruct (in_dec string_dec (render (fk_dst fk)) (p_passthrough p)) as [B|B]; [rewrite (P2 _ (or_intror B)) in Hr; discriminate|auto]. }
      assert (Htb := Htab _ _ (dget_In Hdm)). split; [exact (proj1 Hin)|]. split; [exact (proj2 Hin)|]. split; [|auto].
      apply named_render. rewrite <- (proj2 Htb). exact (proj1 (proj2 Hdb _ (proj1 Htb))).
Qed.
End Shifted.
Lemma merge_ready c T o1 d' : tracked (en_resub E) c queries T o1 -> ds_tables d' = T -> merges_fit E cfg p c d' ->
  oc_merge c = true -> forall t, In t queries -> ~ In t (p_passthrough p) -> ready (en_resub E) c o1 ms t.
Proof.
  intros Hk HT Hmf Hm t Ht Hp. assert (HR := renumbered_runnable Hpl Hrn). destruct Hrn as (Hms & _). destruct (proj2 (rn_names HR) t Ht) as (n & Hn).
  assert (Hin : forall s x, In s queries -> named s x -> exists m, dget ms x = Some m).
  { intros s x Hs Hx. destruct (key_dget Hs) as (q & Hq). destruct (rn_fits HR (dget_In Hq) Hx) as [Hkey _]. exact (key_dget Hkey). }
  destruct (Hmf Hm t n Ht Hp Hn) as ((n' & tb & Hg & Htb) & Hfk & _). destruct (Hin t n Ht Hn) as (sm & Hsm).
  assert (Hkey : In n' (dkeys (ou_meta o1))).
  { apply (tk_keys Hk). exists n'. split; [exists t, n; auto|]. split; [exists tb; rewrite <- HT; exact Htb|]. apply rt_refl. }
  destruct (key_dget Hkey) as (m & Hmm). exists n, n', m, sm. split; [exact Hn|]. split; [apply remap_goes; exact Hg|]. split; [exact Hmm|]. split; [exact Hsm|].
  intros fk k Hin' Hc. destruct (Hfk fk k) as (s & Hs & Hsn); [exists ms, sm; auto|exact Hc|]. exact (Hin s _ Hs Hsn).
Qed.

(** A run that copies to a database, after the creation of tables. *)
Section Rest.
Variables (c : db_config) (truncate : bool) (mults : dict string (list string)) (T : list table) (o1 : db_output).
Hypothesis Hval : validate_filters (fe_load_plugin (en_filters E)) (sc_filters cfg) ms = Ok tt.
Hypothesis Hmu : multiplied ms = Ok mults.
Hypothesis Hk1 : tracked (en_resub E) c queries T o1.
Hypothesis Hoff1 : ou_offsets o1 = [].
Variable d' : dest.
Hypothesis HTd : ds_tables d' = T.
Hypothesis Hmf : merges_fit E cfg p c d'.
Hypothesis Hdl : strategy_supported p c.
Hypothesis Hcyc : forall n, ~ on_cycle (references T) n.
Hypothesis Hfit : columns_fit E cfg p c d'.
Hypothesis Hseq : sequences_fit E cfg p ms compact c.
Notation materialized := (materialize_tables (en_source E) (en_cmp E) (en_text E) (en_raw E) (en_rnd E) (en_rank E) (en_reopen E)
                              ms compact (cp_start (sc_compact cfg)) (en_ord_name E) (p_queries p)).
Notation prepared d o2 := (db_prepare (en_resub E) (en_dst_int E) c d o1 ms (p_passthrough p) queries = Ok o2).
Notation send := (send (en_dflt E) (en_accepts E) OxDbError).

Variable iss : event -> Prop.
(** What holds when some tables have been emptied; when some have been copied; when some rows of the next one have been sent. *)
Variable Del : list tname -> world -> Prop.
Variable Copy : db_output -> tstate -> list string -> world -> Prop.
Variable Row : db_output -> tstate -> list string -> string -> list row -> world -> Prop.
Hypothesis HDel : truncate = true -> forall done n w, affected (en_resub E) (oc_remap c) T queries n -> Del done w -> only E iss (send (EvDelete n)) w (fun _ => Del (done ++ [n])).
Hypothesis HStart : forall dels w o2 st, (truncate = true -> forall n, affected (en_resub E) (oc_remap c) T queries n -> In n dels) ->
  Del dels w -> prepared (w_dest w) o2 -> materialized = Ok st -> Copy o2 st [] w.
Hypothesis HTable : forall o2 st done t more w, insertion E c p T (done ++ t :: more) -> Copy o2 st done w -> Row o2 st done t [] w.
Hypothesis HRow : forall o2 st done t more n n' tb how cols g0 g1 sent b w, insertion E c p T (done ++ t :: more) ->
  (exists d, prepared d o2) -> materialized = Ok st -> named t n -> goes_to (en_resub E) (oc_remap c) n n' -> table_of T n' tb ->
  transfer E cfg p ms compact st mults c (ou_offsets o2) false t g0 n' (sent ++ b) g1 -> b <> [] -> length b <= S (en_buffer E) ->
  conflict_insert (oc_dialect c) (strategy_of c p t) tb cols = Ok how -> Row o2 st done t sent w ->
  only E iss (send (EvInsert n' how b)) w (fun _ => Row o2 st done t (sent ++ b)).
Hypothesis HSet : oc_dialect c = PostgreSQL -> forall o2 st done t n' z sent w, In t queries -> lands (en_resub E) (oc_remap c) t n' -> serial_table T n' = Some n' -> Row o2 st done t sent w ->
  only E iss (send (EvSetval n' z)) w (fun _ => Row o2 st done t sent).
Hypothesis HEnd : forall o2 st done t sent w, Row o2 st done t sent w -> Copy o2 st (done ++ [t]) w.

Lemma order_insertion order : db_insert_order (en_ord_str E) o1 = Ok order -> insertion E c p T order.
Proof.
  intros Hord. destruct (order_spec Hords Hk1 Hord) as (Hnd & Hin & Hbef & _).
  assert (Hat : forall t n', at_dest (en_resub E) c queries o1 t n' <-> In t queries /\ lands (en_resub E) (oc_remap c) t n' /\ exists tb, table_of T n' tb).
  { intros t n'. split.
    - intros (Hq & Hkk & Hn). split; [exact Hq|]. split; [exact Hn|]. destruct (key_dget Hkk) as (m & Hm). apply dget_In in Hm. destruct (tk_tables Hk1 Hm) as [Ht _]. eauto.
    - intros (Hq & (n & Hn & Hg) & Ht). split; [exact Hq|]. split; [|exists n; split; assumption]. apply (tk_keys Hk1). exists n'. split; [exists t, n; auto|]. split; [exact Ht|apply rt_refl]. }
  split; [exact Hnd|]. split.
  - intros t. rewrite Hin. split; [intros (n' & Ha); apply Hat in Ha; destruct Ha as (A & B & (tb & C)); eauto|].
    intros (A & n' & tb & B & C). exists n'. apply Hat. eauto.
  - intros a b na nb Ha Hb Hna Hnb Href. apply Hin in Ha, Hb. destruct Ha as (na' & Ha), Hb as (nb' & Hb).
    assert (na' = na) by (apply Hat in Ha; destruct Ha as (_ & L & _); exact (lands_fun L Hna)).
    assert (nb' = nb) by (apply Hat in Hb; destruct Hb as (_ & L & _); exact (lands_fun L Hnb)). subst na' nb'. exact (Hbef _ _ _ _ Ha Hb Href).
Qed.
Lemma strategy_used t n : named t n -> (if oc_merge c && memb (render n) (set_of (p_passthrough p)) then SSkip else oc_strategy c) = strategy_of c p t.
Proof.
  intros Hn. unfold strategy_of. rewrite <- (named_eq Hn). destruct (in_dec string_dec t (p_passthrough p)) as [Hp|Hp].
  - assert (Hx : memb t (set_of (p_passthrough p)) = true) by (apply pass_memb; exact Hp). rewrite Hx, andb_true_r. reflexivity.
  - destruct (memb t (set_of (p_passthrough p))) eqn:Em; [apply pass_memb in Em; contradiction|]. rewrite andb_false_r. destruct (oc_merge c); reflexivity.
Qed.

Lemma database_rest g w1 : Del [] w1 ->
  only E iss (rest truncate mults (OutDatabase c o1) g) w1 (fun _ w' => exists o2 st order, insertion E c p T order /\ Copy o2 st order w').
Proof.
  intros HD.
  assert (Htopo : exists l, meta_toposort (en_ord_str E) (ou_meta o1) = Ok l).
  { destruct (mtopo_total Hords (tk_meta Hk1) (tk_dots Hk1)) as [Hl|Hl]; [exact Hl|]. exfalso. apply (mtopo_cycle Hords (tk_meta Hk1) (tk_dots Hk1)) in Hl. destruct Hl as (n & Hn).
    apply (@Hcyc n). unfold on_cycle in *. revert Hn. apply path_mono. intros a b Hab. exact (proj1 (proj1 (tracked_edge a b Hk1) Hab)). }
  destruct Htopo as (l & Hl).
  assert (Hord : exists order, db_insert_order (en_ord_str E) o1 = Ok order). { unfold db_insert_order. rewrite Hl. cbn. eauto. }
  destruct Hord as (order & Hord). destruct (order_spec Hords Hk1 Hord) as (_ & Hat & _). pose proof (order_insertion Hord) as Hins.
  unfold rest. cbn [insertion_order truncate_tables prepare].
  apply (only_bind (P := fun a w1 => a = order /\ Del [] w1)); [apply (only_lift order); [exact Hord|auto]|]. intros a w2 [-> HD2].
  apply (only_bind (P := fun _ w1 => exists dels, (truncate = true -> forall n, affected (en_resub E) (oc_remap c) T queries n -> In n dels) /\ Del dels w1)).
  { destruct truncate; [|apply only_ret; exists []; split; [discriminate|exact HD2]]. unfold db_truncate. apply (only_bind (P := fun a w1 => a = l /\ Del [] w1)); [apply (only_lift l); [rewrite Hl; reflexivity|auto]|]. intros l' w3 [-> HD3].
    destruct (mtopo_spec Hords (tk_meta Hk1) (tk_dots Hk1) Hl) as (Hperm & _ & Hin & _).
    apply (only_weaken (P := fun _ => Del (map tm_name (rev l)))).
    - refine (@only_for_prefix _ E iss _ _ _ (fun done _ => Del (map tm_name done)) (rev l) (rev l) [] _ w3 eq_refl HD3 _). intros done a more s w4 Hall HD4. rewrite map_app. cbn [map].
      apply HDel; [reflexivity| |exact HD4]. apply (tk_keys Hk1). apply (in_map fst _ _ (Hin a ltac:(apply in_rev; rewrite Hall; apply in_or_app; right; left; reflexivity))).
    - intros _ w4 HD4. exists (map tm_name (rev l)). split; [|exact HD4]. intros _ n Hn. rewrite map_rev. apply -> in_rev. apply (tk_keys Hk1) in Hn. exact (Permutation_in _ (Permutation_sym Hperm) Hn). }
  intros [] w3 (dels & Hdels & HD3).
  destruct Hrn as (Hms & Hcc & Hrest).
  assert (Hincl : incl order queries) by (intros t Ht; apply Hat in Ht; destruct Ht as (n' & Ht & _); exact Ht).
  destruct (source_runs He Hpl (conj Hms (conj Hcc Hrest)) Hincl) as (st & Hst & _).
  destruct (@prepare_total (en_resub E) (en_dst_int E) c (w_dest w3) o1 ms (p_passthrough p) queries (merge_ready Hk1 HTd Hmf)) as (o2 & Hp & Hmeta).
  assert (HC := HStart Hdels HD3 Hp Hst).
  apply (only_bind (P := fun a w1 => a = OutDatabase c o2 /\ Copy o2 st [] w1)).
  { apply (only_bind (P := fun a w1 => a = o2 /\ Copy o2 st [] w1)); [|intros a w4 [-> HT4]; apply only_ret; auto].
    intros w4 r H4. unfold reading in H4. rewrite Hp in H4. inv H4. auto. }
  intros a w4 [-> HC4].
  apply (only_bind (P := fun a w1 => a = compact /\ Copy o2 st [] w1)); [apply (only_lift compact); [rewrite Hcc; reflexivity|auto]|]. intros a w5 [-> HC5].
  apply (only_bind (P := fun a w1 => a = st /\ Copy o2 st [] w1)); [apply (only_lift st); [rewrite Hst; reflexivity|auto]|]. intros a w6 [-> HC6].
  apply (only_weaken (P := fun _ => Copy o2 st order)); [|intros _ w7 HC7; eauto].
  refine (@copy_only _ E cfg p pcfg He Hnum Hpl ms compact (conj Hms (conj Hcc Hrest)) Hwork Hint Hunf Hords mults Hmu Hval _ (Copy o2 st) _ order g w6 HC6 Hincl st Hst _).
  intros done more t co m chain cols Hall Hres F1 F2 F3 F4 F5 F6 F7 F8 F9 F10 g1 w7 HC7. cbn [output_result_set].
  assert (Ht : In t order) by (rewrite Hall; apply in_or_app; right; left; reflexivity). rewrite Hall in Hins.
  apply Hat in Ht. destruct Ht as (n' & Htq & Hkey & n & Hn & Hgo). rewrite (named_fun F2 Hn) in *.
  destruct (key_dget Hkey) as (tm & Htm). destruct (tk_tables Hk1 (dget_In Htm)) as [Htab _].
  assert (Htb : tb_name (tm_table m) = n) by exact (proj2 F4).
  destruct (@Hfit t (tm_table m) chain cols n' (tm_table tm) F5) as (I1 & I2 & I3); [rewrite Htb; exact Hgo|rewrite HTd; exact Htab|].
  set (plain := plain_columns (en_computed E) n' cols).
  refine (only_weaken (P := fun g' w' => exists sent, _ /\ Row o2 st done t (map (as_row plain) sent) w') _ _).
  2:{ intros g' w' (sent & _ & HR). exact (HEnd HR). }
  refine (@database_only _ E _ _ _ _ F7 F6 F8 _ _ _ _ F9 F10 iss c o2 _ _ n' tm _ _ _ I1 I2 I3 _ _ (fun sent => Row o2 st done t (map (as_row plain) sent)) g1 _ _ w7 _).
  - intros r Hr. unfold result_rows in Hr. apply in_map_iff in Hr. destruct Hr as (y & <- & _). apply map_length.
  - apply remap_goes. exact Hgo.
  - rewrite Hmeta. exact Htm.
  - intros k z Hz. destruct (shifted_column Hk1 Hoff1 Hp Htq Hn Hgo Htm Hz) as (Hm & Hpt & Hcol). destruct (@Hmf Hm t n Htq Hpt Hn) as (_ & _ & Hv). rewrite HTd in Hv.
    destruct (Hv n' k Hgo Hcol) as [V1 V2]. split; [exact V1|]. intros r v Hr Hv'. unfold result_rows in Hr. apply in_map_iff in Hr. destruct Hr as (r' & <- & Hr').
    assert (Hkc : In k (co_cols co)) by exact (value_key Hv'). rewrite (value_map_rget r' Hkc) in Hv'. injection Hv' as <-.
    pose proof (value_origin He Hnum Hpl (conj Hms (conj Hcc Hrest)) Hst Htq Hres Hr' Hkc) as Ho. rewrite (named_fun F2 Hn) in Ho.
    destruct Ho as [(r & Hr & ->)|[(y & ->)|[-> _]]]; [exact (V2 r Hr)|right; eauto|left; reflexivity].
  - intros Hod. rewrite (strategy_used Hn). exact (@Hdl Hod t Htq).
  - intros Hpg k Hai Hk. rewrite F3 in Hk. destruct (@Hseq Hpg t (tm_table m) n' k Htq) as (_ & HS); [rewrite Htb; exact Hn|exact (proj1 F4)|rewrite Htb; exact Hgo|exact Hai|]. destruct (HS Hk) as (S1 & S2 & S3).
    split; [exact S2|]. intros r Hr. unfold result_rows in Hr. apply in_map_iff in Hr. destruct Hr as (r' & <- & Hr'). rewrite <- F3 in Hk. rewrite (value_map_rget r' Hk).
    pose proof (value_origin He Hnum Hpl (conj Hms (conj Hcc Hrest)) Hst Htq Hres Hr' Hk) as Ho. rewrite (named_fun F2 Hn) in Ho. rewrite <- Htb in Ho.
    destruct Ho as [(r & Hr & ->)|[(z & ->)|[_ (d & dc & Hg)]]]; [destruct (S1 r Hr) as (z & ->); eauto|eauto|elim (S3 _ _ Hg)].
  - intros how l1 l2 sent b g2 w8 Heach Hcop HR Hb Hlen Hhow. rewrite (strategy_used Hn) in Hhow. rewrite map_app. rewrite (proj2 Htab).
    refine (HRow (sent := map (as_row plain) sent) (b := map (as_row plain) b) Hins (ex_intro _ _ Hp) Hst Hn Hgo Htab _ _ _ Hhow HR).
    + exists co, chain, cols, l1, l2, (sent ++ b). split; [exact Hres|]. split; [exact F7|]. rewrite (named_fun F2 Hn). split; [exact Hgo|]. split; [exact Heach|]. split; [discriminate|]. split; [exact Hcop|]. rewrite map_app. reflexivity.
    + destruct b; [congruence|discriminate].
    + rewrite map_length. exact Hlen.
  - intros Hpg Hai z sent w8 HR. destruct (en_autoinc E n') as [k|] eqn:Ek; [|congruence].
    destruct (@Hseq Hpg t (tm_table m) n' k Htq) as (Hpn & _); [rewrite Htb; exact Hn|exact (proj1 F4)|rewrite Htb; exact Hgo|exact Ek|].
    apply (HSet Hpg Htq (ex_intro _ n (conj Hn Hgo)) (Verif.Proofs.OutputEvents.serial_found Hpn Htab)); exact HR.
  - exact (HTable Hins HC7).
Qed.
End Rest.

Lemma opened c (create : bool) w w1 o0 o1 : run_ok E cfg c p (w_dest w) -> db_init (en_fnm E) (en_resub E) c (w_dest w) queries = Ok o0 ->
  (if create then db_create (en_dflt E) (en_accepts E) o0 ms w = (w1, Ok o1) else w1 = w /\ o1 = o0) ->
  exists ts, tracked (en_resub E) c queries (ds_tables (w_dest w) ++ ts) o1 /\ ou_offsets o1 = [] /\ ds_tables (w_dest w1) = ds_tables (w_dest w) ++ ts /\
    ds_rows (w_dest w1) = ds_rows (w_dest w).
Proof.
  intros Hok Hinit Hcr.
  assert (Hk := init_tracked (ro_dest Hok) (ro_plain Hok) Hinit).
  assert (Hoff : ou_offsets o0 = []).
  { unfold db_init in Hinit. apply bind_Ok in Hinit. destruct Hinit as (rm & _ & Hinit). apply bind_Ok in Hinit. destruct Hinit as ([a b] & _ & Hinit). inv Hinit. reflexivity. }
  assert (Hs : forall n m, dget ms n = Some m -> tm_name m = n /\ forall fk, In fk (tb_fks (tm_table m)) -> no_dot (fst (fk_dst fk))).
  { destruct (meta_tables Hpl Hrn) as (Hmk & Htab & Hsrc). intros n m Hm. apply dget_In in Hm. split; [exact (proj2 Hmk _ _ Hm)|]. intros fk Hfk. destruct (Htab _ _ Hm) as [Hin Hname].
    destruct Hsrc as [_ Hs]. destruct (Hs _ Hin) as (_ & _ & _ & Hf). destruct (Hf _ Hfk) as (_ & _ & _ & d & [Hd Hdn] & _).
    destruct (Hs _ Hd) as (Hdot & _). rewrite <- Hdn. exact Hdot. }
  destruct create.
  - destruct (create_spec eq_refl Hk Hs Hcr) as [[(e & Hx) _]|(ts & o' & Hr & A & B & C & D1 & D2 & D3 & D4 & F1 & F2 & F3)]; [discriminate|]. injection Hr as <-.
    destruct (create_tracked (en_dflt E) (ro_dest Hok) Hk A B F1 F2) as [K _]. exists ts. split; [exact K|]. split; [rewrite F3; exact Hoff|]. split; [exact D1|exact D2].
  - destruct Hcr as [-> ->]. exists []. rewrite app_nil_r. auto.
Qed.
Lemma sample_database c truncate create g w w' r : run_ok E cfg c p (w_dest w) -> sample E cfg p truncate create g w = (w', r) ->
  ((exists e, r = Err e) /\ w' = w) \/
  exists mults o1 w1 ts, validate_filters (fe_load_plugin (en_filters E)) (sc_filters cfg) ms = Ok tt /\ multiplied ms = Ok mults /\
    tracked (en_resub E) c queries (ds_tables (w_dest w) ++ ts) o1 /\ ou_offsets o1 = [] /\ ds_tables (w_dest w1) = ds_tables (w_dest w) ++ ts /\
    ds_rows (w_dest w1) = ds_rows (w_dest w) /\
    ds_tables (w_dest w') = ds_tables (w_dest w) ++ ts /\
    rest truncate mults (OutDatabase c o1) g w1 = (w', r).
Proof.
  intros Hok H. apply sample_rest in H. destruct H as [H|(mults & o & w1 & Hval & Hmu & Ho & H)]; [now left|]. right. rewrite (ro_output Hok) in Ho.
  destruct Ho as (o0 & o1 & -> & Hinit & Hcr). destruct (opened Hok Hinit Hcr) as (ts & A & B & C & D). exists mults, o1, w1, ts. assert (HTw := keeps_rest H). rewrite C in HTw. auto 12.
Qed.

Theorem database_run c truncate create g w w' x : run_ok E cfg c p (w_dest w) -> merges_fit E cfg p c (w_dest w') -> strategy_supported p c ->
  (forall n, ~ on_cycle (references (ds_tables (w_dest w'))) n) -> columns_fit E cfg p c (w_dest w') -> sequences_fit E cfg p ms compact c ->
  sample E cfg p truncate create g w = (w', Err x) -> w' = w \/ stops truncate w' x.
Proof.
  intros Hok Hmf Hdl Hcyc Hfit Hseq H. destruct (sample_database Hok H) as [[_ Hw]|(mults & o1 & w1 & ts & Hval & Hmu & Hk1 & Hoff1 & HT & _ & HTw & Hrest)]; [now left|]. right. clear H.
  set (T := ds_tables (w_dest w) ++ ts) in *. rewrite HTw in Hcyc.
  refine (@database_rest c truncate mults T o1 Hval Hmu Hk1 Hoff1 (w_dest w') HTw Hmf Hdl Hcyc Hfit Hseq (issued E cfg p (ds_tables (w_dest w')) truncate)
            (fun _ => tabs T) (fun _ _ _ => tabs T) (fun _ _ _ _ _ => tabs T) _ _ _ _ _ _ g w1 HT w' (Err x) Hrest).
  - intros Htr done n w2 Hn HT2. apply only_send; [exact HT2|exact I|]. unfold issued. rewrite (ro_output Hok). left. split; [exact Htr|]. exists n. rewrite HTw. auto.
  - auto.
  - auto.
  - intros o2 st done t more n n' tb how cols g0 g1 sent b w2 Hins _ _ Hn Hgo Htab _ Hb Hlen Hhow HT2.
    assert (Htq : In t queries) by (apply (proj1 (proj2 Hins)); apply in_or_app; right; left; reflexivity).
    apply only_send; [exact HT2| |].
    + cbn [sendable]. destruct (find_table T n') as [tb'|] eqn:Hf; [eauto|]. exfalso. unfold find_table in Hf. pose proof (find_none _ _ Hf _ (proj1 Htab)) as Hx. cbn beta in Hx.
      rewrite (proj2 Htab), (proj2 (eqb_true _ _) eq_refl) in Hx. discriminate.
    + unfold issued. rewrite (ro_output Hok). right. left. exists n', how, b. split; [exists t, n; auto|]. split; [reflexivity|].
      split; [exact Hb|]. split; [exact Hlen|]. intros tb' Htb' Hpk Hskip. rewrite HTw in Htb'. rewrite (table_of_fun (tk_names Hk1) Htb' Htab) in Hpk.
      unfold conflict_insert in Hhow. destruct (is_nil (tb_pk tb)) eqn:Hnil; [destruct (tb_pk tb); [congruence|discriminate]|].
      assert (Hs : strategy_of c p t = SSkip) by (unfold strategy_of; rewrite Hskip; destruct (in_dec string_dec t (p_passthrough p)), (oc_merge c); reflexivity). rewrite Hs in Hhow.
      apply bind_Ok in Hhow. destruct Hhow as ([cs s] & Hx & Hhow). apply bind_Ok in Hx. destruct Hx as (s0 & _ & Hx). injection Hx as <- <-. destruct (oc_dialect c); inversion Hhow; reflexivity.
  - intros Hpg o2 st done t n' z sent w2 Htq (n & Hn & Hgo) Hser HT2. apply only_send; [exact HT2|cbn [sendable]; rewrite Hser; discriminate|]. unfold issued. rewrite (ro_output Hok). right. right. split; [exact Hpg|]. exists n', z. split; [exists t, n; auto|reflexivity].
  - auto.
Qed.

Lemma leave_out_total dflt t l rs : exists l', insert_rows dflt t LeaveOut l rs = Some l'.
Proof. revert l. induction rs as [|r rs IH]; intros l; cbn [insert_rows insert_row]; [eauto|]. destruct (existsb _ _); apply IH. Qed.
Theorem skipping_run c truncate create g w w' x : run_ok E cfg c p (w_dest w) -> merges_fit E cfg p c (w_dest w') -> strategy_supported p c ->
  (forall n, ~ on_cycle (references (ds_tables (w_dest w'))) n) -> columns_fit E cfg p c (w_dest w') -> sequences_fit E cfg p ms compact c ->
  oc_strategy c = SSkip -> (forall tb, In tb (ds_tables (w_dest w')) -> tb_pk tb <> []) -> (forall d e, en_accepts E d e = true) ->
  sample E cfg p truncate create g w = (w', Err x) -> w' = w.
Proof.
  intros Hok Hmf Hdl Hcyc Hfit Hseq Hskip Hpk Hyes H. destruct (database_run Hok Hmf Hdl Hcyc Hfit Hseq H) as [Hw|(_ & e & Hi & Hr)]; [exact Hw|]. exfalso.
  destruct Hr as [Ha|(n & how & rows & t & -> & Ht & Hf)]; [rewrite Hyes in Ha; discriminate|].
  unfold issued in Hi. rewrite (ro_output Hok) in Hi. destruct Hi as [(_ & n0 & _ & Hx)|[(n0 & how0 & rows0 & _ & Hx & _ & _ & Hh)|(_ & n0 & v & _ & Hx)]]; try discriminate.
  injection Hx as -> -> ->. rewrite (Hh t Ht (Hpk t (proj1 Ht)) Hskip) in Hf. destruct (leave_out_total (en_dflt E) t (rows_of (w_dest w') n0) rows0) as (l & Hl). congruence.
Qed.
End Whole.
