(** After a successful run: the destination tables hold the sampled rows. *)
From Coq Require Import Lia Relations.
From Verif Require Import Model.Base Model.Value Model.Names Model.PlanModel Model.SqlAlgebra Model.Metadata Model.Filters Model.Multiply Model.Materialize Model.Dest Model.Output Model.Sampler.
From Verif Require Import Spec.GraphSpec Spec.SchemaSpec Spec.SqlSem Spec.PlannerSpec Spec.FilterSpec Spec.OutputSpec Spec.RunSpec Spec.ConflictSpec Spec.SampleSpec.
From Verif Require Import Proofs.BaseFacts Proofs.NameFacts Proofs.MetadataFacts Proofs.FilterFacts Proofs.PlanRun Proofs.OutputRows Proofs.OutputDb Proofs.OutputCreate Proofs.OutputRun Proofs.OutputCopy Proofs.OutputSample Proofs.OutputMain
  Proofs.OutputColumn Proofs.OutputKeys Proofs.OutputEvents Proofs.ConflictFacts Proofs.OutputMore Proofs.OutputRerun.
Set Implicit Arguments.
Unset Strict Implicit.
Open Scope list_scope.

Lemma split_unique {A} (P : A -> Prop) : forall pre pre' post post', pre ++ post = pre' ++ post' ->
  (forall e, In e pre -> P e) -> (forall e, In e post -> ~ P e) -> (forall e, In e pre' -> P e) -> (forall e, In e post' -> ~ P e) -> pre = pre'.
Proof.
  induction pre as [|e pre IH]; intros [|e' pre'] post post' E H1 H2 H3 H4; cbn in E.
  - reflexivity.
  - exfalso. subst post. exact (H2 e' (or_introl eq_refl) (H3 e' (or_introl eq_refl))).
  - exfalso. subst post'. exact (H4 e (or_introl eq_refl) (H1 e (or_introl eq_refl))).
  - injection E as <- E. f_equal. apply (IH _ _ _ E); intros x Hx; auto using in_cons.
Qed.

Lemma insert_fail dflt t : forall rs l l', insert_rows dflt t Fail l rs = Some l' -> exists l2, l' = l ++ l2 /\ Forall2 (made_of t) rs l2.
Proof.
  induction rs as [|r rs IH]; intros l l' H; cbn [insert_rows] in H.
  - injection H as <-. exists []. split; [now rewrite app_nil_r|constructor].
  - unfold insert_row in H. destruct (existsb _ _); [discriminate|]. destruct (IH _ _ H) as (l2 & -> & HF). exists (complete dflt t l r :: l2).
    split; [rewrite <- app_assoc; reflexivity|]. constructor; [apply complete_made|exact HF].
Qed.

Lemma Forall2_all {A B K} (P : K -> Prop) (Q : K -> A -> B -> Prop) : forall l l', length l = length l' -> (forall k, P k -> Forall2 (Q k) l l') ->
  Forall2 (fun a b => forall k, P k -> Q k a b) l l'.
Proof.
  induction l as [|a l IH]; intros [|b l'] Hl H; try discriminate; constructor.
  - intros k Hk. specialize (H k Hk). inversion H; assumption.
  - apply IH; [injection Hl as Hl; exact Hl|]. intros k Hk. specialize (H k Hk). inversion H; assumption.
Qed.
Lemma Forall2_trans {A B C} (P : A -> B -> Prop) (Q : B -> C -> Prop) (R : A -> C -> Prop) : forall l1 l2 l3,
  Forall2 P l1 l2 -> Forall2 Q l2 l3 -> (forall a b c, In b l2 -> P a b -> Q b c -> R a c) -> Forall2 R l1 l3.
Proof.
  intros l1 l2 l3 H. revert l3. induction H as [|a b l1 l2 Hab _ IH]; intros l3 H2 HR; inversion H2 as [|? c ? l3' Hbc H2']; subst; constructor.
  - exact (HR a b c (or_introl eq_refl) Hab Hbc).
  - apply IH; [exact H2'|]. intros a0 b0 c0 Hi. apply HR. now right.
Qed.
Lemma each_copy_one {A} (l : list A) : each_copy 1 l = map (fun r => (r, 0%Z)) l.
Proof. unfold each_copy. induction l as [|a l IH]; [reflexivity|]. cbn in *. rewrite IH. reflexivity. Qed.

Section Run.
Context {G : Type}.
Variable E : env G.
Variable cfg : sampler_config.
Variable p : plan.
Notation queries := (dkeys (p_queries p)).
Variable c : db_config.
Variable w : world.
Notation to := (lands (en_resub E) (oc_remap c)).
Hypothesis Hok : run_ok E cfg c p (w_dest w).
Hypothesis Hnil : trace w = [].

(** The run has begun to copy rows, or it has ended well (with or without rows). *)
Definition began (w' : world) (r : res out_exn G) : Prop := (exists e, In e (trace w') /\ ~ preparing e) \/ exists g', r = Ok g'.
Lemma begun_rows truncate create g w' r d n tb : sample E cfg p truncate create g w = (w', r) -> began w' r -> copying_starts E w w' d ->
  target (en_resub E) (oc_remap c) queries n -> table_of (ds_tables (w_dest w')) n tb ->
  rows_of d n = if truncate then [] else rows_of (w_dest w) n.
Proof.
  intros Hs Hbeg (pre & post & Htr & Hpre & Hpost & Hrep) Ht Htb.
  destruct (truncation Hok Hnil Hs) as (created & del & after_ & d1 & Htr1 & Hcr & Haf & _ & Hno & _ & Hall & _ & Hrep1 & Hdel & Hkeep).
  assert (Ep : pre = created ++ map EvDelete del).
  { apply (@split_unique _ preparing pre (created ++ map EvDelete del) post after_); [rewrite <- Htr, Htr1, app_assoc; reflexivity|exact Hpre|exact Hpost| |].
    - intros e He. apply in_app_or in He. destruct He as [He|He]; [destruct (Hcr e He) as (x & ->); exact I|]. apply in_map_iff in He. destruct He as (x & <- & _). exact I.
    - intros e He. destruct (Haf e He) as [H1 H2]. destruct e as [l|t| | | |]; cbn; try tauto; [elim (H1 l)|elim (H2 t)]; reflexivity. }
  subst pre. rewrite (replay_fun Hrep Hrep1). destruct truncate.
  - apply Hdel. apply (Hall eq_refl); [|exact (target_affected Ht Htb)]. destruct Hbeg as [(e & He & Hne)|Hr]; [left|right; exact Hr].
    rewrite Htr1, app_assoc in He. apply in_app_or in He. destruct He as [He|He]; [elim Hne; exact (Hpre e He)|]. intros F. rewrite F in He. exact He.
  - apply Hkeep. rewrite (Hno eq_refl). intros [].
Qed.
Lemma starts_rows truncate create g w' g' d n tb : sample E cfg p truncate create g w = (w', Ok g') -> copying_starts E w w' d ->
  target (en_resub E) (oc_remap c) queries n -> table_of (ds_tables (w_dest w')) n tb ->
  rows_of d n = if truncate then [] else rows_of (w_dest w) n.
Proof. intros Hs. apply (begun_rows Hs). right. eauto. Qed.

(** C86 *)
Theorem destination_holds truncate create g w' g' t n' tb : sample E cfg p truncate create g w = (w', Ok g') ->
  In t queries -> to t n' -> table_of (ds_tables (w_dest w')) n' tb ->
  oc_merge c = false -> oc_strategy c = SError -> (mc_multiplier (sc_multiplicity cfg) <= 1)%Z ->
  (truncate = true \/ rows_of (w_dest w) n' = []) ->
  exists ms compact st mults co, computed_by E cfg p ms compact st mults /\ result_of E cfg p ms compact st t co /\
    Forall2 (fun r row => forall k, In k (co_cols co) -> (forall f, In f (filters_of cfg t) -> ~ may_change f k) -> en_computed E n' k = false ->
                            rget row k = rget r k) (co_rows co) (rows_of (w_dest w') n').
Proof.
  intros Hs Ht Hto Htb Hm Hst Hmu Hempty.
  destruct (rows_written Hok Hnil Hs) as (order & samples & (_ & Hin & _) & (ms & compact & st & mults & offs & Hoffs & Hcb & g1 & Htrs) & Hnd & Hw & _).
  specialize (Hoffs Hm). subst offs.
  assert (Hmult : mults = []).
  { destruct Hcb as (_ & Hg & _). unfold get_multiplied_columns in Hg. rewrite (proj2 (Z.leb_le _ _) Hmu) in Hg. now injection Hg as <-. }
  assert (Hto2 : In t order) by (apply Hin; split; [exact Ht|exists n', tb; split; assumption]).
  destruct (transfers_names Htrs) as (ts1 & _ & Heq & HF). specialize (Heq eq_refl). rewrite Heq in HF.
  destruct (Forall2_In_l HF Hto2) as ([n2 rows] & Hi2 & Hl). cbn in Hl. rewrite (lands_fun Hl Hto) in Hi2. clear Hl n2 HF Heq ts1.
  destruct (transfers_transfer Htrs Hi2) as (t' & g2 & g3 & wh & Ht' & Htr & Hwh). specialize (Hwh eq_refl). subst wh. apply Hin in Ht'.
  destruct (validation_first Hok Hnil Hs (or_intror (ex_intro _ g' eq_refl))) as (_ & _ & _ & _ & _ & _ & Hinj & _).
  assert (Et : t' = t) by exact (Hinj t' t n' (proj1 Ht') Ht (transfer_lands Htr) Hto). subst t'.
  assert (Hwr := Hw _ _ Hi2). change (concat (batches (trace w') n')) with (written (trace w') n') in Hwr.
  pose proof Htr as (co & chain & cols & l1 & l2 & outs & Hres & Hch & _ & Hec & Hl2 & Hco & Erows).
  exists ms, compact, st, mults, co. split; [exact Hcb|]. split; [exact Hres|].
  assert (Htimes : times cfg mults t = 1%Z) by (rewrite Hmult; reflexivity).
  set (P := fun k => In k (co_cols co) /\ (forall f, In f (filters_of cfg t) -> ~ may_change f k) /\ en_computed E n' k = false).
  assert (Hrows : Forall2 (fun r row => forall k, P k -> rget row k = rget r k) (co_rows co) rows).
  { apply Forall2_all.
    - rewrite Erows, map_length. apply copies_Forall2 in Hco. apply Forall2_len in Hco. rewrite <- Hco. specialize (Hl2 eq_refl). subst l2. rewrite app_nil_r in Hec. rewrite <- Hec, Htimes, each_copy_one, map_length.
      unfold result_rows. now rewrite map_length.
    - intros k (Hk & Hf & Hcomp).
      destruct (transfer_column Htr Hres (ro_columns Hok _ _ _ _ _ _ Hcb Hres) Hk Hf Hcomp) as (k1 & k2 & Hec2 & Hk2 & HF). specialize (Hk2 eq_refl). subst k2. rewrite app_nil_r, Htimes, each_copy_one in Hec2. subst k1.
      rewrite Htimes, Hmult in HF. clear - HF. revert rows HF. induction (co_rows co) as [|r l IH]; intros rows HF; cbn in HF; inversion HF as [|? row ? rows' H1 H2]; subst; constructor.
      + cbn in H1. now injection H1 as <-.
      + exact (IH _ H2). }
  destruct (table_run Hok Hnil Hs Ht Hto Htb) as (d & Hd & Hcase).
  assert (Hd0 : rows_of d n' = []).
  { rewrite (starts_rows Hs Hd (to_tgt Ht Hto) Htb). destruct Hempty as [->|He]; [reflexivity|]. destruct truncate; [reflexivity|exact He]. }
  assert (Hfin : Forall2 (fun r row => forall k, P k -> rget row k = rget r k) (co_rows co) (rows_of (w_dest w') n')).
  2: { eapply Forall2_impl2; [|exact Hfin]. intros r row H k A B C. apply H. split; [exact A|]. split; assumption. }
  destruct Hcase as [(Hw0 & Hr0)|(how & cols2 & Hci & Hnc & Hic & Hkeys & Hins)].
  - rewrite Hw0 in Hwr. rewrite <- Hwr in Hrows. inversion Hrows. rewrite Hr0, Hd0. constructor.
  - assert (how = Fail).
    { unfold strategy_of in Hci. rewrite Hm, Hst in Hci. assert (Hci' : conflict_insert (oc_dialect c) SError tb cols2 = Ok how) by (destruct (in_dec string_dec t (p_passthrough p)); exact Hci).
      unfold conflict_insert in Hci'. destruct (is_nil (tb_pk tb)); cbn [bind] in Hci'.
      - destruct (oc_dialect c); now injection Hci' as <-.
      - apply bind_Ok in Hci'. destruct Hci' as ([s np] & Hx & Hy). apply bind_Ok in Hx. destruct Hx as (u & _ & Hx). injection Hx as <- <-. destruct (oc_dialect c); now injection Hy as <-. }
    subst how. rewrite Hd0, Hwr in Hins. destruct (insert_fail Hins) as (l3 & El & HF3). cbn in El. rewrite El. rewrite Hwr in Hkeys.
    eapply Forall2_trans; [exact Hrows|exact HF3|]. intros r row row' Hi H1 [H2 H3] k Hk. cbn beta in *. rewrite <- (H1 k Hk).
    assert (Hkk : In k (dkeys row)).
    { rewrite Erows in Hi. apply in_map_iff in Hi. destruct Hi as (o & Eo & Ho). subst row. apply copies_Forall2 in Hco. destruct (Forall2_In_r Hco Ho) as (ri & Hri0 & g4 & f & g5 & Hf & Hlen & Hcp).
      destruct Hk as (Hk & Hkf & Hkc). assert (Hndc : NoDup (co_cols co)) by exact (ro_columns Hok _ _ _ _ _ _ Hcb Hres).
      unfold filter_kept in Hf. apply bind_Ok in Hf. destruct Hf as ([f0 g6] & Hrun & Hf). injection Hf as <- <-.
      assert (Hri : length (fst ri) = length (co_cols co)).
      { assert (Hx : In ri l1) by assumption. assert (Hx2 : In ri (each_copy (times cfg mults t) (result_rows co))) by (rewrite Hec; apply in_or_app; now left).
        destruct ri as [v i]. apply each_copy_In in Hx2. destruct Hx2 as [Hx2 _]. apply in_map_iff in Hx2. destruct Hx2 as (r0 & <- & _). apply map_length. }
      destruct (chain_untouched Hndc Hch Hri Hrun Hkf) as [_ Hio]. assert (Hlo := Forall2_len Hcp). rewrite combine_length, Hlen, Nat.min_id in Hlo.
      rewrite dict_of_nodup; [|rewrite combine_fst by (now symmetry); apply NoDup_filter; exact (chain_NoDup Hch Hndc)].
      unfold dkeys. rewrite combine_fst by (now symmetry). apply filter_In. split; [exact (Hio Hk)|]. now rewrite Hkc. }
    apply H3; [exact Hkk|]. apply Hic. rewrite <- (Hkeys row Hi). exact Hkk.
Qed.
End Run.
