(** The planner's plans have no query parameters, so they are read back exactly (C30). *)
From Coq Require Import Lia Permutation.
From Verif Require Import Model.Base Model.Value Model.Names Model.PlanModel Model.Metadata Model.Planner Model.Config Model.PlanIO.
From Verif Require Import Spec.PlanIOSpec Proofs.BaseFacts Proofs.SimplifyFacts Proofs.BuildFacts Proofs.PlanIOFacts.
Set Implicit Arguments. Unset Strict Implicit.

(** Clauses without sub-statements and parameters. *)
Fixpoint simple (c : wc) : Prop :=
  match c with
  | WInStmt _ _ _ => False
  | WSQL _ (Some _) => False
  | WAnd l | WOr l => fold_right and True (map simple l)
  | _ => True
  end.
Lemma simple_and l : simple (WAnd l) <-> Forall simple l. Proof. apply fold_and_map. Qed.
Lemma simple_or l : simple (WOr l) <-> Forall simple l. Proof. apply fold_and_map. Qed.
Lemma simple_plain : forall c, simple c -> plain_wc c.
Proof.
  induction c as [c Hleaf|l IH|l IH] using wc_ind'; intros H.
  - destruct c; try contradiction; try (apply plain_leaf; exact I). destruct params; [contradiction|apply plain_sql].
  - apply simple_and in H. apply plain_and. apply Forall_forall. intros c Hc. rewrite Forall_forall in *. auto.
  - apply simple_or in H. apply plain_or. apply Forall_forall. intros c Hc. rewrite Forall_forall in *. auto.
Qed.
Lemma simp_simple f : forall c c', simp_wc (S f) c = Ok c' -> simple c -> simple c'.
Proof.
  assert (Hl : forall l l', Forall (fun c => forall c', simp_wc (S f) c = Ok c' -> simple c -> simple c') l ->
            mapM (simp_wc (S f)) l = Ok l' -> Forall simple l -> Forall simple l').
  { intros l l' HP Hm. apply mapM_Ok in Hm. induction Hm as [|c c' l l' H1 Hm IH]; intros Hs; [constructor|].
    apply Forall_cons_iff in HP, Hs. destruct HP as [HP HP'], Hs as [Hs Hs']. constructor; [exact (HP _ H1 Hs)|exact (IH HP' Hs')]. }
  induction c as [c Hleaf|l IHl|l IHl] using wc_ind'; intros c' H Hf.
  - destruct c; try contradiction; cbn [simp_wc] in H; inv H; try exact Hf.
    unfold random_simplified. destruct (Qle_bool _ _); [exact I|]. destruct (Qle_bool _ _); exact I.
  - rewrite simp_wc_and in H. apply bind_Ok in H. destruct H as (l' & Hm & H). inv H.
    apply (and_simplified_closed simple_and I I). exact (Hl l l' IHl Hm (proj1 (simple_and l) Hf)).
  - rewrite simp_wc_or in H. apply bind_Ok in H. destruct H as (l' & Hm & H). inv H.
    apply (or_simplified_closed simple_or I I). exact (Hl l l' IHl Hm (proj1 (simple_or l) Hf)).
Qed.
Definition simple_sel (s : sel) : Prop := forall w, s_where s = Some w -> simple w.
Lemma simple_sel_plain : forall s, simple_sel s -> plain_sel s.
Proof. intros [cs f [w|] lim js o] H; constructor. apply simple_plain. apply H. reflexivity. Qed.
Lemma simp_sel_simple f s s' : simp_sel (simp_wc (S f)) s = Ok s' -> simple_sel s -> simple_sel s'.
Proof.
  destruct s as [cs fr [w|] lim js o]; cbn [simp_sel]; intros H Hs.
  - apply bind_Ok in H. destruct H as (w' & Hw & H). pose proof (simp_simple Hw (Hs w eq_refl)) as Hf.
    destruct js as [[|j js]|]; inv H; intros w0 E; cbn in E; destruct (is_WTrue w'); inv E; exact Hf.
  - inv H. exact Hs.
Qed.
Lemma simplify_plain l st : Forall simple_sel l -> simplify_stmt (SUnion l) = Ok st -> plain_stmt st.
Proof.
  intros Hl H. unfold simplify_stmt in H. cbn [simp_stmt_with] in H. unfold simp_union in H. remember (stmt_depth (SUnion l)) as d eqn:Ed. clear Ed.
  apply bind_Ok in H. destruct H as (sm & Hm & H). apply mapM_Ok in Hm.
  assert (Hs : Forall simple_sel sm).
  { clear - Hm Hl. revert Hl. induction Hm; intros Hl; [constructor|]. apply Forall_cons_iff in Hl. destruct Hl. constructor; [eapply simp_sel_simple; eassumption|auto]. }
  assert (Hk : Forall simple_sel (filter (fun s => negb (where_is_false s)) sm)).
  { apply Forall_forall. intros s Hx. apply filter_In in Hx. exact (proj1 (Forall_forall _ _) Hs s (proj1 Hx)). }
  destruct (filter _ sm) as [|s0 [|s1 rest]].
  - destruct l as [|s l]; [discriminate|]. apply bind_Ok in H. destruct H as (s' & Hs' & H). inv H. apply Forall_cons_iff in Hl.
    constructor. apply simple_sel_plain. eapply simp_sel_simple; [exact Hs'|apply Hl].
  - inv H. apply Forall_cons_iff in Hk. constructor. apply simple_sel_plain, Hk.
  - destruct (forallb _ _).
    + apply bind_Ok in H. destruct H as (s' & Hs' & H). inv H. constructor. apply simple_sel_plain. eapply simp_sel_simple; [exact Hs'|].
      intros w E. inv E. apply simple_or. apply Forall_forall. intros c Hc. change (In c (map where_or_true (s0 :: s1 :: rest))) in Hc. apply in_map_iff in Hc. destruct Hc as (s & <- & Hin).
      pose proof (proj1 (Forall_forall _ _) Hk s Hin) as Hw. unfold where_or_true. destruct (s_where s) as [w|] eqn:E; [apply Hw; exact E|exact I].
    + inv H. constructor. apply Forall_forall. intros s Hx. apply simple_sel_plain. exact (proj1 (Forall_forall _ _) Hk s Hx).
Qed.

Lemma plan_table_plain cfg ms m P tgt q : plan_table cfg ms m P tgt = Ok q -> plain_query q.
Proof.
  unfold plan_table. intros H. destruct (negb (is_nil _ || _)) in H; [discriminate|]. destruct (negb _) in H; [discriminate|].
  destruct (is_some tgt && _) in H; [discriminate|]. apply bind_Ok in H. destruct H as (joins & _ & H).
  destruct (_ && _) in H; [discriminate|]. apply bind_Ok in H. destruct H as (conf & Hc & H). apply bind_Ok in H. destruct H as (st & Hst & H). inv H.
  split; [reflexivity|]. intros s E. inv E.
  match type of Hst with of_simp (simplify_stmt (SUnion ?l)) = _ => destruct (simplify_stmt (SUnion l)) as [s'|[]] eqn:Es; inv Hst; eapply (simplify_plain (l := l)); [|exact Es] end.
  apply Forall_app. split.
  - destruct (_ && _); constructor; [|constructor]. intros w E. inv E. apply simple_and. apply mapM_Ok in Hc. clear - Hc.
    induction Hc as [|c w l l' H _ IH]; constructor; auto. unfold constraint_sql in H. destruct (memb _ _); [|discriminate]. destruct (cc_val c); inv H. exact I.
  - destruct tgt as [g|]; constructor; [|constructor]. intros w E. inv E. apply simple_and. unfold target_where.
    destruct (tg_all g); [constructor|]. repeat (apply Forall_app; split).
    + destruct (tg_percent g); repeat constructor.
    + destruct (tg_sql g); repeat constructor.
    + apply Forall_forall. intros c Hin. apply in_flat_map in Hin. destruct Hin as (cp & _ & Hin). apply in_map_iff in Hin. destruct Hin as (x & <- & _). exact I.
    + apply Forall_forall. intros c Hin. apply in_map_iff in Hin. destruct Hin as (x & <- & _). exact I.
Qed.
Definition plain_queries (qs : dict string table_query) : Prop := NoDup (dkeys qs) /\ forall k q, dget qs k = Some q -> plain_query q.
Lemma dset_plain qs k q : plain_queries qs -> plain_query q -> plain_queries (dset qs k q).
Proof.
  intros (N & H) Hq. split; [now apply dset_NoDup|]. intros k' q' E. rewrite dget_dset in E. destruct (eq_dec k' k); [now inv E|eauto].
Qed.
Lemma plan_tables_plain cfg ms order : forall P qs qs', plan_tables cfg ms order P qs = Ok qs' -> plain_queries qs -> plain_queries qs'.
Proof.
  induction order as [|s order IH]; intros P qs qs' H Hq; cbn [plan_tables] in H; [now inv H|].
  apply bind_Ok in H. destruct H as (n & _ & H). apply bind_Ok in H. destruct H as (m & _ & H). apply bind_Ok in H. destruct H as (q & Eq & H).
  apply (IH _ _ _ H). apply dset_plain; auto. eapply plan_table_plain; eassumption.
Qed.
Lemma dict_of_plain : forall l, (forall k q, In (k, q) l -> plain_query q) -> plain_queries (dict_of l).
Proof.
  intros l H. unfold dict_of. assert (G : forall l d, (forall k q, In (k, q) l -> plain_query q) -> plain_queries d -> plain_queries (fold_left (fun d kv => dset d (fst kv) (snd kv)) l d)).
  { clear. induction l as [|(k, q) l IH]; intros d H Hd; cbn; auto. apply IH; [intros; eapply H; right; eassumption|]. apply dset_plain; auto. apply (H k). now left. }
  apply G; auto. split; [constructor|]. discriminate.
Qed.
Theorem planner_plain : forall ord ordp fnm cfg db p, plan_db ord ordp fnm cfg db = Ok p ->
  NoDup (dkeys (p_queries p)) /\ forall k q, In (k, q) (p_queries p) -> plain_query q.
Proof.
  intros ord ordp fnm cfg db p H. unfold plan_db in H. apply bind_Ok in H. destruct H as (ig & _ & H). apply bind_Ok in H. destruct H as (pt & _ & H).
  apply bind_Ok in H. destruct H as (mx & _ & H). unfold plan_internal in H. apply bind_Ok in H. destruct H as (ms & _ & H).
  apply bind_Ok in H. destruct H as (u & _ & H). apply bind_Ok in H. destruct H as (pass & _ & H). apply bind_Ok in H. destruct H as (order & _ & H).
  apply bind_Ok in H. destruct H as (ms2 & _ & H). apply bind_Ok in H. destruct H as (qs & Hq & H). inv H. cbn [p_queries].
  apply plan_tables_plain in Hq.
  - destruct Hq as (N & Hq). split; auto. intros k q Hin. apply (Hq k). apply In_dget; auto.
  - apply dict_of_plain. intros k q Hin. apply in_map_iff in Hin. destruct Hin as (n & E & _). inv E. split; [reflexivity|]. intros s E. inv E. constructor. constructor.
Qed.
(** Written and read back (C30). *)
Theorem plan_file : forall ord ordp fnm cfg db p set, plan_db ord ordp fnm cfg db = Ok p ->
  exists p', load_plan (sort_keys (dump_plan set p)) = Ok p' /\ Permutation (p_queries p) (p_queries p') /\ NoDup (dkeys (p_queries p')) /\
    p_passthrough p = p_passthrough p'.
Proof.
  intros ord ordp fnm cfg db p set H. destruct (planner_plain H) as (N & Pl). destruct (load_dump (sort_keys_like (dump_plan set p))) as (p' & E & S).
  destruct (plain_plan_eq S Pl) as (P1 & P2). exists p'. split; [exact E|]. split; [exact P1|]. split; [|exact P2].
  exact (Permutation_NoDup (Permutation_map fst P1) N).
Qed.
