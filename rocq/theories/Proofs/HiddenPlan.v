(** The planner's plans do not look at columns that the configuration does not look at (C108). *)
From Coq Require Import Lia Relations.
From Verif Require Import Model.Base Model.Solver Model.Value Model.Names Model.PlanModel Spec.SqlSem Model.SqlAlgebra Model.PlanBuild
  Model.Metadata Model.Planner Model.Filters Model.Materialize Model.Dest Model.Output Model.Sampler.
From Verif Require Import Spec.GraphSpec Spec.SchemaSpec Spec.PlannerSpec Spec.SampleSpec Spec.FilterSpec Spec.OutputSpec Spec.RunSpec Spec.WholeSpec Spec.HiddenSpec.
From Verif Require Import Proofs.BaseFacts Proofs.NameFacts Proofs.GraphFacts Proofs.SimplifyFacts Proofs.MetadataFacts Proofs.PlannerGraph Proofs.PlannerTables Proofs.PlannerMain Proofs.PlannerFinal Proofs.PlannerWrap
  Proofs.SampleFinal Proofs.PlanRun.
Set Implicit Arguments.
Unset Strict Implicit.
Open Scope list_scope.

Section Plan.
Variable hidden : tname -> string -> Prop.
Variable text : string -> option (dict string lit) -> row -> tv.

(** Conditions without sub-statements. *)
Fixpoint bflat (n : tname) (c : wc) : Prop :=
  match c with
  | WOp _ c _ => ~ hidden n c
  | WInVals cs _ _ => seen hidden n cs
  | WInStmt _ _ _ => False
  | WAnd l | WOr l => fold_right and True (map (bflat n) l)
  | WSQL s ps => forall r r', alike hidden n r r' -> text s ps r = text s ps r'
  | _ => True
  end.
Lemma bflat_and n l : bflat n (WAnd l) <-> Forall (bflat n) l.
Proof. apply fold_and_map. Qed.
Lemma bflat_or n l : bflat n (WOr l) <-> Forall (bflat n) l.
Proof. apply fold_and_map. Qed.
Lemma bflat_blind n : forall c, bflat n c -> wc_blind hidden text n c.
Proof.
  assert (Hl : forall l, Forall (fun c => bflat n c -> wc_blind hidden text n c) l -> Forall (bflat n) l -> fold_right and True (map (wc_blind hidden text n) l)).
  { induction l as [|c l IH]; intros H1 H2; [exact I|]. apply Forall_cons_iff in H1, H2. destruct H1 as [H1 H1'], H2 as [H2 H2']. split; auto. }
  induction c as [c Hleaf|l IHl|l IHl] using wc_ind'; intros H.
  - destruct c; try contradiction; cbn in *; auto; destruct Hleaf.
  - apply bflat_and in H. exact (Hl l IHl H).
  - apply bflat_or in H. exact (Hl l IHl H).
Qed.
Lemma simp_bflat n f : forall c c', simp_wc (S f) c = Ok c' -> bflat n c -> bflat n c'.
Proof.
  assert (Hl : forall l l', Forall (fun c => forall c', simp_wc (S f) c = Ok c' -> bflat n c -> bflat n c') l ->
            mapM (simp_wc (S f)) l = Ok l' -> Forall (bflat n) l -> Forall (bflat n) l').
  { intros l l' HP Hm. apply mapM_Ok in Hm. induction Hm as [|c c' l l' H1 Hm IH]; intros Hs; [constructor|].
    apply Forall_cons_iff in HP, Hs. destruct HP as [HP HP'], Hs as [Hs Hs']. constructor; [exact (HP _ H1 Hs)|exact (IH HP' Hs')]. }
  induction c as [c Hleaf|l IHl|l IHl] using wc_ind'; intros c' H Hf.
  - destruct c; try contradiction; cbn [simp_wc] in H; inv H; try exact Hf.
    unfold random_simplified. destruct (Qle_bool _ _); [exact I|]. destruct (Qle_bool _ _); exact I.
  - rewrite simp_wc_and in H. apply bind_Ok in H. destruct H as (l' & Hm & H). inv H.
    apply (and_simplified_closed (bflat_and n) I I). exact (Hl l l' IHl Hm (proj1 (bflat_and n l) Hf)).
  - rewrite simp_wc_or in H. apply bind_Ok in H. destruct H as (l' & Hm & H). inv H.
    apply (or_simplified_closed (bflat_or n) I I). exact (Hl l l' IHl Hm (proj1 (bflat_or n l) Hf)).
Qed.

Definition bsel (n : tname) (s : sel) : Prop :=
  i_name (s_from s) = n /\ (forall js, s_joins s = Some js -> Forall (join_blind hidden n) js) /\ (forall w, s_where s = Some w -> bflat n w).
Definition bstmt (n : tname) (st : stmt) : Prop := match st with SSelect s => bsel n s | SUnion l => Forall (bsel n) l end.
Lemma bsel_blind n s : bsel n s -> sel_blind hidden text s.
Proof.
  destruct s as [cs fr w lim js o]. intros (H1 & H2 & H3). cbn [s_from s_joins s_where] in *. cbn [sel_blind]. rewrite H1. split.
  - destruct js; auto.
  - destruct w as [w|]; [|exact I]. apply bflat_blind. auto.
Qed.
Lemma simp_sel_b n f s s' : simp_sel (simp_wc (S f)) s = Ok s' -> bsel n s -> bsel n s'.
Proof.
  destruct s as [cs fr [w|] lim js o]; cbn [simp_sel]; intros H (H2 & H3 & H4); cbn [s_columns s_from s_joins s_where] in *.
  - apply bind_Ok in H. destruct H as (w' & Hw & H). pose proof (simp_bflat Hw (H4 w eq_refl)) as Hf.
    assert (Hwh : forall w0, (if is_WTrue w' then None else Some w') = Some w0 -> bflat n w0).
    { intros w0 E. destruct (is_WTrue w'); inv E. exact Hf. }
    destruct js as [[|j js]|]; inv H; split; cbn [s_columns s_from s_joins s_where]; auto; split; auto; try (intros ? E; discriminate E).
  - inv H. unfold bsel. cbn [s_columns s_from s_joins s_where]. auto.
Qed.
Lemma simplify_b n l st : l <> [] -> Forall (bsel n) l -> simplify_stmt (SUnion l) = Ok st -> bstmt n st.
Proof.
  intros Hne Hl H. unfold simplify_stmt in H. cbn [simp_stmt_with] in H. unfold simp_union in H. remember (stmt_depth (SUnion l)) as d eqn:Ed. clear Ed.
  apply bind_Ok in H. destruct H as (sm & Hm & H). apply mapM_Ok in Hm.
  assert (Hs : Forall (bsel n) sm).
  { clear - Hm Hl. revert Hl. induction Hm; intros Hl; [constructor|]. apply Forall_cons_iff in Hl. destruct Hl. constructor; [eapply simp_sel_b; eassumption|auto]. }
  assert (Hk : Forall (bsel n) (filter (fun s => negb (where_is_false s)) sm)).
  { apply Forall_forall. intros s Hx. apply filter_In in Hx. exact (proj1 (Forall_forall _ _) Hs s (proj1 Hx)). }
  destruct (filter _ sm) as [|s0 [|s1 rest]].
  - destruct l as [|s l]; [congruence|]. apply bind_Ok in H. destruct H as (s' & Hs' & H). inv H. apply Forall_cons_iff in Hl. cbn. eapply simp_sel_b; [exact Hs'|apply Hl].
  - inv H. apply Forall_cons_iff in Hk. apply Hk.
  - destruct (forallb _ _).
    + apply bind_Ok in H. destruct H as (s' & Hs' & H). inv H. cbn [bstmt]. eapply simp_sel_b; [exact Hs'|].
      assert (Hs0 : bsel n s0) by (apply Forall_cons_iff in Hk; apply Hk). destruct Hs0 as (E2 & _).
      split; [exact E2|]. cbn [s_joins s_where]. split; [intros js E; discriminate|]. intros w E. inv E.
      apply bflat_or. apply Forall_forall. intros c Hc. change (In c (map where_or_true (s0 :: s1 :: rest))) in Hc. apply in_map_iff in Hc. destruct Hc as (s & <- & Hin).
      pose proof (proj1 (Forall_forall _ _) Hk s Hin) as (_ & _ & Hw). unfold where_or_true. destruct (s_where s) as [w|]; [apply Hw; reflexivity|exact I].
    + inv H. exact Hk.
Qed.
End Plan.

Section Planned.
Variable hidden : tname -> string -> Prop.
Context {G : Type}.
Variables (E : env G) (p : plan) (pcfg : config).
Hypothesis Hpl : planned_by E p pcfg.
Hypothesis Hcb : config_blind hidden E pcfg.
Notation fnm := (en_fnm E).
Notation db := (en_source_schema E).
Notation bs := (bsel hidden (en_text E)).

Lemma target_b n g : is_target pcfg n g -> Forall (bflat hidden (en_text E) n) (target_where g).
Proof.
  intros Hg. destruct Hcb as (_ & _ & Ht). destruct (Ht n g Hg) as (T1 & T2 & T3). unfold target_where. destruct (tg_all g); [constructor|]. rewrite !Forall_app. split; [|split; [|split]].
  - destruct (tg_percent g); repeat constructor.
  - destruct (tg_sql g) as [s|]; repeat constructor. cbn. exact (T3 s eq_refl).
  - apply Forall_forall. intros w Hw. apply in_flat_map in Hw. destruct Hw as ([c ps] & Hc & Hw). apply in_map_iff in Hw. destruct Hw as (x & <- & _). exact (T1 _ _ Hc).
  - apply Forall_forall. intros w Hw. apply in_map_iff in Hw. destruct Hw as ([c vs] & <- & Hc). cbn. intros x [<-|[]]. exact (T2 _ _ Hc).
Qed.
Lemma table_b ns n st : no_dot (fst n) -> table_spec fnm pcfg db ns n st -> bstmt hidden (en_text E) n st.
Proof.
  intros Hdot (t & pa & ch & Ht & Hpa & Hch & Hcase). destruct Hcb as (Hfk & Hco & Htw).
  assert (Hfrom : i_name (table_from n) = n) by (destruct n; reflexivity).
  assert (Hpj : forall js, Forall2 join_of pa js -> Forall (join_blind hidden n) js).
  { intros js H. apply Forall_forall. intros j Hj. destruct (Forall2_In_r H Hj) as (fk & Hin & (E1 & E2 & E3)). destruct (proj1 (Hpa fk) Hin) as [Hc _]. destruct (Hfk _ _ Hc) as [S1 S2].
    split; [rewrite E2; exact S1|]. rewrite E1, E3. unfold i_name. cbn. rewrite <- surjective_pairing. exact S2. }
  assert (Hcj : forall js, Forall2 join_of ch js -> Forall (join_blind hidden n) js).
  { intros js H. apply Forall_forall. intros j Hj. destruct (Forall2_In_r H Hj) as (rk & Hrk & (E1 & E2 & E3)). destruct (proj1 (Hch rk) Hrk) as (c & fk & (Hc & Hd & _) & ->).
    destruct (Hfk _ _ Hc) as [S1 S2]. cbn [mirror fk_cols fk_dst fk_dst_cols] in *. split; [rewrite E2, <- Hd; exact S2|]. rewrite E1, E3. unfold i_name. cbn. rewrite <- surjective_pairing. exact S1. }
  assert (Hcw : forall ws, Forall2 (conf_cond t) (confs_of pcfg n) ws -> Forall (bflat hidden (en_text E) n) ws).
  { intros ws H. apply Forall_forall. intros w Hw. destruct (Forall2_In_r H Hw) as (c & Hin & Hc & v & _ & ->). cbn. unfold confs_of, dget_or in Hin.
    destruct (dget (c_constraints pcfg) (render n)) as [cs|] eqn:Ed; [|destruct Hin]. exact (Hco _ n cs c (dget_In Ed) (conj eq_refl Hdot) Hin). }
  assert (Htg : forall g, tgt_of pcfg n = Some g -> is_target pcfg n g).
  { intros g Hg. exists (render n). split; [exact (dget_In Hg)|split; [reflexivity|exact Hdot]]. }
  assert (Hnone : forall js, Forall (join_blind hidden n) js -> forall ws o, Forall (bflat hidden (en_text E) n) ws -> bs n (Sel None (table_from n) (Some (WAnd ws)) None (Some js) o)).
  { intros js Hj ws o Hw. split; [exact Hfrom|]. cbn [s_joins s_where]. split; [intros js' Ej; inv Ej; exact Hj|intros w Ew; inv Ew; apply bflat_and; exact Hw]. }
  assert (Hown : forall g, is_target pcfg n g -> bs n (own_select n g)).
  { intros g Hg. split; [exact Hfrom|]. cbn [own_select s_joins s_where]. split; [intros js Ej; discriminate|]. intros w Ew. inv Ew. apply bflat_and. exact (target_b Hg). }
  remember (tgt_of pcfg n) as tg eqn:Etg.
  destruct Hcase as [js ws st _ _ Hj Hw Es|js st _ _ _ Hj Es|g js st _ _ _ _ Hj Es|g st ws _ _ Hw Es];
    (eapply simplify_b; [| |exact Es]; [discriminate|]); repeat constructor; try (apply Hnone; auto; constructor); try (apply Hown; apply Htg; reflexivity).
Qed.
Lemma planned_blind s q : In (s, q) (p_queries p) -> query_blind hidden (en_text E) q.
Proof.
  intros Hin st Hst. destruct Hpl as (_ & _ & Hdb & _ & (ord & ordp & Ho & Hop & Hplan) & _).
  destruct (plan_ok_shape Hdb Ho Hop Hplan) as (passl & ns & _ & Hshape & Hgood & _).
  assert (Hk : In s (dkeys (p_queries p))) by (apply in_map_iff; exists (s, q); auto). destruct (proj1 (keys_In Hdb Hshape Hgood s) Hk) as (n & Hn & _).
  destruct (query_of Hdb Hshape Hgood Hin Hn) as [[Hi Eq]|(Hi & st0 & Eq & Hsp)]; rewrite Eq in Hst; inv Hst.
  - cbn. auto.
  - pose proof (table_b (proj2 Hn) Hsp) as Hb. destruct st as [x|l]; cbn in Hb; [exact (bsel_blind Hb)|]. eapply Forall_impl; [|exact Hb]. intros x. apply bsel_blind.
Qed.

(** The plan meets what C108 asks of plans. *)
Theorem planned_runs_blind cfg : env_ok E -> (forall ph n, oblivious hidden (en_rnd E ph n)) -> (forall n, ~ hidden n id_column) ->
  (forall t c, In t db -> hidden (tb_name t) c -> tb_pk t <> [] /\ seen hidden (tb_name t) (tb_pk t)) ->
  (forall n fk, source_fk E cfg p n fk -> seen hidden n (fk_cols fk) /\ seen hidden (fk_dst fk) (fk_dst_cols fk)) ->
  (forall t n c, named t n -> In t (dkeys (p_queries p)) -> hidden n c -> overwritten (filters_of cfg t) c) ->
  HiddenSpec.blind hidden E cfg p.
Proof.
  intros He Hr Hid Hk Hf Hflt. pose proof Hpl as Hpl0. destruct Hpl0 as (H1 & H2 & Hdb & H3 & (ord & ordp & Ho & Hop & Hplan) & Hs & Hself).
  destruct (sampler_meta_spec fnm (p_queries p) (sc_infer cfg) Hdb) as (ms & Ems & _).
  assert (Hrun : runnable id_column true ms (en_source E) [] (p_queries p)).
  { apply (@whole_runnable fnm pcfg db ord ordp Hdb Ho Hop H1 H2 H3 p Hplan (en_source E) (sc_infer cfg) Hs ms true [] Hself Ems); [constructor|intros ? ? []| |discriminate].
    intros n c (cs & [] & _). }
  constructor; try assumption.
  - exact (rn_names _ _ _ _ _ _ Hrun).
  - exact (runnable_wf Hrun).
  - exact (rn_reads _ _ _ _ _ _ Hrun).
  - exact planned_blind.
Qed.
End Planned.
