(** What the planned queries select. *)
From Verif Require Import Model.Base Model.Value Model.Names Model.PlanModel Model.Metadata Model.Planner.
From Verif Require Import Spec.GraphSpec Spec.SchemaSpec Spec.SqlSem Spec.PlannerSpec.
From Verif Require Import Proofs.BaseFacts Proofs.SimplifyFacts Proofs.BuildFacts Proofs.PlannerTables.
Set Implicit Arguments.
Unset Strict Implicit.
Open Scope string_scope.
Open Scope list_scope.

(** ** Simplified unions *)
Section Union.
Variables (e : sqlenv) (z : rnd).
Hypothesis Hz : rnd_ok z.

Lemma simplify_single s st : simplify_stmt (SUnion [s]) = Ok st -> sel_safe s ->
  exists s', st = SSelect s' /\ sel_same e z s s'.
Proof.
  intros Hs Hsafe. unfold simplify_stmt in Hs. cbn [simp_stmt_with] in Hs. unfold simp_union in Hs. cbn [mapM] in Hs.
  match type of Hs with context [simp_sel ?f s] => set (f0 := f) in * end.
  destruct (simp_sel f0 s) as [s'|x] eqn:Es; cbn [bind] in Hs; [|discriminate].
  assert (Hf : sound e z f0) by (unfold f0; apply (@simp_wc_sound e z Hz)).
  assert (Hsame : sel_same e z s s') by (eapply simp_sel_sound; [exact Hf|exact Es|exact Hsafe]).
  cbn [filter] in Hs. destruct (negb (where_is_false s')); inversion Hs; exists s'; tauto.
Qed.

Lemma In_sel_where s x : In x (sem_sel e z s) -> exists i r, In (i, r) (indexed (contents e (s_from s))) /\ x = project (s_columns s) r /\
  joins_hold e (s_joins s) (s_outer s) r = true /\ eval_wc e z i r (where_or_true s) = T3.
Proof.
  rewrite sem_sel_eq, in_map_iff. intros ([i r] & <- & Hin). cbn [snd]. exists i, r.
  assert (Hin' : In (i, r) (filter (fun ir => joins_hold e (s_joins s) (s_outer s) (snd ir) &&
     match s_where s with None => true | Some w => is_true (eval_wc e z (fst ir) (snd ir) w) end) (indexed (contents e (s_from s))))).
  { destruct (s_limit s) as [n|]; cbn [limited] in Hin; [|exact Hin]. eapply Permutation_in; [apply Hz|].
    match type of Hin with In _ (firstn ?k ?l) => rewrite <- (firstn_skipn k l) end. apply in_app_iff. left. exact Hin. }
  apply filter_In in Hin'. destruct Hin' as [H1 H2]. apply andb_true_iff in H2. cbn [fst snd] in H2. destruct H2 as [H2 H3].
  split; [exact H1|]. split; [reflexivity|]. split; [exact H2|]. unfold where_or_true. destruct (s_where s) as [w|]; [|reflexivity].
  destruct (eval_wc e z i r w); [reflexivity|discriminate|discriminate].
Qed.

(** Nothing is lost by simplifying a union. *)
Lemma simplify_superset l st : simplify_stmt (SUnion l) = Ok st -> Forall sel_safe l ->
  forall x, In x (sem_stmt e z (SUnion l)) -> In x (sem_stmt e z st).
Proof.
  intros Hs Hsafe x Hx. unfold simplify_stmt in Hs. cbn [simp_stmt_with] in Hs.
  match type of Hs with simp_union ?f l = _ => set (f0 := f) in *; assert (Hf : sound e z f0) by (unfold f0; apply (@simp_wc_sound e z Hz)) end.
  unfold simp_union in Hs. apply bind_Ok in Hs. destruct Hs as (simps & Hm & Hs).
  apply mapM_Ok in Hm. pose proof (simps_In Hm Hf Hsafe) as H2.
  set (kept := filter (fun s => negb (where_is_false s)) simps) in *.
  assert (Hrow : exists s, In s kept /\ In x (sem_sel e z s)).
  { apply In_sem_union in Hx. destruct Hx as (s & Hin & Hx). destruct (Forall2_In_l H2 Hin) as (s0 & Hs0 & Hsame).
    destruct Hsame as [Heq _]. rewrite <- Heq in Hx. exists s0. split; [|exact Hx].
    apply filter_In. split; [exact Hs0|]. destruct (where_is_false s0) eqn:Ew; [|reflexivity].
    rewrite (@where_false_sem e z Hz _ Ew) in Hx. destruct Hx. }
  assert (Hks : Forall sel_safe kept).
  { apply Forall_forall. intros s Hin. apply filter_In in Hin. destruct Hin as [Hin _].
    destruct (Forall2_In_r H2 Hin) as (s0 & Hs0 & Hsame). apply Hsame. }
  destruct Hrow as (s & Hk & Hx'). destruct kept as [|s0 [|s1 rest]] eqn:Ek.
  - destruct Hk.
  - inversion Hs; subst st. destruct Hk as [<-|[]]. exact Hx'.
  - destruct (forallb (mergeable s0) (s0 :: s1 :: rest)) eqn:Em.
    + apply bind_Ok in Hs. destruct Hs as (sx & Hsx & Hs). inversion Hs; subst st; clear Hs.
      set (ks := s0 :: s1 :: rest) in *.
      pose proof (proj1 (forallb_forall _ _) Em s Hk) as Hmg. unfold mergeable in Hmg.
      apply andb_true_iff in Hmg. destruct Hmg as [Hmg Hl]. apply andb_true_iff in Hmg. destruct Hmg as [Hfr Hc].
      apply (proj1 (eqb_true _ _)) in Hfr. apply (proj1 (eqb_true _ _)) in Hc.
      set (m := Sel (s_columns s0) (s_from s0) (Some (WOr (map where_or_true ks))) None None false) in *.
      assert (Hms : sel_safe m).
      { unfold m. cbn [sel_safe wc_safe]. apply fold_and_map. apply Forall_forall. intros c Hc'.
        apply in_map_iff in Hc'. destruct Hc' as (s' & <- & Hin). pose proof (proj1 (Forall_forall _ _) Hks s' Hin) as Hss.
        unfold where_or_true. destruct s' as [a b [w|] d e' f']; cbn [s_where]; [exact Hss|exact I]. }
      pose proof (simp_sel_sound Hf Hsx Hms) as Hsame. cbn [sem_stmt]. destruct Hsame as [-> _].
      apply In_sem_nolimit; [reflexivity|left; reflexivity|]. apply In_sel_where in Hx'. destruct Hx' as (i & r & Hin & -> & _ & Hev).
      exists i, r. cbn [s_from s_columns m]. rewrite Hfr in Hin. rewrite Hc. split; [exact Hin|]. split; [reflexivity|].
      unfold where_or_true at 1. cbn [s_where m]. rewrite eval_or. apply any3_T.
      apply in_map_iff. exists (where_or_true s). split; [exact Hev|]. apply in_map. exact Hk.
    + inversion Hs; subst st. apply In_sem_union. exists s. tauto.
Qed.
End Union.

(** Simplifying keeps tables and columns. *)
Lemma simp_sel_from f s s' : simp_sel f s = Ok s' -> s_from s' = s_from s /\ s_columns s' = s_columns s.
Proof.
  destruct s as [cols from [w|] lim js o]; cbn [simp_sel]; [|intros Hs; inversion Hs; tauto].
  intros Hs. apply bind_Ok in Hs. destruct Hs as (w' & _ & Hs). destruct js as [[|j js]|]; inversion Hs; cbn; tauto.
Qed.
Lemma simplify_reads n l st : simplify_stmt (SUnion l) = Ok st ->
  (forall s, In s l -> s_from s = table_from n /\ s_columns s = None) -> reads_only n st.
Proof.
  intros Hs Hall. unfold simplify_stmt in Hs. cbn [simp_stmt_with] in Hs. unfold simp_union in Hs. apply bind_Ok in Hs.
  destruct Hs as (simps & Hm & Hs). apply mapM_Ok in Hm. set (kept := filter (fun s => negb (where_is_false s)) simps) in *.
  assert (Hk : forall s, In s kept -> s_from s = table_from n /\ s_columns s = None).
  { intros s Hin. apply filter_In in Hin. destruct Hin as [Hin _]. destruct (Forall2_In_r Hm Hin) as (s0 & Hs0 & Hsim).
    apply simp_sel_from in Hsim. destruct Hsim as [-> ->]. apply Hall. exact Hs0. }
  unfold reads_only. fold (table_from n). destruct kept as [|s0 [|s1 rest]].
  - destruct l as [|s l]; [discriminate|]. apply bind_Ok in Hs. destruct Hs as (sx & Hsx & Hs). inversion Hs; subst st.
    apply simp_sel_from in Hsx. destruct Hsx as [-> ->]. apply Hall. left. reflexivity.
  - inversion Hs; subst st. apply Hk. left. reflexivity.
  - destruct (forallb _ _).
    + apply bind_Ok in Hs. destruct Hs as (sx & Hsx & Hs). inversion Hs; subst st. apply simp_sel_from in Hsx. destruct Hsx as [-> ->].
      cbn [s_from s_columns]. apply Hk. left. reflexivity.
    + inversion Hs; subst st. exact Hk.
Qed.

Lemma table_case_reads n t confs parents children tgt st : table_case n t confs parents children tgt st -> reads_only n st.
Proof.
  intros Hc. destruct Hc as [js ws st _ _ _ _ Hs|js st _ _ _ _ Hs|g js st _ _ _ _ _ Hs|g st ws _ _ _ Hs];
    (eapply simplify_reads; [exact Hs|]); intros s Hin; cbn [In] in Hin; intuition; subst; reflexivity.
Qed.

Lemma map_snd_filter (k : nat * row -> bool) k' l : (forall i r, k (i, r) = k' r) -> map snd (filter k (indexed l)) = filter k' l.
Proof.
  intros Hk. unfold indexed. generalize 0%nat. induction l as [|r l IH]; intros i; [reflexivity|]. cbn [length seq combine filter].
  rewrite Hk. destruct (k' r); cbn [map snd]; rewrite IH; reflexivity.
Qed.
Lemma indexed_nth l i r : In (i, r) (indexed l) -> nth i l [] = r.
Proof.
  unfold indexed. assert (Hgen : forall k, In (i, r) (combine (seq k (length l)) l) -> (k <= i)%nat /\ nth (i - k) l [] = r).
  { induction l as [|a l IH]; intros k; [intros []|]. cbn [length seq combine]. intros [He|Hin].
    - inversion He; subst. rewrite Nat.sub_diag. split; [lia|reflexivity].
    - destruct (IH (S k) Hin) as [Hle Hn]. split; [lia|]. replace (i - k)%nat with (S (i - S k)) by lia. exact Hn. }
  intros Hin. destruct (Hgen 0%nat Hin) as [_ Hn]. rewrite Nat.sub_0_r in Hn. exact Hn.
Qed.
Lemma all3_T l : all3 l = T3 <-> forall x, In x l -> x = T3.
Proof.
  induction l as [|a l IH]; [cbn; split; [intros _ x []|reflexivity]|]. cbn [all3 fold_right]. fold (all3 l). split.
  - intros Ha x [<-|Hx]; destruct a, (all3 l) eqn:El; cbn in Ha; try discriminate; [reflexivity|apply IH; [reflexivity|exact Hx]].
  - intros Hall. rewrite (Hall a (or_introl eq_refl)). rewrite (proj2 IH); [reflexivity|]. intros x Hx. apply Hall. right. exact Hx.
Qed.
Lemma is_true_T a : is_true a = true <-> a = T3.
Proof. destruct a; cbn; split; congruence. Qed.
Lemma tv_of_T b : tv_of b = T3 <-> b = true.
Proof. destruct b; cbn; split; congruence. Qed.

Section Rows.
Variables (cmpf : cmpop -> value -> value -> bool)
          (textf : string -> option (dict string lit) -> row -> tv)
          (source sample : tname -> list row).
Let e := plan_env cmpf textf source sample.

Lemma reads_source z n st r : rnd_ok z -> reads_only n st -> In r (sem_stmt e z st) -> In r (source n).
Proof.
  intros Hz Hr Hin.
  assert (Hsel : forall s, s_from s = mkIdent (fst n) (snd n) false /\ s_columns s = None -> In r (sem_sel e z s) -> In r (source n)).
  { intros s [Hf Hc] Hs. apply (In_sel_where Hz) in Hs. destruct Hs as (i & r' & Hi & -> & _). rewrite Hc. cbn [project].
    rewrite Hf in Hi. cbn [e plan_env contents i_sampled i_name i_schema i_table] in Hi. rewrite <- (indexed_snd (source n)).
    apply in_map_iff. exists (i, r'). split; [reflexivity|]. destruct n. exact Hi. }
  destruct st as [s|l]; cbn [reads_only] in Hr.
  - exact (Hsel s Hr Hin).
  - apply In_sem_union in Hin. destruct Hin as (s & Hs & Hin). exact (Hsel s (Hr s Hs) Hin).
Qed.

Lemma cmp3_T op a b : cmp3 e op a b = T3 <-> a <> VNull /\ b <> VNull /\ cmpf op a b = true.
Proof.
  unfold cmp3. cbn [e plan_env cmp].
  destruct a; [split; [discriminate|intros (C & _); congruence]| | | ..];
  (destruct b; [split; [discriminate|intros (_ & C & _); congruence]| | | ..]);
  rewrite tv_of_T; (split; [intros Hc; repeat split; [discriminate|discriminate|exact Hc]|tauto]).
Qed.

Lemma join_refers fk j r : join_of fk j -> length (fk_cols fk) = length (fk_dst_cols fk) ->
  join_holds e r j = true <-> exists r', In r' (sample (fk_dst fk)) /\ refers cmpf fk r r'.
Proof.
  intros (Hr & Hl & Hrc) Hlen. unfold join_holds. rewrite existsb_exists, Hr. cbn [e plan_env contents i_sampled i_name i_schema i_table].
  assert (Hm : forall r', join_match e r j r' = true <-> refers cmpf fk r r').
  { intros r'. unfold join_match, refers. rewrite Hl, Hrc. revert Hlen. generalize (fk_dst_cols fk) as ds. generalize (fk_cols fk) as cs.
    induction cs as [|c cs IH]; intros [|d ds] Hlen; cbn in Hlen; try discriminate.
    - cbn. split; [constructor|reflexivity].
    - cbn [combine forallb fst snd]. rewrite andb_true_iff, is_true_T, cmp3_T, IH by lia. split.
      + intros [H1 H2]. constructor; assumption.
      + intros Hf. inversion Hf; subst. tauto. }
  destruct (fk_dst fk) as [ds dt]. cbn [fst snd]. split; intros (r' & H1 & H2); exists r'; (split; [exact H1|apply Hm; exact H2]).
Qed.

Lemma joins_holdb fks js outer r : Forall2 join_of fks js -> fks <> [] ->
  (forall fk, In fk fks -> length (fk_cols fk) = length (fk_dst_cols fk)) ->
  joins_hold e (Some js) outer r = true <->
  if outer then exists fk, In fk fks /\ exists r', In r' (sample (fk_dst fk)) /\ refers cmpf fk r r'
  else forall fk, In fk fks -> exists r', In r' (sample (fk_dst fk)) /\ refers cmpf fk r r'.
Proof.
  intros H2 Hne Hlen. assert (Hjs : js <> []) by (intros ->; inversion H2; subst; congruence).
  assert (Hb : joins_hold e (Some js) outer r = if outer then existsb (join_holds e r) js else forallb (join_holds e r) js) by (destruct js; [congruence|reflexivity]).
  rewrite Hb. destruct outer.
  - rewrite existsb_exists. split.
    + intros (j & Hj & Hh). destruct (Forall2_In_r H2 Hj) as (fk & Hfk & Hjo). exists fk. split; [exact Hfk|]. apply (join_refers r Hjo (Hlen fk Hfk)). exact Hh.
    + intros (fk & Hfk & Hh). destruct (Forall2_In_l H2 Hfk) as (j & Hj & Hjo). exists j. split; [exact Hj|]. apply (join_refers r Hjo (Hlen fk Hfk)). exact Hh.
  - rewrite forallb_forall. split.
    + intros Hall fk Hfk. destruct (Forall2_In_l H2 Hfk) as (j & Hj & Hjo). apply (join_refers r Hjo (Hlen fk Hfk)). apply Hall. exact Hj.
    + intros Hall j Hj. destruct (Forall2_In_r H2 Hj) as (fk & Hfk & Hjo). apply (join_refers r Hjo (Hlen fk Hfk)). apply Hall. exact Hfk.
Qed.

Lemma confs_eval z i r t confs ws : Forall2 (conf_cond t) confs ws ->
  eval_wc e z i r (WAnd ws) = T3 <-> forall c, In c confs -> constr_holds cmpf textf source sample r c.
Proof.
  intros H2. rewrite eval_and, all3_T. split.
  - intros Hall c Hc. destruct (Forall2_In_l H2 Hc) as (w & Hw & _ & v & Hv & He). exists v. split; [exact Hv|]. apply Hall. apply in_map_iff.
    exists w. rewrite He. split; [reflexivity|rewrite <- He; exact Hw].
  - intros Hall x Hx. apply in_map_iff in Hx. destruct Hx as (w & <- & Hw). destruct (Forall2_In_r H2 Hw) as (c & Hc & _ & v & Hv & ->).
    destruct (Hall c Hc) as (v' & Hv' & Ho). assert (v' = v) by congruence. subst v'. exact Ho.
Qed.

Definition joined (outer : bool) (fks : list fkey) (r : row) : Prop :=
  if outer then exists fk, In fk fks /\ exists r', In r' (sample (fk_dst fk)) /\ refers cmpf fk r r'
  else forall fk, In fk fks -> exists r', In r' (sample (fk_dst fk)) /\ refers cmpf fk r r'.

(** A select with joins: a filter of the source table. *)
Lemma join_select_sem z n t confs ws fks js outer : Forall2 (conf_cond t) confs ws -> Forall2 join_of fks js -> fks <> [] ->
  (forall fk, In fk fks -> length (fk_cols fk) = length (fk_dst_cols fk)) ->
  exists keep, sem_sel e z (Sel None (table_from n) (Some (WAnd ws)) None (Some js) outer) = filter keep (source n) /\
    forall r, keep r = true <-> joined outer fks r /\ forall c, In c confs -> constr_holds cmpf textf source sample r c.
Proof.
  intros Hw Hj Hne Hlen. exists (fun r => joins_hold e (Some js) outer r && is_true (eval_wc e z 0%nat r (WAnd ws))). split.
  - cbn [sem_sel limited]. replace (contents e (table_from n)) with (source n) by (destruct n; reflexivity).
    etransitivity; [|apply map_snd_filter with (k := fun ir => joins_hold e (Some js) outer (snd ir) && is_true (eval_wc e z (fst ir) (snd ir) (WAnd ws)))].
    + apply map_ext. intros [i r]. reflexivity.
    + intros i r. cbn [fst snd]. f_equal. apply eq_true_iff_eq. rewrite !is_true_T, !(confs_eval z _ r Hw). reflexivity.
  - intros r. rewrite andb_true_iff, is_true_T, (confs_eval z _ r Hw), (joins_holdb outer r Hj Hne Hlen). reflexivity.
Qed.

(** The target's own select. *)
Lemma target_where_eval z i r g : rnd_ok z ->
  eval_wc e z i r (WAnd (target_where g)) = T3 <->
  target_holds cmpf textf g (match tg_percent g with Some p => draw z (p / 100) i r | None => 0%Q end) r.
Proof.
  intros Hz. rewrite eval_and, all3_T. unfold target_holds, target_where. destruct (tg_all g); [split; [left; reflexivity|intros _ x []]|].
  split.
  - intros Hall. right. split; [|split; [|split]].
    + intros p Hp. rewrite Hp in Hall |- *. assert (Hx : eval_wc e z i r (WRandom (p / 100)) = T3).
      { apply Hall. apply in_map. apply in_app_iff. left. left. reflexivity. }
      cbn [eval_wc] in Hx. apply tv_of_T, negb_true_iff in Hx. apply Qnot_le_lt. intros Hle. apply Qle_bool_iff in Hle. congruence.
    + intros s Hs. rewrite Hs in Hall. assert (Hx : eval_wc e z i r (WSQL s None) = T3).
      { apply Hall. apply in_map. apply in_app_iff. right. apply in_app_iff. left. left. reflexivity. } exact Hx.
    + intros c ps p Hc Hp. assert (Hx : eval_wc e z i r (WOp OpLike c (LStr p)) = T3).
      { apply Hall. apply in_map. apply in_app_iff. right. apply in_app_iff. right. apply in_app_iff. left. apply in_flat_map.
        exists (c, ps). split; [exact Hc|]. apply in_map_iff. exists p. tauto. }
      cbn [eval_wc op3 lit_value] in Hx. apply cmp3_T in Hx. tauto.
    + intros c vs Hc. assert (Hx : eval_wc e z i r (WInVals [c] (map (fun v => [v]) vs) false) = T3).
      { apply Hall. apply in_map. apply in_app_iff. right. apply in_app_iff. right. apply in_app_iff. right. apply in_map_iff. exists (c, vs). tauto. }
      cbn [eval_wc map] in Hx. unfold in3 in Hx. apply any3_T in Hx. apply in_map_iff in Hx. destruct Hx as (y & Hy & Hin).
      apply in_map_iff in Hin. destruct Hin as (y0 & <- & Hin). apply in_map_iff in Hin. destruct Hin as (v & <- & Hv).
      cbn in Hy. assert (Hy' : cmp3 e CEq (rget r c) (lit_value v) = T3) by (destruct (cmp3 e CEq (rget r c) (lit_value v)); [reflexivity|discriminate|discriminate]).
      apply cmp3_T in Hy'. split; [tauto|]. exists v. tauto.
  - intros [Hc|(H1 & H2 & H3 & H4)]; [discriminate|]. intros x Hx. apply in_map_iff in Hx. destruct Hx as (w & <- & Hw).
    rewrite !in_app_iff in Hw. destruct Hw as [Hw|[Hw|[Hw|Hw]]].
    + destruct (tg_percent g) as [p|]; [|destruct Hw]. destruct Hw as [<-|[]]. cbn [eval_wc]. apply tv_of_T, negb_true_iff.
      specialize (H1 p eq_refl). destruct (Qle_bool (p / 100) (draw z (p / 100) i r)) eqn:Eq; [|reflexivity]. apply Qle_bool_iff in Eq.
      exfalso. apply Qlt_not_le in H1. exact (H1 Eq).
    + destruct (tg_sql g) as [s|]; [|destruct Hw]. destruct Hw as [<-|[]]. exact (H2 s eq_refl).
    + apply in_flat_map in Hw. destruct Hw as ([c ps] & Hc & Hw). apply in_map_iff in Hw. destruct Hw as (p & <- & Hp). cbn [fst snd] in *.
      cbn [eval_wc op3 lit_value]. apply cmp3_T. destruct (H3 c ps p Hc Hp) as [Ha Hb]. split; [exact Ha|]. split; [discriminate|exact Hb].
    + apply in_map_iff in Hw. destruct Hw as ([c vs] & <- & Hc). cbn [fst snd]. destruct (H4 c vs Hc) as (Hn & v & Hv & Hq).
      cbn [eval_wc map]. unfold in3. apply any3_T. apply in_map_iff. exists [lit_value v]. split.
      * cbn. replace (cmp3 e CEq (rget r c) (lit_value v)) with T3; [reflexivity|]. symmetry. apply cmp3_T. split; [exact Hn|].
        split; [destruct v; discriminate|exact Hq].
      * rewrite map_map. apply in_map_iff. exists v. split; [reflexivity|exact Hv].
Qed.
Lemma target_where_safe g : Forall wc_safe (target_where g).
Proof.
  unfold target_where. destruct (tg_all g); [constructor|]. rewrite !Forall_app. repeat split.
  - destruct (tg_percent g); repeat constructor.
  - destruct (tg_sql g); repeat constructor.
  - apply Forall_forall. intros w Hw. apply in_flat_map in Hw. destruct Hw as ([c ps] & _ & Hw). apply in_map_iff in Hw.
    destruct Hw as (p & <- & _). exact I.
  - apply Forall_forall. intros w Hw. apply in_map_iff in Hw. destruct Hw as ([c vs] & <- & _). exact I.
Qed.

Lemma own_select_sem z n g : rnd_ok z -> own_selection cmpf textf g (source n) (sem_sel e z (own_select n g)).
Proof.
  intros Hz. set (u := fun i => match tg_percent g with Some p => draw z (p / 100) i (nth i (source n) []) | None => 0%Q end).
  set (z' := mkRnd (fun _ i _ => u i) (shuffle z)).
  assert (Hu : forall i, Qle 0 (u i) /\ Qlt (u i) 1).
  { intros i. unfold u. destruct (tg_percent g); [apply Hz|]. split; [apply Qle_refl|reflexivity]. }
  assert (Hz' : rnd_ok z'). { split; [intros q i r; apply Hu|apply Hz]. }
  set (ok := fun ir : nat * row => is_true (eval_wc e z' (fst ir) (snd ir) (WAnd (target_where g)))).
  assert (Hok : forall i r, ok (i, r) = true <-> target_holds cmpf textf g (u i) r).
  { intros i r. unfold ok. cbn [fst snd]. rewrite is_true_T, (target_where_eval i r g Hz'). unfold z'. cbn [draw].
    destruct (tg_percent g) as [p|] eqn:Ep; [reflexivity|]. unfold target_holds. rewrite Ep.
    split; (intros [Ha|(_ & Hb)]; [left; exact Ha|right; split; [intros p Hp; discriminate|exact Hb]]). }
  assert (Hsat : filter (fun ir => joins_hold e None false (snd ir) && is_true (eval_wc e z (fst ir) (snd ir) (WAnd (target_where g)))) (indexed (source n))
                 = filter ok (indexed (source n))).
  { apply filter_ext_in. intros [i r] Hin. apply indexed_nth in Hin. unfold ok. cbn [fst snd joins_hold andb]. apply eq_true_iff_eq.
    rewrite !is_true_T, (target_where_eval i r g Hz), (target_where_eval i r g Hz'). unfold z', u. cbn [draw]. rewrite Hin. destruct (tg_percent g); reflexivity. }
  unfold own_select. cbn [sem_sel]. replace (contents e (table_from n)) with (source n) by (destruct n; reflexivity). rewrite Hsat.
  cbn [project]. set (sat := filter ok (indexed (source n))).
  assert (Hperm : Permutation (shuffle z sat) sat) by apply Hz.
  exists u, ok. destruct (tg_amount g) as [a|]; cbn [limited].
  - exists (map snd (skipn (Z.to_nat a) (shuffle z sat))). split; [exact Hu|]. split; [exact Hok|]. fold sat. split.
    + rewrite <- map_app, firstn_skipn. apply Permutation_map. exact Hperm.
    + rewrite !map_length, firstn_length. f_equal. apply Permutation_length. exact Hperm.
  - exists []. split; [exact Hu|]. split; [exact Hok|]. fold sat. split; [|reflexivity]. rewrite app_nil_r. apply Permutation_refl.
Qed.

(** ** The cases *)
Section Case.
Variables (n : tname) (t : table) (confs : list constr) (parents children : list fkey) (st : stmt) (z : rnd).
Hypothesis Hz : rnd_ok z.
Hypothesis Hlenp : forall fk, In fk parents -> length (fk_cols fk) = length (fk_dst_cols fk).
Hypothesis Hlenc : forall fk, In fk children -> length (fk_cols fk) = length (fk_dst_cols fk).

Lemma case_parents : table_case n t confs parents children None st -> parents <> [] ->
  exists keep, sem_stmt e z st = filter keep (source n) /\
    forall r, keep r = true <-> joined false parents r /\ forall c, In c confs -> constr_holds cmpf textf source sample r c.
Proof.
  intros Hc Hne. inversion Hc as [js ws st' Hp Hch Hj Hw Hs|js st' Hp| |]; subst; [|congruence].
  assert (Hsafe : sel_safe (Sel None (table_from n) (Some (WAnd ws)) None (Some js) false)).
  { cbn [sel_safe]. apply wc_safe_and. apply Forall_forall. intros w Hin. destruct (Forall2_In_r Hw Hin) as (c & _ & _ & v & _ & ->). exact I. }
  destruct (@simplify_single e z Hz _ _ Hs Hsafe) as (s' & -> & Hsame & _). cbn [sem_stmt]. rewrite Hsame.
  apply (@join_select_sem z n t confs ws parents js false Hw Hj Hp Hlenp).
Qed.

Lemma case_children : table_case n t confs parents children None st -> children <> [] ->
  exists keep, sem_stmt e z st = filter keep (source n) /\ forall r, keep r = true <-> joined true children r.
Proof.
  intros Hc Hne. inversion Hc as [js ws st' Hp Hch Hj Hw Hs|js st' Hp Hch Hco Hj Hs| |]; subst; [congruence|].
  assert (Hsafe : sel_safe (Sel None (table_from n) (Some (WAnd [])) None (Some js) true)) by exact I.
  destruct (@simplify_single e z Hz _ _ Hs Hsafe) as (s' & -> & Hsame & _). cbn [sem_stmt]. rewrite Hsame.
  destruct (@join_select_sem z n t [] [] children js true (Forall2_nil _) Hj Hch Hlenc) as (keep & Hk & Hkeep).
  exists keep. split; [exact Hk|]. intros r. rewrite Hkeep. split; [tauto|]. intros Hx. split; [exact Hx|intros c []].
Qed.

Lemma case_target g : table_case n t confs parents children (Some g) st -> children = [] \/ tg_all g = true ->
  own_selection cmpf textf g (source n) (sem_stmt e z st).
Proof.
  intros Hc Hor. inversion Hc as [| |g' js st' Hp Hch Hco Ha Hj Hs|g' st' ws Hp Hch Hw Hs]; subst; [destruct Hor; congruence|].
  assert (Hsafe : sel_safe (own_select n g)) by (cbn [own_select sel_safe]; apply wc_safe_and, target_where_safe).
  destruct (@simplify_single e z Hz _ _ Hs Hsafe) as (s' & -> & Hsame & _). cbn [sem_stmt]. rewrite Hsame.
  apply own_select_sem. exact Hz.
Qed.

(** A target referenced by earlier tables. *)
Lemma case_both g : table_case n t confs parents children (Some g) st -> children <> [] -> tg_all g = false ->
  exists own, own_selection cmpf textf g (source n) own /\
    (forall r, In r own -> In r (sem_stmt e z st)) /\
    (forall r, In r (source n) -> joined true children r -> In r (sem_stmt e z st)) /\
    (tg_amount g <> None ->
       forall r, In r (sem_stmt e z st) -> In r own \/ (In r (source n) /\ joined true children r)).
Proof.
  intros Hc Hne Hall. inversion Hc as [| |g' js st' Hp Hch Hco Ha Hj Hs|g' st' ws Hp Hch Hw Hs]; subst; [|destruct Hch; congruence].
  exists (sem_sel e z (own_select n g)). split; [apply own_select_sem; exact Hz|].
  set (s1 := Sel None (table_from n) (Some (WAnd [])) None (Some js) true) in *.
  assert (Hsafe : Forall sel_safe [s1; own_select n g]).
  { constructor; [exact I|]. constructor; [|constructor]. cbn [own_select sel_safe]. apply wc_safe_and, target_where_safe. }
  destruct (@join_select_sem z n t [] [] children js true (Forall2_nil _) Hj Hne Hlenc) as (keep & Hk & Hkeep). fold s1 in Hk.
  pose proof (@simplify_superset e z Hz _ _ Hs Hsafe) as Hsup. split; [|split].
  - intros r Hr. apply Hsup. apply In_sem_union. exists (own_select n g). split; [right; left; reflexivity|exact Hr].
  - intros r Hr Hjo. apply Hsup. apply In_sem_union. exists s1. split; [left; reflexivity|]. rewrite Hk. apply filter_In. split; [exact Hr|].
    apply Hkeep. split; [exact Hjo|intros c []].
  - intros Ham. assert (Hsf : stmt_safe (SUnion [s1; own_select n g])).
    { split; [|apply fold_and_map; exact Hsafe]. constructor; [|constructor; [constructor|constructor]]. constructor; [|constructor].
      intros _ _ _ Hl. cbn [own_select s_limit] in Hl. congruence. }
    pose proof (@simplify_stmt_rows e z _ _ Hz Hsf Hs) as Hrows.
    intros r Hr. apply Hrows in Hr. apply In_sem_union in Hr. destruct Hr as (s & [<-|[<-|[]]] & Hr); [|left; exact Hr].
    right. rewrite Hk in Hr. apply filter_In in Hr. destruct Hr as [Hr Hkp]. split; [exact Hr|]. apply Hkeep. exact Hkp.
Qed.

(** ... whose own select is merged away when it has no limit. *)
Lemma case_both_merged g : table_case n t confs parents children (Some g) st -> children <> [] -> tg_all g = false -> tg_amount g = None ->
  (forall p, tg_percent g = Some p -> Qlt 0 p) -> sem_stmt e z st = source n.
Proof.
  intros Hc Hne Hall Ham Hper. inversion Hc as [| |g' js st' Hp Hch Hco Ha Hj Hs|g' st' ws Hp Hch Hw Hs]; subst; [|destruct Hch; congruence].
  assert (Hjs : js <> []) by (intros ->; inversion Hj; subst; congruence). destruct js as [|j js]; [congruence|].
  unfold simplify_stmt in Hs. cbn [simp_stmt_with] in Hs. unfold simp_union in Hs. cbn [mapM] in Hs.
  match type of Hs with context [simp_wc ?k] => set (k0 := k) in * end.
  assert (Hk0 : exists k, k0 = S k) by (eexists; reflexivity). destruct Hk0 as [k Hk0].
  cbn [simp_sel own_select bind] in Hs. rewrite Hk0 in Hs. rewrite simp_wc_and in Hs. cbn [mapM bind] in Hs.
  rewrite simp_wc_and in Hs. destruct (mapM (simp_wc (S k)) (target_where g)) as [ws|x] eqn:Ew; cbn [bind] in Hs; [|discriminate].
  change (and_simplified []) with WTrue in Hs. cbn [is_WTrue] in Hs.
  assert (Hnf : is_WFalse (and_simplified ws) = false).
  { assert (Hws : Forall (fun w => is_WFalse w = false /\ and_parts w = [w]) ws).
    { apply mapM_Ok in Ew. apply Forall_forall. intros w Hin. destruct (Forall2_In_r Ew Hin) as (w0 & Hw0 & Hsim).
      unfold target_where in Hw0. rewrite Hall in Hw0. rewrite !in_app_iff in Hw0. destruct Hw0 as [Hw0|[Hw0|[Hw0|Hw0]]].
      - destruct (tg_percent g) as [p|] eqn:Ep; [|destruct Hw0]. destruct Hw0 as [<-|[]]. cbn [simp_wc] in Hsim. inversion Hsim; subst w.
        specialize (Hper p eq_refl). unfold random_simplified. destruct (Qle_bool (p / 100) 0) eqn:Eq.
        + exfalso. apply Qle_bool_iff in Eq. apply (Qlt_not_le _ _ Hper). rewrite <- (Qmult_0_l 100). 
          setoid_replace p with ((p / 100) * 100)%Q by (field; discriminate). apply Qmult_le_compat_r; [exact Eq|discriminate].
        + destruct (Qle_bool 1 (p / 100)); split; reflexivity.
      - destruct (tg_sql g) as [s|]; [|destruct Hw0]. destruct Hw0 as [<-|[]]. inversion Hsim; subst w. split; reflexivity.
      - apply in_flat_map in Hw0. destruct Hw0 as ([c ps] & _ & Hw0). apply in_map_iff in Hw0. destruct Hw0 as (p & <- & _). inversion Hsim; subst w. split; reflexivity.
      - apply in_map_iff in Hw0. destruct Hw0 as ([c vs] & <- & _). inversion Hsim; subst w. split; reflexivity. }
    unfold and_simplified. set (l := flat_map and_parts (filter (fun c => negb (is_WTrue c)) ws)).
    assert (Hl : Forall (fun w => is_WFalse w = false) l).
    { apply Forall_forall. intros w Hin. apply in_flat_map in Hin. destruct Hin as (w0 & Hw0 & Hin). apply filter_In in Hw0. destruct Hw0 as [Hw0 _].
      rewrite Forall_forall in Hws. destruct (Hws w0 Hw0) as [H1 H2]. rewrite H2 in Hin. destruct Hin as [<-|[]]. exact H1. }
    assert (He : existsb is_WFalse l = false).
    { destruct (existsb is_WFalse l) eqn:Ee; [|reflexivity]. apply existsb_exists in Ee. destruct Ee as (w & Hin & Hw'). rewrite Forall_forall in Hl.
      rewrite (Hl w Hin) in Hw'. discriminate. }
    rewrite He. destruct l as [|w [|w' l]]; [reflexivity| |reflexivity]. apply Forall_inv in Hl. exact Hl. }
  set (wt := and_simplified ws) in *.
  set (s1 := Sel None (table_from n) None None (Some (j :: js)) true) in *.
  set (s2 := Sel None (table_from n) (if is_WTrue wt then None else Some wt) (tg_amount g) None false) in *.
  assert (Hf : filter (fun s => negb (where_is_false s)) [s1; s2] = [s1; s2]).
  { cbn [filter]. change (where_is_false s1) with false. cbn [negb]. replace (where_is_false s2) with false; [reflexivity|].
    unfold where_is_false, s2. cbn [s_where]. destruct wt; cbn in *; congruence. }
  rewrite Hf in Hs. replace (forallb (mergeable s1) [s1; s2]) with true in Hs.
  2: { cbn [forallb]. unfold mergeable, s1, s2. cbn [s_from s_columns s_limit]. rewrite !eqb_refl, Ham. reflexivity. }
  rewrite simp_wc_or in Hs. cbn [map mapM] in Hs. change (where_or_true s1) with WTrue in Hs. change (simp_wc (S k) WTrue) with (@Ok simp_exn _ WTrue) in Hs.
  cbn [bind] in Hs. destruct (simp_wc (S k) (where_or_true s2)) as [w2|x]; cbn [bind] in Hs; [|discriminate].
  assert (Hor : or_simplified [WTrue; w2] = WTrue).
  { unfold or_simplified. cbn [filter is_WFalse negb flat_map or_parts app existsb is_WTrue orb]. reflexivity. }
  rewrite Hor in Hs. cbn [is_WTrue] in Hs. inversion Hs; subst st. cbn [sem_stmt sem_sel limited s_columns s_from s1].
  replace (contents e (table_from n)) with (source n) by (destruct n; reflexivity). cbn [project joins_hold andb].
  rewrite (@map_snd_filter (fun _ => true) (fun _ => true)) by reflexivity. clear. induction (source n) as [|r l IH]; [reflexivity|]. cbn [filter]. f_equal. exact IH.
Qed.
End Case.

(** No row more often than in the source. *)
Lemma map_snd_NoDup (k : nat * row -> bool) l : NoDup l -> NoDup (map snd (filter k (indexed l))).
Proof.
  intros Hn. unfold indexed. generalize 0%nat. induction l as [|r l IH]; intros i; [constructor|]. apply NoDup_cons_iff in Hn. destruct Hn as [Hr Hn].
  cbn [length seq combine filter]. destruct (k (i, r)); [|apply IH; exact Hn]. cbn [map snd]. constructor; [|apply IH; exact Hn].
  intros Hin. apply Hr. apply in_map_iff in Hin. destruct Hin as ([i' r'] & <- & Hin). apply filter_In in Hin. destruct Hin as [Hin _].
  apply in_combine_r in Hin. exact Hin.
Qed.
Lemma reads_nodup z n st : rnd_ok z -> reads_only n st -> NoDup (source n) -> NoDup (sem_stmt e z st).
Proof.
  intros Hz Hr Hn. destruct st as [s|l]; cbn [reads_only sem_stmt] in *; [|apply NoDup_nodup].
  destruct Hr as [Hf Hc]. rewrite sem_sel_eq, Hf, Hc. cbn [project].
  replace (contents e (mkIdent (fst n) (snd n) false)) with (source n) by (destruct n; reflexivity).
  match goal with |- context [filter ?k _] => pose proof (map_snd_NoDup k Hn) as Hm end.
  destruct (s_limit s) as [a|]; cbn [limited]; [|exact Hm].
  match goal with |- context [shuffle z ?x] => set (l := x) in * end.
  assert (Hp : Permutation (map snd (shuffle z l)) (map snd l)) by (apply Permutation_map, Hz).
  assert (Hm' : NoDup (map snd (shuffle z l))) by (eapply Permutation_NoDup; [symmetry; exact Hp|exact Hm]).
  rewrite <- (firstn_skipn (Z.to_nat a) (shuffle z l)), map_app in Hm'. apply NoDup_app_iff in Hm'. apply Hm'.
Qed.
End Rows.
