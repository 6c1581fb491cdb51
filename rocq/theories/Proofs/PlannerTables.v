(** planner.py: the queries of the planned tables. *)
From Verif Require Import Model.Base Model.Solver Model.Value Model.Names Model.PlanModel Model.Metadata Model.Planner.
From Verif Require Import Spec.GraphSpec Spec.SchemaSpec Spec.SqlSem Spec.PlannerSpec.
From Verif Require Import Proofs.BaseFacts Proofs.GraphFacts Proofs.NameFacts Proofs.MetadataFacts Proofs.PlannerEdit Proofs.PlannerGraph Proofs.SimplifyFacts.
Set Implicit Arguments.
Unset Strict Implicit.
Open Scope string_scope.
Open Scope list_scope.

Lemma fk_insert_In f l x : In x (fk_insert f l) <-> x = f \/ In x l.
Proof.
  induction l as [|g l IH]; cbn [fk_insert]; [cbn; intuition|]. destruct (fk_ltb g f); cbn [In]; [rewrite IH|]; intuition.
Qed.
Lemma fk_sort_In l x : In x (fk_sort l) <-> In x l.
Proof. induction l as [|f l IH]; [reflexivity|]. cbn [fk_sort fold_right]. fold (fk_sort l). rewrite fk_insert_In, IH. cbn. intuition. Qed.

Definition join_of (fk : fkey) (j : join) : Prop :=
  j_right j = mkIdent (fst (fk_dst fk)) (snd (fk_dst fk)) true /\ j_left_cols j = fk_cols fk /\ j_right_cols j = fk_dst_cols fk.

Lemma fk_joins_ok ms t fks js : fk_joins ms t fks = Ok js -> Forall2 join_of fks js.
Proof.
  intros Hm. unfold fk_joins in Hm. apply mapM_Ok in Hm. induction Hm as [|fk j fks js Hj Hm IH]; constructor; [|exact IH].
  apply bind_Ok in Hj. destruct Hj as (d & _ & Hj). inversion Hj; subst. repeat split.
Qed.
Lemma fk_joins_total ms t fks : (forall fk, In fk fks -> In (fk_dst fk) (dkeys ms)) -> exists js, fk_joins ms t fks = Ok js.
Proof.
  intros Hk. unfold fk_joins. induction fks as [|fk fks IH]; [exists []; reflexivity|]. cbn [mapM].
  destruct (@key_dget _ _ _ ms (fk_dst fk)) as [d Hd]; [apply Hk; left; reflexivity|]. unfold dfind at 1. rewrite Hd. cbn [bind].
  destruct IH as [js ->]; [intros f Hf; apply Hk; right; exact Hf|]. cbn [bind]. eexists. reflexivity.
Qed.

(** The constraints of a table as conditions. *)
Definition conf_cond (t : table) (c : constr) (w : wc) : Prop :=
  In (cc_col c) (tb_cols t) /\ exists v, cc_val c = inl v /\ w = WOp (cc_op c) (cc_col c) v.
Lemma constraint_sql_ok t c w : constraint_sql t c = Ok w <-> conf_cond t c w.
Proof.
  unfold constraint_sql, conf_cond. destruct (memb (cc_col c) (tb_cols t)) eqn:Em.
  - apply (proj1 (memb_true _ _)) in Em. destruct (cc_val c) as [v|l].
    + split; [intros Hx; inversion Hx; split; [exact Em|exists v; tauto]|intros [_ (v' & Hv & ->)]; congruence].
    + split; [discriminate|intros [_ (v' & Hv & _)]; discriminate].
  - apply (proj1 (memb_false _ _)) in Em. split; [discriminate|tauto].
Qed.

(** How the query of a table comes about: [parents] are the foreign keys to earlier tables, [children] the
    mirrored foreign keys of earlier tables. *)
Definition table_from (n : tname) : ident := mkIdent (fst n) (snd n) false.
Definition own_select (n : tname) (g : target) : sel :=
  Sel None (table_from n) (Some (WAnd (target_where g))) (tg_amount g) None false.
Inductive table_case (n : tname) (t : table) (confs : list constr) (parents children : list fkey) : option target -> stmt -> Prop :=
| CaseParents js ws st :
    parents <> [] -> children = [] -> Forall2 join_of parents js -> Forall2 (conf_cond t) confs ws ->
    simplify_stmt (SUnion [Sel None (table_from n) (Some (WAnd ws)) None (Some js) false]) = Ok st ->
    table_case n t confs parents children None st
| CaseChildren js st :
    parents = [] -> children <> [] -> confs = [] -> Forall2 join_of children js ->
    simplify_stmt (SUnion [Sel None (table_from n) (Some (WAnd [])) None (Some js) true]) = Ok st ->
    table_case n t confs parents children None st
| CaseBoth g js st :
    parents = [] -> children <> [] -> confs = [] -> tg_all g = false -> Forall2 join_of children js ->
    simplify_stmt (SUnion [Sel None (table_from n) (Some (WAnd [])) None (Some js) true; own_select n g]) = Ok st ->
    table_case n t confs parents children (Some g) st
| CaseTarget g st ws :
    parents = [] -> (children = [] \/ tg_all g = true) -> Forall2 (conf_cond t) confs ws ->
    simplify_stmt (SUnion [own_select n g]) = Ok st ->
    table_case n t confs parents children (Some g) st.

Lemma is_nil_true {A} (l : list A) : is_nil l = true <-> l = [].
Proof. destruct l; cbn; split; congruence. Qed.

Definition parents_of (m : tmeta) (processed : list tname) := fk_sort (filter (fun fk => memb (fk_dst fk) processed) (tm_fks m)).
Definition children_of (m : tmeta) (processed : list tname) := fk_sort (filter (fun fk => memb (fk_dst fk) processed) (tm_rev m)).

Lemma of_simp_Ok {A} (r : res simp_exn A) a : of_simp r = Ok a <-> r = Ok a.
Proof. destruct r as [x|[|]]; cbn; split; congruence. Qed.

Lemma plan_table_case cfg ms m processed tgt q n : tm_name m = n ->
  plan_table cfg ms m processed tgt = Ok q ->
  exists st, q = mkQuery None None (Some st) /\
    table_case n (tm_table m) (dget_or (c_constraints cfg) (render n) []) (parents_of m processed) (children_of m processed) tgt st.
Proof.
  intros Hn. unfold plan_table. fold (tm_name m). rewrite Hn. fold (parents_of m processed) (children_of m processed).
  set (fks := parents_of m processed). set (rev0 := children_of m processed). set (confs := dget_or _ _ _).
  intros Hp.
  destruct (negb (is_nil fks || is_nil rev0)) eqn:E1; [discriminate|].
  destruct (negb (is_some tgt || negb (is_nil fks) || negb (is_nil rev0))) eqn:E2; [discriminate|].
  destruct (is_some tgt && negb (is_nil fks)) eqn:E3; [discriminate|].
  apply bind_Ok in Hp. destruct Hp as (js & Hj & Hp).
  match type of Hp with (if ?b then _ else _) = _ => destruct b eqn:E4; [discriminate|] end.
  apply bind_Ok in Hp. destruct Hp as (ws & Hw & Hp). apply bind_Ok in Hp. destruct Hp as (st & Hst & Hp). apply of_simp_Ok in Hst.
  inversion Hp; subst q. clear Hp. exists st. split; [reflexivity|].
  assert (Hws : Forall2 (conf_cond (tm_table m)) confs ws).
  { apply mapM_Ok in Hw. clear - Hw. induction Hw; constructor; [apply constraint_sql_ok; assumption|assumption]. }
  change (mkIdent (fst n) (snd n) false) with (table_from n) in Hst.
  destruct (is_nil fks) eqn:Ef.
  - apply is_nil_true in Ef. apply fk_joins_ok in Hj.
    destruct tgt as [g|].
    + destruct (tg_all g) eqn:Ea.
      * cbn in Hst. eapply CaseTarget; [exact Ef|right; exact Ea|exact Hws|exact Hst].
      * destruct (is_nil rev0) eqn:Er.
        -- cbn in Hst. apply is_nil_true in Er. eapply CaseTarget; [exact Ef|left; exact Er|exact Hws|exact Hst].
        -- cbn in Hst. cbn in E4. rewrite andb_true_r in E4. apply negb_false_iff, is_nil_true in E4.
           assert (Hne : rev0 <> []) by (intros Hz; rewrite Hz in Er; discriminate).
           rewrite E4 in Hws. inversion Hws; subst ws. eapply CaseBoth; [exact Ef|exact Hne|exact E4|exact Ea|exact Hj|exact Hst].
    + cbn in E2. apply negb_false_iff, negb_true_iff in E2. rewrite E2 in Hst, E4. cbn in Hst, E4. rewrite andb_true_r in E4. apply negb_false_iff, is_nil_true in E4.
      assert (Hne : rev0 <> []) by (intros Hz; rewrite Hz in E2; discriminate).
      rewrite E4 in Hws. inversion Hws; subst ws. eapply CaseChildren; [exact Ef|exact Hne|exact E4|exact Hj|exact Hst].
  - assert (Hne : fks <> []) by (intros Hz; rewrite Hz in Ef; discriminate).
    destruct tgt as [g|]; [discriminate|]. cbn in E1. apply negb_false_iff, is_nil_true in E1.
    cbn in Hst. apply fk_joins_ok in Hj. eapply CaseParents; [exact Hne|exact E1|exact Hj|exact Hws|exact Hst].
Qed.

Lemma target_where_nonempty g : Forall wc_nonempty (target_where g).
Proof.
  unfold target_where. destruct (tg_all g); [constructor|]. rewrite !Forall_app. repeat split.
  - destruct (tg_percent g); repeat constructor.
  - destruct (tg_sql g); repeat constructor.
  - apply Forall_forall. intros w Hw. apply in_flat_map in Hw. destruct Hw as ([c ps] & _ & Hw). apply in_map_iff in Hw.
    destruct Hw as (p & <- & _). exact I.
  - apply Forall_forall. intros w Hw. apply in_map_iff in Hw. destruct Hw as ([c vs] & <- & _). exact I.
Qed.

(** When no assertion is violated and constraints are usable, the query is produced. *)
Lemma plan_table_total cfg ms m processed tgt :
  (parents_of m processed = [] \/ (children_of m processed = [] /\ tgt = None)) ->
  (tgt <> None \/ parents_of m processed <> [] \/ children_of m processed <> []) ->
  (forall fk, In fk (tm_fks m) \/ In fk (tm_rev m) -> In (fk_dst fk) (dkeys ms)) ->
  let confs := dget_or (c_constraints cfg) (render (tm_name m)) [] in
  let all := match tgt with Some g => tg_all g | None => false end in
  (confs <> [] /\ all = false /\ children_of m processed <> [] ->
     plan_table cfg ms m processed tgt = Err (PValueError RConstraintRev)) /\
  (~ (confs <> [] /\ all = false /\ children_of m processed <> []) ->
     (Forall (fun c => exists w, constraint_sql (tm_table m) c = Ok w) confs -> exists q, plan_table cfg ms m processed tgt = Ok q) /\
     (~ Forall (fun c => exists w, constraint_sql (tm_table m) c = Ok w) confs ->
        exists e, plan_table cfg ms m processed tgt = Err (PValueError e) /\ (e = RConstraintCol \/ e = RConstraintVal))).
Proof.
  intros Hone Hsome Hk confs all. unfold plan_table. fold (tm_name m) (parents_of m processed) (children_of m processed) confs.
  set (fks := parents_of m processed) in *. set (rev0 := children_of m processed) in *.
  assert (E1 : negb (is_nil fks || is_nil rev0) = false).
  { apply negb_false_iff, orb_true_iff. rewrite !is_nil_true. tauto. }
  assert (E2 : negb (is_some tgt || negb (is_nil fks) || negb (is_nil rev0)) = false).
  { apply negb_false_iff. destruct tgt as [g|]; [reflexivity|]. cbn. destruct (is_nil fks) eqn:Ef; [|reflexivity]. cbn.
    destruct (is_nil rev0) eqn:Er; [|reflexivity]. apply is_nil_true in Ef, Er. destruct Hsome as [Hs|[Hs|Hs]]; congruence. }
  assert (E3 : is_some tgt && negb (is_nil fks) = false).
  { destruct tgt as [g|]; [|reflexivity]. cbn. apply negb_false_iff, is_nil_true. destruct Hone as [Ho|[_ Ho]]; [exact Ho|discriminate]. }
  rewrite E1, E2, E3.
  set (rev := match tgt with Some g => if tg_all g then [] else rev0 | None => rev0 end).
  destruct (@fk_joins_total ms (tm_table m) (if is_nil fks then rev else fks)) as [js Hjs].
  { intros fk Hfk. apply Hk. destruct (is_nil fks); [right|left].
    - assert (Hr : In fk rev0). { unfold rev in Hfk. destruct tgt as [g|]; [|exact Hfk]. destruct (tg_all g); [destruct Hfk|exact Hfk]. }
      unfold rev0, children_of in Hr. apply (proj1 (fk_sort_In _ _)) in Hr. apply filter_In in Hr. apply Hr.
    - unfold fks, parents_of in Hfk. apply (proj1 (fk_sort_In _ _)) in Hfk. apply filter_In in Hfk. apply Hfk. }
  rewrite Hjs. cbn [bind].
  assert (E4 : negb (is_nil confs) && negb (is_nil rev) = true <-> confs <> [] /\ all = false /\ rev0 <> []).
  { rewrite andb_true_iff, !negb_true_iff. rewrite <- !not_true_iff_false, !is_nil_true. unfold rev, all.
    destruct tgt as [g|]; [destruct (tg_all g)|]; (split; [intros [C1 C2]|intros (C1 & C2 & C3)]; repeat split; congruence). }
  destruct (negb (is_nil confs) && negb (is_nil rev)) eqn:Eb.
  - split; [reflexivity|]. intros Hn. exfalso. apply Hn, E4. reflexivity.
  - split; [intros Hc; apply E4 in Hc; discriminate|]. intros _. split.
    + intros Hall. destruct (@mapM_total _ _ _ (constraint_sql (tm_table m)) (fun c => exists w, constraint_sql (tm_table m) c = Ok w) wc_nonempty confs) as (ws & Hws & Hne).
      * intros c [w Hw]. exists w. split; [exact Hw|]. apply constraint_sql_ok in Hw. destruct Hw as [_ (v & _ & ->)]. exact I.
      * exact Hall.
      * rewrite Hws. cbn [bind]. match goal with |- context [simplify_stmt ?s] => destruct (@simplify_stmt_total s) as [st Hst] end.
        -- cbn [stmt_nonempty]. rewrite fold_and_map. split.
           ++ destruct tgt as [g|]; [destruct (is_nil fks && is_nil rev); discriminate|]. destruct (is_nil fks) eqn:Ef; [|discriminate]. cbn [andb].
              destruct (is_nil rev) eqn:Er; [|discriminate]. exfalso. apply is_nil_true in Ef, Er. unfold rev in Er. destruct Hsome as [Hs|[Hs|Hs]]; congruence.
           ++ apply Forall_app. split.
              ** destruct (is_nil fks && is_nil rev); [constructor|]. constructor; [|constructor]. cbn [sel_nonempty]. apply nonempty_and. exact Hne.
              ** destruct tgt as [g|]; [|constructor]. constructor; [|constructor]. cbn [sel_nonempty]. apply nonempty_and. apply target_where_nonempty.
        -- rewrite Hst. cbn [of_simp bind]. eexists. reflexivity.
    + intros Hall. assert (He : exists e, mapM (constraint_sql (tm_table m)) confs = Err (PValueError e) /\ (e = RConstraintCol \/ e = RConstraintVal)).
      { clear - Hall. induction confs as [|c l IH]; [exfalso; apply Hall; constructor|]. cbn [mapM].
        destruct (constraint_sql (tm_table m) c) as [w|e] eqn:Ec; cbn [bind].
        - destruct IH as (e & -> & He); [|exists e; split; [reflexivity|exact He]]. intros Hl. apply Hall. constructor; [exists w; exact Ec|exact Hl].
        - unfold constraint_sql in Ec. destruct (memb _ _); [destruct (cc_val c)|]; inversion Ec; eexists; (split; [reflexivity|]); tauto. }
      destruct He as (e & -> & He). cbn [bind]. exists e. split; [reflexivity|exact He].
Qed.

(** ** The loop *)
Lemma filter_ext_In {A} (f g : A -> bool) l : (forall x, f x = g x) -> filter f l = filter g l.
Proof. intros He. apply filter_ext. exact He. Qed.
Lemma plan_table_processed cfg ms m P P' tgt : (forall x, In x P <-> In x P') -> plan_table cfg ms m P tgt = plan_table cfg ms m P' tgt.
Proof.
  intros He. unfold plan_table.
  assert (Hm : forall fk, memb (fk_dst fk) P = memb (fk_dst fk) P').
  { intros fk. apply eq_true_iff_eq. rewrite !memb_true. apply He. }
  rewrite (@filter_ext _ _ _ Hm (tm_fks m)), (@filter_ext _ _ _ Hm (tm_rev m)). reflexivity.
Qed.

Section Loop.
Variables (cfg : config) (ms : meta).
Hypothesis Hms : meta_ok ms.
Hypothesis Hnames : names_ok ms.

Lemma plan_tables_split (ns : list tname) : forall (pre : list tname) P queries,
  (forall x, In x P <-> In x pre) -> NoDup (dkeys queries ++ map render ns) -> incl ns (dkeys ms) ->
  (exists new, plan_tables cfg ms (map render ns) P queries = Ok (queries ++ new) /\ dkeys new = map render ns /\
     forall l1 n l2, ns = l1 ++ n :: l2 -> exists m q, In (n, m) ms /\ In (render n, q) new /\
       plan_table cfg ms m (pre ++ l1 ++ [n]) (dget (c_targets cfg) (render n)) = Ok q) \/
  (exists e l1 n l2 m, ns = l1 ++ n :: l2 /\ In (n, m) ms /\ plan_tables cfg ms (map render ns) P queries = Err e /\
     plan_table cfg ms m (pre ++ l1 ++ [n]) (dget (c_targets cfg) (render n)) = Err e /\
     forall k1 n' k2, l1 = k1 ++ n' :: k2 -> exists m' q, In (n', m') ms /\ plan_table cfg ms m' (pre ++ k1 ++ [n']) (dget (c_targets cfg) (render n')) = Ok q).
Proof.
  induction ns as [|n ns IH]; intros pre P queries HP Hnd Hincl; cbn [map plan_tables].
  - left. exists []. rewrite app_nil_r. split; [reflexivity|]. split; [reflexivity|]. intros l1 n l2 He. destruct l1; discriminate.
  - assert (Hk : In n (dkeys ms)) by (apply Hincl; left; reflexivity).
    rewrite (proj2 (parse_Ok _ _) (named_render (Hnames Hk))). cbn [bind].
    destruct (key_dget Hk) as [m Hm]. unfold dfind. rewrite Hm. cbn [bind]. apply dget_In in Hm.
    assert (HP' : forall x, In x (set_add n P) <-> In x (pre ++ [n])). { intros x. rewrite set_add_In, in_app_iff, HP. cbn. intuition. }
    rewrite (@plan_table_processed cfg ms m _ (pre ++ [n]) _ HP').
    destruct (plan_table cfg ms m (pre ++ [n]) (dget (c_targets cfg) (render n))) as [q|e] eqn:Eq; cbn [bind].
    + assert (Hfresh : ~ In (render n) (dkeys queries)).
      { intros Hin. apply NoDup_app_iff in Hnd. destruct Hnd as (_ & _ & Hd). apply (Hd _ Hin). left. reflexivity. }
      rewrite (dset_new _ Hfresh).
      destruct (IH (pre ++ [n]) (set_add n P) (queries ++ [(render n, q)]) HP') as [(new & He & Hd & Hall)|(e & l1 & n' & l2 & m' & -> & Hm' & He & Hp & Hbefore)].
      * unfold dkeys in *. rewrite map_app, <- app_assoc. exact Hnd.
      * intros x Hx. apply Hincl. right. exact Hx.
      * left. exists ((render n, q) :: new). rewrite He, <- app_assoc. split; [reflexivity|]. split; [cbn; f_equal; exact Hd|].
        intros [|a l1] n0 l2 Heq; cbn [app] in Heq; inversion Heq; subst.
        -- exists m, q. split; [exact Hm|]. split; [left; reflexivity|exact Eq].
        -- destruct (Hall l1 n0 l2 eq_refl) as (m0 & q0 & H1 & H2 & H3). exists m0, q0. split; [exact H1|]. split; [right; exact H2|].
           rewrite <- app_assoc in H3. exact H3.
      * right. exists e, (n :: l1), n', l2, m'. split; [reflexivity|]. split; [exact Hm'|]. split; [exact He|]. split; [rewrite <- app_assoc in Hp; exact Hp|].
        intros [|a k1] n0 k2 Heq; cbn [app] in Heq; inversion Heq; subst.
        -- exists m, q. split; [exact Hm|exact Eq].
        -- destruct (Hbefore k1 n0 k2 eq_refl) as (m0 & q0 & H1 & H2). exists m0, q0. split; [exact H1|]. rewrite <- app_assoc in H2. exact H2.
    + right. exists e, [], n, ns, m. split; [reflexivity|]. split; [exact Hm|]. split; [reflexivity|]. split; [exact Eq|].
      intros k1 n' k2 Heq. destruct k1; discriminate.
Qed.
End Loop.
