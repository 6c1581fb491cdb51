(** planner.py: what [plan_db] returns. *)
From Verif Require Import Model.Base Model.Solver Model.Value Model.Names Model.PlanModel Model.Metadata Model.Planner.
From Verif Require Import Spec.GraphSpec Spec.SchemaSpec Spec.SqlSem Spec.PlannerSpec.
From Verif Require Import Proofs.BaseFacts Proofs.GraphFacts Proofs.NameFacts Proofs.MetadataFacts Proofs.PlannerEdit Proofs.PlannerGraph Proofs.PlannerTables Proofs.SimplifyFacts.
Set Implicit Arguments.
Unset Strict Implicit.
Open Scope string_scope.
Open Scope list_scope.

Lemma before_split {A} (l1 l2 : list A) n c : NoDup (l1 ++ n :: l2) -> before (l1 ++ n :: l2) c n <-> In c l1.
Proof.
  intros Hn. split.
  - revert Hn. induction l1 as [|a l1 IH]; cbn [app]; intros Hn Hb; apply before_cons in Hb; apply NoDup_cons_iff in Hn; destruct Hn as [Hna Hn].
    + exfalso. destruct Hb as [[_ Hin]|(k1 & k2 & k3 & ->)]; [tauto|]. apply Hna. apply in_app_iff. right. right. apply in_app_iff. right. left. reflexivity.
    + destruct Hb as [[-> _]|Hb]; [left; reflexivity|right; apply IH; assumption].
  - intros Hc. apply in_split in Hc. destruct Hc as (k1 & k2 & ->). exists k1, k2, l2. rewrite <- app_assoc. reflexivity.
Qed.

Lemma mapM_parse l : ((forall s, In s l -> exists n, named s n) /\ exists ns, mapM parse l = Ok ns /\ forall n, In n ns <-> exists s, In s l /\ named s n) \/
  (~ (forall s, In s l -> exists n, named s n) /\ mapM parse l = Err (PValueError RName)).
Proof.
  induction l as [|s l IH]; cbn [mapM].
  - left. split; [intros s []|]. exists []. split; [reflexivity|]. intros n. split; [intros []|intros (s & [] & _)].
  - destruct (parse s) as [n|e] eqn:Es; cbn [bind].
    + apply parse_Ok in Es. destruct IH as [[Hall (ns & -> & Hns)]|[Hbad ->]]; cbn [bind].
      * left. split; [intros s' [<-|Hs']; [exists n; exact Es|apply Hall; exact Hs']|]. exists (n :: ns). split; [reflexivity|].
        intros n'. cbn [In]. rewrite Hns. split.
        -- intros [<-|(s' & Hs' & Hn')]; [exists s; tauto|exists s'; tauto].
        -- intros (s' & [<-|Hs'] & Hn'); [left; exact (named_fun Es Hn')|right; exists s'; tauto].
      * right. split; [|reflexivity]. intros Hall. apply Hbad. intros s' Hs'. apply Hall. right. exact Hs'.
    + apply parse_Err in Es. destruct Es as [-> Hs]. right. split; [|reflexivity]. intros Hall. exact (Hs (Hall s (or_introl eq_refl))).
Qed.

Section Main.
Variables (fnm : string -> string -> bool) (cfg : config) (db : list table).
Variable ord : list string -> list string.
Variable ordp : list tname -> list tname.
Hypothesis Hdb : db_ok db.
Hypothesis Hord : any_order ord.
Hypothesis Hordp : any_order ordp.

Notation chosen := (chosen fnm cfg db).
Notation considered := (considered fnm cfg db).
Notation active := (active fnm cfg db).
Notation active_edge := (active_edge fnm cfg db).
Notation connected := (connected fnm cfg db).
Notation passed_through := (passed_through fnm cfg db).
Notation good_order := (good_order fnm cfg db).

Definition dst_closed : Prop := forall n fk, considered n fk -> chosen (fk_dst fk).
Lemma include_deps_closed : c_include_deps cfg = true -> dst_closed.
Proof.
  intros Hinc n fk (Hch & [[[(t & Ht & Hfk)|(_ & c & d & t & -> & _ & _ & _ & (t' & Hd & _) & _)] _]|(x & _ & Hx)]).
  - destruct Hch as (m & Hm & Hp). exists m. split; [exact Hm|]. eapply rt_trans; [exact Hp|]. apply rt_step. left. split; [exact Hinc|].
    exists t, fk. tauto.
  - exact Hd.
  - apply Hx.
Qed.

(** Everything up to the order. *)
Definition order_of : pres (list string) :=
  let* ignore := mapM parse (c_ignore cfg) in
  let* passthrough := mapM parse (c_passthrough cfg) in
  let* mx := of_meta (from_engine fnm db (c_select cfg ++ c_passthrough cfg) (c_include_deps cfg) false) in
  let* ms := edit_fks cfg (fst mx) in
  let* _ := if c_include_deps cfg then check_ignore_tables (set_of ignore) ms else Ok tt in
  let* passthrough := check_passthrough_tables (set_of passthrough) ms in
  solve_order ord cfg ms (set_union passthrough (set_of ignore)).

Definition pos_parent (ns : list tname) (n : tname) (fk : fkey) : Prop := considered n fk /\ before ns (fk_dst fk) n.
Definition pos_child (ns : list tname) (n c : tname) (fk : fkey) : Prop := considered c fk /\ fk_dst fk = n /\ before ns c n.
Definition confs_of (n : tname) : list constr := dget_or (c_constraints cfg) (render n) [].
Definition tgt_of (n : tname) : option target := dget (c_targets cfg) (render n).
Definition usable (n : tname) (c : constr) : Prop := exists t, table_of db n t /\ In (cc_col c) (tb_cols t) /\ exists v, cc_val c = inl v.
Definition table_bad (ns : list tname) (n : tname) : Prop :=
  (confs_of n <> [] /\ (exists c fk, pos_child ns n c fk) /\ (forall g, tgt_of n = Some g -> tg_all g = false)) \/
  (exists c, In c (confs_of n) /\ ~ usable n c).

Definition table_spec (ns : list tname) (n : tname) (st : stmt) : Prop :=
  exists t parents children, table_of db n t /\
    (forall fk, In fk parents <-> pos_parent ns n fk) /\
    (forall rk, In rk children <-> exists c fk, pos_child ns n c fk /\ rk = mirror c fk) /\
    table_case n t (confs_of n) parents children (tgt_of n) st.

Definition plan_shape (p : plan) (passl ns : list tname) : Prop :=
  NoDup passl /\ (forall n, In n passl <-> passed_through n) /\ p_passthrough p = map render passl /\
  dkeys (p_queries p) = map render (passl ++ ns) /\
  (forall n, In n passl -> In (render n, passthrough_query n) (p_queries p)) /\
  (forall n, In n ns -> exists st, In (render n, mkQuery None None (Some st)) (p_queries p) /\ table_spec ns n st).

Definition constraint_reason (r : reason) : Prop := r = RConstraintRev \/ r = RConstraintCol \/ r = RConstraintVal.

Section Tables.
Variables (ms : meta) (ns : list tname).
Hypothesis Hed : edited fnm cfg db ms.
Hypothesis Hgood : good_order ns.
Hypothesis Hcl : dst_closed.
Let ms' := map (add_rev (all_fks ms)) ms.

Lemma ms'_meta n m' : In (n, m') ms' -> exists m, In (n, m) ms /\ tm_table m' = tm_table m /\ tm_fks m' = tm_fks m /\ tm_rev m' = mirrors (all_fks ms) n.
Proof.
  intros Hin. apply in_map_iff in Hin. destruct Hin as ([n0 m] & He & Hin). rewrite add_rev_eq in He. inversion He; subst. exists m.
  split; [exact Hin|]. cbn [with_rev tm_table tm_fks tm_rev]. destruct (proj2 (proj2 Hed) _ _ Hin) as (_ & Hr & _). rewrite Hr. repeat split.
Qed.
Lemma ns_active n : In n ns -> active n.
Proof. intros Hn. apply (@connected_active fnm cfg db). apply Hgood. exact Hn. Qed.
Lemma no_self n fk : In n ns -> considered n fk -> fk_dst fk <> n.
Proof.
  intros Hn Hc He. destruct Hgood as (_ & Hin & Hcyc & _). apply (Hcyc n (proj1 (Hin n) Hn)). apply t_step.
  pose proof (ns_active Hn) as Ha. split; [exact Ha|]. split; [exact Ha|]. exists fk. tauto.
Qed.

Lemma parents_pos l1 n l2 m' : ns = l1 ++ n :: l2 -> In (n, m') ms' -> forall fk, In fk (parents_of m' (l1 ++ [n])) <-> pos_parent ns n fk.
Proof.
  intros Hns Hm' fk. destruct (ms'_meta Hm') as (m & Hm & _ & Hf & _). unfold parents_of. rewrite fk_sort_In, filter_In, memb_true, Hf.
  rewrite (proj2 (proj2 (proj2 (proj2 Hed) _ _ Hm))). unfold pos_parent. destruct Hgood as (Hnd & _).
  assert (Hn : In n ns) by (rewrite Hns; apply in_app_iff; right; left; reflexivity).
  rewrite Hns in Hnd |- *. rewrite (before_split _ Hnd), in_app_iff. split.
  - intros [Hc [Hin|[He|[]]]]; [tauto|]. exfalso. apply (no_self Hn Hc). symmetry. exact He.
  - tauto.
Qed.
Lemma children_pos l1 n l2 m' : ns = l1 ++ n :: l2 -> In (n, m') ms' ->
  forall rk, In rk (children_of m' (l1 ++ [n])) <-> exists c fk, pos_child ns n c fk /\ rk = mirror c fk.
Proof.
  intros Hns Hm' rk. destruct (ms'_meta Hm') as (m & Hm & _ & _ & Hr). unfold children_of. rewrite fk_sort_In, filter_In, memb_true, Hr.
  rewrite (mirrors_In n rk (proj1 Hed)). unfold pos_child. destruct Hgood as (Hnd & _).
  assert (Hn : In n ns) by (rewrite Hns; apply in_app_iff; right; left; reflexivity).
  rewrite Hns in Hnd |- *. split.
  - intros [(src & m0 & fk & Hm0 & Hfk & Hd & ->) Hin]. exists src, fk. split; [|reflexivity]. cbn [fk_dst] in Hin.
    apply (proj2 (proj2 Hed) _ _ Hm0) in Hfk. split; [exact Hfk|]. split; [exact Hd|]. apply (before_split _ Hnd).
    apply in_app_iff in Hin. destruct Hin as [Hin|[He|[]]]; [exact Hin|]. subst src. exfalso. exact (no_self Hn Hfk Hd).
  - intros (c & fk & (Hc & Hd & Hb) & ->). apply (before_split _ Hnd) in Hb. split; [|apply in_app_iff; left; exact Hb].
    destruct Hc as [Hch Hc']. destruct (ed_get Hed Hch) as [m0 Hm0]. exists c, m0, fk. split; [exact Hm0|].
    split; [apply (proj2 (proj2 Hed) _ _ Hm0); split; assumption|]. split; [exact Hd|reflexivity].
Qed.

Lemma tgt_In n : tgt_of n <> None <-> In (render n) (dkeys (c_targets cfg)).
Proof.
  unfold tgt_of. split.
  - intros Hx. destruct (In_dec' (render n) (dkeys (c_targets cfg))) as [H1|H1]; [exact H1|]. exfalso. apply Hx. apply dget_None. exact H1.
  - intros Hin Hx. apply (proj1 (dget_None _ _)) in Hx. exact (Hx Hin).
Qed.

(** The result for one table. *)
Lemma one_table l1 n l2 m' : ns = l1 ++ n :: l2 -> In (n, m') ms' ->
  (table_bad ns n /\ exists r, plan_table cfg ms' m' (l1 ++ [n]) (tgt_of n) = Err (PValueError r) /\ constraint_reason r) \/
  (~ table_bad ns n /\ exists st, plan_table cfg ms' m' (l1 ++ [n]) (tgt_of n) = Ok (mkQuery None None (Some st)) /\ table_spec ns n st).
Proof.
  intros Hns Hm'. destruct (ms'_meta Hm') as (m & Hm & Htab & Hfks & Hrev).
  pose proof (parents_pos Hns Hm') as Hpar. pose proof (children_pos Hns Hm') as Hchi.
  assert (Hn : In n ns) by (rewrite Hns; apply in_app_iff; right; left; reflexivity).
  destruct (proj2 (proj2 Hed) _ _ Hm) as (Ht & _ & _).
  assert (Hname : tm_name m' = n). { unfold tm_name. rewrite Htab. exact (proj2 Ht). }
  destruct (@plan_table_total cfg ms' m' (l1 ++ [n]) (tgt_of n)) as [Hrevbad Hrest].
  { destruct (proj2 (proj2 (proj2 Hgood)) n Hn) as [(_ & Hnc & Hnt)|(Hnp & _)].
    - right. split.
      + destruct (children_of m' (l1 ++ [n])) as [|rk l] eqn:Ec; [reflexivity|]. exfalso.
        destruct (proj1 (Hchi rk) (or_introl eq_refl)) as (c & fk & (Hc & Hd & Hb) & _). apply (Hnc c Hb).
        assert (Hcn : In c ns) by (eapply before_In_l; exact Hb).
        split; [apply ns_active; exact Hcn|]. split; [apply ns_active; exact Hn|]. exists fk. tauto.
      + destruct (tgt_of n) as [g|] eqn:Eg; [|reflexivity]. exfalso. apply Hnt, tgt_In. congruence.
    - left. destruct (parents_of m' (l1 ++ [n])) as [|fk l] eqn:Ep; [reflexivity|]. exfalso.
      destruct (proj1 (Hpar fk) (or_introl eq_refl)) as (Hc & Hb). apply (Hnp _ Hb). split; [apply ns_active; exact Hn|].
      split; [apply ns_active; eapply before_In_l; exact Hb|]. exists fk. tauto. }
  { destruct (proj2 (proj2 (proj2 Hgood)) n Hn) as [((d & Hb & _ & _ & fk & Hc & Hd) & _)|(_ & [Hin|(c & Hb & _ & _ & fk & Hc & Hd)])].
    - right; left. intros He. assert (Hx : In fk (parents_of m' (l1 ++ [n]))) by (apply Hpar; split; [exact Hc|rewrite Hd; exact Hb]).
      rewrite He in Hx. destruct Hx.
    - left. apply tgt_In. exact Hin.
    - right; right. intros He. assert (Hx : In (mirror c fk) (children_of m' (l1 ++ [n]))).
      { apply Hchi. exists c, fk. split; [|reflexivity]. split; [exact Hc|split; [exact Hd|exact Hb]]. } rewrite He in Hx. destruct Hx. }
  { intros fk [Hfk|Hfk]; unfold ms'; rewrite add_rev_keys.
    - rewrite Hfks in Hfk. apply (proj1 (proj2 Hed)). apply (@Hcl n). apply (proj2 (proj2 Hed) _ _ Hm). exact Hfk.
    - rewrite Hrev in Hfk. apply (mirrors_In _ _ (proj1 Hed)) in Hfk. destruct Hfk as (src & m0 & fk0 & Hm0 & _ & _ & ->). cbn [fk_dst].
      apply in_map_iff. exists (src, m0). tauto. }
  rewrite Hname in Hrevbad, Hrest. fold (confs_of n) in Hrevbad, Hrest.
  assert (Hchne : children_of m' (l1 ++ [n]) <> [] <-> exists c fk, pos_child ns n c fk).
  { split.
    - intros Hne. destruct (children_of m' (l1 ++ [n])) as [|rk l]; [congruence|]. destruct (proj1 (Hchi rk) (or_introl eq_refl)) as (c & fk & Hc & _).
      exists c, fk. exact Hc.
    - intros (c & fk & Hc) He. assert (Hx : In (mirror c fk) (children_of m' (l1 ++ [n]))) by (apply Hchi; exists c, fk; tauto). rewrite He in Hx. destruct Hx. }
  assert (Hall : match tgt_of n with Some g => tg_all g | None => false end = false <-> forall g, tgt_of n = Some g -> tg_all g = false).
  { destruct (tgt_of n) as [g|]; split; intros Hx; [intros g' Hg; inversion Hg; subst; exact Hx|apply Hx; reflexivity|discriminate|reflexivity]. }
  assert (Hus : forall c, (exists w, constraint_sql (tm_table m') c = Ok w) <-> usable n c).
  { intros c. rewrite Htab. split.
    - intros [w Hw]. apply constraint_sql_ok in Hw. destruct Hw as [Hin (v & Hv & _)]. exists (tm_table m). split; [exact Ht|]. split; [exact Hin|exists v; exact Hv].
    - intros (t & Ht' & Hin & v & Hv). assert (t = tm_table m) by (exact (table_of_fun Hdb Ht' Ht)). subst t.
      exists (WOp (cc_op c) (cc_col c) v). apply constraint_sql_ok. split; [exact Hin|exists v; tauto]. }
  assert (Hrevdec : (confs_of n <> [] /\ match tgt_of n with Some g => tg_all g | None => false end = false /\ children_of m' (l1 ++ [n]) <> []) \/
                   ~ (confs_of n <> [] /\ match tgt_of n with Some g => tg_all g | None => false end = false /\ children_of m' (l1 ++ [n]) <> [])).
  { destruct (confs_of n); [right; tauto|]. destruct (children_of m' (l1 ++ [n])); [right; tauto|]. destruct (match tgt_of n with Some g => tg_all g | None => false end);
      [right; intros (_ & C & _); discriminate|left; repeat split; discriminate]. }
  destruct Hrevdec as [Hr|Hr].
  - left. split.
    + left. destruct Hr as (H1 & H2 & H3). split; [exact H1|]. split; [apply Hchne; exact H3|apply Hall; exact H2].
    + exists RConstraintRev. split; [apply Hrevbad; exact Hr|left; reflexivity].
  - destruct (Hrest Hr) as [Hok Hbad].
    assert (Hdec : (forall c, In c (confs_of n) -> usable n c) \/ exists c, In c (confs_of n) /\ ~ usable n c).
    { assert (Hud : forall c, usable n c \/ ~ usable n c).
      { intros c. rewrite <- Hus. destruct (constraint_sql (tm_table m') c) as [w|e]; [left; exists w; reflexivity|right; intros [w Hw]; discriminate]. }
      induction (confs_of n) as [|c l IH]; [left; intros c []|]. destruct (Hud c) as [Hc|Hc]; [|right; exists c; split; [left; reflexivity|exact Hc]].
      assert (IH' : (forall c, In c l -> usable n c) \/ exists c, In c l /\ ~ usable n c).
      { clear - Hud. induction l as [|c l IH]; [left; intros c []|]. destruct (Hud c) as [Hc|Hc]; [|right; exists c; split; [left; reflexivity|exact Hc]].
        destruct IH as [IH|(c' & Hc' & Hn)]; [left; intros c' [<-|Hc']; [exact Hc|apply IH; exact Hc']|right; exists c'; split; [right; exact Hc'|exact Hn]]. }
      destruct IH' as [IH'|(c' & Hc' & Hn')]; [left; intros c' [<-|Hc']; [exact Hc|apply IH'; exact Hc']|right; exists c'; split; [right; exact Hc'|exact Hn']]. }
    destruct Hdec as [Hu|(c & Hc & Hu)].
    + right. split.
      * intros [(H1 & H2 & H3)|(c & Hc & Hn')]; [|exact (Hn' (Hu c Hc))]. apply Hr. split; [exact H1|]. split; [apply Hall; exact H3|apply Hchne; exact H2].
      * destruct Hok as [q Hq]. { apply Forall_forall. intros c Hc. apply Hus. apply Hu. exact Hc. }
        destruct (@plan_table_case cfg ms' m' (l1 ++ [n]) (tgt_of n) q n Hname Hq) as (st & -> & Hcase). exists st. split; [exact Hq|].
        exists (tm_table m'), (parents_of m' (l1 ++ [n])), (children_of m' (l1 ++ [n])). split; [rewrite Htab; exact Ht|].
        split; [exact Hpar|]. split; [exact Hchi|exact Hcase].
    + left. split; [right; exists c; tauto|]. destruct Hbad as (e & He & Hr').
      * intros Hf. rewrite Forall_forall in Hf. apply Hu, Hus, Hf, Hc.
      * exists e. split; [exact He|]. unfold constraint_reason. tauto.
Qed.
End Tables.

Lemma render_NoDup l : NoDup l -> (forall n, In n l -> chosen n) -> NoDup (map render l).
Proof.
  intros Hn Hc. apply NoDup_map_inj; [|exact Hn]. intros a b Ha Hb He. apply render_inj in He; [exact He| |]; eapply chosen_no_dot; try exact Hdb; apply Hc; assumption.
Qed.

Notation cyclic := (cyclic fnm cfg db).

Definition targets_active : Prop := forall s, In s (dkeys (c_targets cfg)) -> s = "" \/ exists n, named s n /\ active n.
(** All outcomes, in the order of the checks. *)
Lemma plan_outcome :
  (~ names_valid cfg /\ plan_db ord ordp fnm cfg db = Err (PValueError RName)) \/
  (names_valid cfg /\ ((c_include_deps cfg = true /\ into_ignored fnm cfg db /\ plan_db ord ordp fnm cfg db = Err (PValueError RIgnored)) \/
  ((c_include_deps cfg = true -> ~ into_ignored fnm cfg db) /\ ((out_of_passthrough fnm cfg db /\ plan_db ord ordp fnm cfg db = Err (PValueError RPassthrough)) \/
  (~ out_of_passthrough fnm cfg db /\ ((bad_target fnm cfg db /\ plan_db ord ordp fnm cfg db = Err (PValueError RTarget)) \/
  (~ bad_target fnm cfg db /\ ((cyclic /\ plan_db ord ordp fnm cfg db = Err (PValueError RCycle)) \/
  (~ cyclic /\ ((~ dst_closed /\ plan_db ord ordp fnm cfg db = Err PKeyError) \/
  (dst_closed /\ targets_active /\ exists ns, order_of = Ok (map render ns) /\ good_order ns /\
     ((exists n r, In n ns /\ table_bad ns n /\ plan_db ord ordp fnm cfg db = Err (PValueError r) /\ constraint_reason r) \/
      ((forall n, In n ns -> ~ table_bad ns n) /\ exists p passl, plan_db ord ordp fnm cfg db = Ok p /\ plan_shape p passl ns))))))))))))).
Proof.
  unfold plan_db, plan_internal, order_of.
  destruct (mapM_parse (c_ignore cfg)) as [[Hi (ign & -> & Hign)]|[Hi ->]]; cbn [bind].
  2: { left. split; [|reflexivity]. intros [Hv _]. apply Hi. intros s Hs. apply Hv. left. exact Hs. }
  destruct (mapM_parse (c_passthrough cfg)) as [[Hp (pt & -> & Hpt)]|[Hp ->]]; cbn [bind].
  2: { left. split; [|reflexivity]. intros [Hv _]. apply Hp. intros s Hs. apply Hv. right. exact Hs. }
  destruct (from_engine_spec fnm (c_select cfg ++ c_passthrough cfg) (c_include_deps cfg) false Hdb) as (ms0 & extra & He & _ & Hn0 & _).
  rewrite He. cbn [of_meta bind fst].
  destruct (edit_valid_dec cfg) as [Hv|Hv].
  2: { left. split; [|rewrite (@edit_fks_bad cfg ms0 Hv); reflexivity]. intros (_ & H1 & H2). apply Hv. split; assumption. }
  right. split; [split; [intros s [Hs|Hs]; [apply Hi; exact Hs|apply Hp; exact Hs]|exact Hv]|].
  destruct Hv as [Hv1 Hv2]. pose proof (@edit_fks_ok cfg ms0 Hn0 Hv1 Hv2) as Hms. match type of Hms with _ = Ok ?m => set (ms := m) in * end.
  rewrite Hms. cbn [bind]. pose proof (@engine_edited fnm cfg db Hdb ms0 extra ms He Hms) as Hed. clearbody ms. clear Hms He Hn0 ms0 extra.
  assert (Hign' : forall n, In n (set_of ign) <-> ignored cfg n) by (intros n; rewrite set_of_In; apply Hign).
  assert (Hpt' : forall n, In n (set_of pt) <-> passthrough_listed cfg n) by (intros n; rewrite set_of_In; apply Hpt).
  assert (Hchk : (c_include_deps cfg = true /\ into_ignored fnm cfg db /\ (if c_include_deps cfg then check_ignore_tables (set_of ign) ms else Ok tt) = Err (PValueError RIgnored)) \/
                 ((c_include_deps cfg = true -> ~ into_ignored fnm cfg db) /\ (if c_include_deps cfg then check_ignore_tables (set_of ign) ms else Ok tt) = Ok tt)).
  { destruct (c_include_deps cfg); [|right; split; [discriminate|reflexivity]].
    destruct (check_ignore_spec Hed Hign') as [[Hii ->]|[Hii ->]]; [left|right]; tauto. }
  destruct Hchk as [(Hinc & Hii & ->)|(Hii & ->)]; cbn [bind]; [left; tauto|right; split; [exact Hii|]]. clear Hii.
  destruct (check_pass_spec Hed Hpt') as [[Hop ->]|[Hop ->]]; cbn [bind]; [left; tauto|right; split; [exact Hop|]]. clear Hop.
  pose proof (fun n => @pass_In fnm cfg db ms Hed (set_of pt) n Hpt') as Hpass.
  set (passl := filter (dmem ms) (set_of pt)) in *.
  assert (Hpassn : NoDup passl) by (apply NoDup_filter, set_of_NoDup). clearbody passl.
  assert (Hskip : forall n, In n (set_union passl (set_of ign)) <-> passed_through n \/ ignored cfg n).
  { intros n. rewrite set_union_In, Hpass, Hign'. reflexivity. }
  set (skip := set_union passl (set_of ign)) in *. clearbody skip.
  destruct (@bad_target_dec fnm cfg db ms Hed skip Hskip) as [Hbt|Hbt].
  { left. split; [exact Hbt|]. rewrite (@solve_order_bad fnm cfg db Hdb ms Hed skip ord Hskip Hbt). reflexivity. }
  right. split; [exact Hbt|].
  destruct (@solve_order_spec fnm cfg db Hdb ms Hed skip Hskip Hbt ord Hord) as [[Hcyc ->]|(ns & -> & Hgood)]; cbn [bind].
  { left. split; [exact Hcyc|reflexivity]. }
  right. split. { intros (n & Hcn & Hpn). exact (proj1 (proj2 (proj2 Hgood)) n Hcn Hpn). }
  destruct (reverse_keys_spec (proj1 Hed)) as [Hok Hko].
  assert (Hiff : dst_closed <-> forall n fk, In (n, fk) (all_fks ms) -> In (fk_dst fk) (dkeys ms)).
  { split.
    - intros Hcl n fk Hin. apply (all_fks_In _ _ (proj1 Hed)) in Hin. destruct Hin as (m & Hm & Hfk). apply (proj1 (proj2 Hed)).
      apply (Hcl n). apply (proj2 (proj2 Hed) _ _ Hm). exact Hfk.
    - intros Hcl n fk Hc. apply (proj1 (proj2 Hed)). apply (Hcl n). apply (all_fks_In _ _ (proj1 Hed)).
      destruct (ed_get Hed (proj1 Hc)) as [m Hm]. exists m. split; [exact Hm|]. apply (proj2 (proj2 Hed) _ _ Hm). exact Hc. }
  destruct (@list_dec _ (fun nf => In (fk_dst (snd nf)) (dkeys ms)) (all_fks ms)) as [Hd|Hd].
  { intros nf. destruct (In_dec' (fk_dst (snd nf)) (dkeys ms)); tauto. }
  2: { left. assert (Hnc : ~ dst_closed). { intros Hcl. apply Hd. intros [n fk] Hin. cbn [snd]. exact (proj1 Hiff Hcl n fk Hin). }
       split; [exact Hnc|]. rewrite Hko; [reflexivity|]. intros Hx. apply Hnc, Hiff. exact Hx. }
  assert (Hcl : dst_closed). { apply Hiff. intros n fk Hin. exact (Hd (n, fk) Hin). }
  right. split; [exact Hcl|]. split; [intros s; apply (@target_node fnm cfg db ms Hed skip Hskip Hbt)|]. exists ns. split; [reflexivity|]. split; [exact Hgood|].
  rewrite (Hok (proj1 Hiff Hcl)). cbn [of_meta bind]. clear Hok Hko Hiff Hd.
  set (ms' := map (add_rev (all_fks ms)) ms).
  assert (Hms' : meta_ok ms').
  { split; [unfold ms'; rewrite add_rev_keys; apply Hed|]. intros n m' Hin. destruct (ms'_meta Hed Hin) as (m & Hm & Ht & _).
    unfold tm_name. rewrite Ht. exact (proj2 (proj1 Hed) _ _ Hm). }
  assert (Hnm' : names_ok ms').
  { intros n Hin. unfold ms' in Hin. rewrite add_rev_keys in Hin. exact (ed_names Hdb Hed Hin). }
  set (pl := ordp passl).
  assert (Hpl : Permutation pl passl) by apply Hordp.
  assert (Hpln : NoDup pl) by (eapply Permutation_NoDup; [symmetry; exact Hpl|exact Hpassn]).
  assert (HplIn : forall n, In n pl <-> passed_through n).
  { intros n. rewrite <- Hpass. split; apply Permutation_in; [exact Hpl|symmetry; exact Hpl]. }
  assert (Hnsa : forall n, In n ns -> active n) by (intros n; apply (ns_active Hgood)).
  assert (Hall : NoDup (map render (pl ++ ns))).
  { apply render_NoDup.
    - apply NoDup_app_iff. split; [exact Hpln|]. split; [apply Hgood|]. intros n H1 H2. apply HplIn in H1. apply Hnsa in H2.
      destruct H1 as [_ H1], H2 as (_ & _ & H2). exact (H2 H1).
    - intros n Hin. apply in_app_iff in Hin. destruct Hin as [Hin|Hin]; [apply HplIn in Hin; apply Hin|apply Hnsa in Hin; apply Hin]. }
  assert (Hkq : dkeys (map (fun n => (render n, passthrough_query n)) pl) = map render pl).
  { unfold dkeys. rewrite map_map. reflexivity. }
  rewrite map_app in Hall.
  rewrite dict_of_nodup by (fold (dkeys (map (fun n => (render n, passthrough_query n)) pl)); rewrite Hkq; apply NoDup_app_iff in Hall; apply Hall).
  assert (Hnsk : incl ns (dkeys ms')).
  { intros n Hin. unfold ms'. rewrite add_rev_keys. apply (proj1 (proj2 Hed)). apply Hnsa in Hin. apply Hin. }
  destruct (@plan_tables_split cfg ms' Hnm' ns [] [] (map (fun n => (render n, passthrough_query n)) pl)) as [(new & -> & Hdk & Hnew)|(e & l1 & n & l2 & m' & Hns & Hm' & -> & Hpt1 & _)].
  - intros x. reflexivity.
  - rewrite Hkq. exact Hall.
  - exact Hnsk.
  - right. cbn [bind]. cbn [app] in Hnew.
    assert (Hone : forall n, In n ns -> ~ table_bad ns n /\ exists st, In (render n, mkQuery None None (Some st)) new /\ table_spec ns n st).
    { intros n Hn. apply in_split in Hn. destruct Hn as (l1 & l2 & Hns). destruct (Hnew l1 n l2 Hns) as (m' & q & Hm' & Hq & Hpq).
      destruct (one_table Hed Hgood Hcl Hns Hm') as [(_ & r & Hr & _)|(Hb & st & Hst & Hsp)].
      - fold (tgt_of n) in Hpq; unfold ms' in Hpq. rewrite Hpq in Hr. discriminate.
      - fold (tgt_of n) in Hpq; unfold ms' in Hpq. rewrite Hpq in Hst. inversion Hst; subst q. split; [exact Hb|]. exists st. tauto. }
    split; [intros n Hn; apply Hone; exact Hn|]. eexists. exists pl. split; [reflexivity|]. unfold plan_shape. cbn [p_queries p_passthrough].
    split; [exact Hpln|]. split; [exact HplIn|]. split; [reflexivity|]. split.
    { unfold dkeys in *. rewrite !map_app, Hkq, Hdk. reflexivity. }
    split.
    + intros n Hn. apply in_app_iff. left. apply in_map_iff. exists n. tauto.
    + intros n Hn. destruct (Hone n Hn) as (_ & st & Hst & Hsp). exists st. split; [apply in_app_iff; right; exact Hst|exact Hsp].
  - left. cbn [bind]. cbn [app] in Hpt1. fold (tgt_of n) in Hpt1; unfold ms' in Hpt1.
    destruct (one_table Hed Hgood Hcl Hns Hm') as [(Hb & r & Hr & Hrr)|(_ & st & Hst & _)].
    + rewrite Hpt1 in Hr. inversion Hr; subst e. exists n, r. split; [rewrite Hns; apply in_app_iff; right; left; reflexivity|]. tauto.
    + rewrite Hpt1 in Hst. discriminate.
Qed.
End Main.
