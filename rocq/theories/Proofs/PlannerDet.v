(** planner.py: the plan does not depend on the iteration order of sets. *)
From Verif Require Import Model.Base Model.Solver Model.Value Model.Names Model.PlanModel Model.Metadata Model.Planner.
From Verif Require Import Spec.GraphSpec Spec.SchemaSpec Spec.SqlSem Spec.PlannerSpec.
From Verif Require Import Proofs.BaseFacts Proofs.GraphFacts Proofs.SolverOrder Proofs.SolverMain Proofs.StrOrder Proofs.NameFacts Proofs.MetadataFacts Proofs.PlannerEdit Proofs.PlannerGraph Proofs.PlannerTables Proofs.PlannerMain Proofs.PlannerFinal.
Set Implicit Arguments.
Unset Strict Implicit.
Open Scope string_scope.
Open Scope list_scope.

Section Det.
Variables (fnm : string -> string -> bool) (cfg : config) (db : list table).
Variables ord ord' : list string -> list string.
Variables ordp ordp' : list tname -> list tname.
Hypothesis Hdb : db_ok db.
Hypothesis Hord : any_order ord.
Hypothesis Hord' : any_order ord'.
Hypothesis Hordp : any_order ordp.
Hypothesis Hordp' : any_order ordp'.

Lemma solve_order_det ms skip : edited fnm cfg db ms -> (forall n, In n skip <-> passed_through fnm cfg db n \/ ignored cfg n) ->
  solve_order ord cfg ms skip = solve_order ord' cfg ms skip.
Proof.
  intros Hed Hskip. destruct (@bad_target_dec fnm cfg db ms Hed skip Hskip) as [Hbt|Hbt].
  { rewrite (@solve_order_bad fnm cfg db Hdb ms Hed skip ord Hskip Hbt), (@solve_order_bad fnm cfg db Hdb ms Hed skip ord' Hskip Hbt). reflexivity. }
  pose proof (@solve_order_spec fnm cfg db Hdb ms Hed skip Hskip Hbt ord Hord) as H1.
  pose proof (@solve_order_spec fnm cfg db Hdb ms Hed skip Hskip Hbt ord' Hord') as H2.
  destruct H1 as [[(n & Hc & Hcy) E1]|(ns & E1 & Hg1)], H2 as [[(n2 & Hc2 & Hcy2) E2]|(ns2 & E2 & Hg2)].
  - congruence.
  - exfalso. exact (proj1 (proj2 (proj2 Hg2)) n Hc Hcy).
  - exfalso. exact (proj1 (proj2 (proj2 Hg1)) n2 Hc2 Hcy2).
  - pose proof (@G_ok fnm cfg db Hdb ms Hed skip Hskip Hbt) as Hok.
    pose proof (@G_source fnm cfg db Hdb ms Hed skip Hskip) as Hsrc.
    revert E1 E2. unfold solve_order. destruct (existsb _ _); [discriminate|]. intros E1 E2.
    assert (Hdet : same_outcome (order_graph ord String.ltb (dset (as_graph ms skip) "" (set_of (dkeys (c_targets cfg)))) "")
                     (order_graph ord' String.ltb (dset (as_graph ms skip) "" (set_of (dkeys (c_targets cfg)))) "")).
    { apply order_graph_det; try assumption; [apply string_ltb_total|split; reflexivity]. }
    unfold same_outcome in Hdet.
    destruct (order_graph ord String.ltb _ "") as [l|e]; destruct (order_graph ord' String.ltb _ "") as [l'|e']; try contradiction; [congruence|].
    destruct e; discriminate.
Qed.

Lemma plan_tables_add ms order : forall P q, 
  match plan_tables cfg ms order P [] with
  | Ok new => NoDup (dkeys q ++ order) -> plan_tables cfg ms order P q = Ok (q ++ new) /\ dkeys new = order
  | Err e => plan_tables cfg ms order P q = Err e
  end.
Proof.
  assert (Hgen : forall order P q0 q, match plan_tables cfg ms order P q0 with
    | Ok new => NoDup (dkeys q0 ++ order) -> NoDup (dkeys q ++ order) -> exists new1, new = q0 ++ new1 /\ dkeys new1 = order /\ plan_tables cfg ms order P q = Ok (q ++ new1)
    | Err e => plan_tables cfg ms order P q = Err e
    end).
  { clear. intros order. induction order as [|s order IH]; intros P q0 q; cbn [plan_tables].
    - intros _ _. exists []. rewrite !app_nil_r. repeat split.
    - destruct (parse s) as [n|e]; cbn [bind]; [|reflexivity]. destruct (dfind PKeyError ms n) as [m|e]; cbn [bind]; [|reflexivity].
      destruct (plan_table cfg ms m (set_add n P) (dget (c_targets cfg) s)) as [tq|e]; cbn [bind]; [|reflexivity].
      specialize (IH (set_add n P) (dset q0 s tq) (dset q s tq)). destruct (plan_tables cfg ms order (set_add n P) (dset q0 s tq)) as [new|e]; [|exact IH].
      intros Hn0 Hn.
      assert (Hnew : forall d : dict string table_query, NoDup (dkeys d ++ s :: order) -> dset d s tq = d ++ [(s, tq)]).
      { intros d Hd. apply dset_new. intros Hin. apply NoDup_app_iff in Hd. destruct Hd as (_ & _ & Hd). apply (Hd s Hin). left. reflexivity. }
      rewrite !Hnew in IH by assumption.
      assert (Hk : forall d : dict string table_query, NoDup (dkeys d ++ s :: order) -> NoDup (dkeys (d ++ [(s, tq)]) ++ order)).
      { intros d Hd. unfold dkeys. rewrite map_app, <- app_assoc. exact Hd. }
      destruct IH as (new1 & -> & Hd1 & Hp1); [apply Hk; exact Hn0|apply Hk; exact Hn|].
      exists ((s, tq) :: new1). split; [rewrite <- app_assoc; reflexivity|]. split; [cbn; f_equal; exact Hd1|].
      rewrite Hnew by exact Hn. rewrite Hp1, <- app_assoc. reflexivity. }
  intros P q. specialize (Hgen order P [] q). destruct (plan_tables cfg ms order P []) as [new|e]; [|exact Hgen].
  intros Hn. destruct Hgen as (new1 & -> & Hd & Hp); [cbn [dkeys map app]; apply NoDup_app_iff in Hn; apply Hn|exact Hn|]. cbn [app]. tauto.
Qed.

Theorem plan_det :
  match plan_db ord ordp fnm cfg db, plan_db ord' ordp' fnm cfg db with
  | Ok p, Ok p' => exists pass pass' rest, p_queries p = pass ++ rest /\ p_queries p' = pass' ++ rest /\ Permutation pass pass' /\
                     p_passthrough p = dkeys pass /\ p_passthrough p' = dkeys pass'
  | Err e, Err e' => e = e'
  | _, _ => False
  end.
Proof.
  unfold plan_db, plan_internal.
  destruct (mapM_parse (c_ignore cfg)) as [[Hi (ign & -> & Hign)]|[Hi ->]]; cbn [bind]; [|reflexivity].
  destruct (mapM_parse (c_passthrough cfg)) as [[Hp (pt & -> & Hpt)]|[Hp ->]]; cbn [bind]; [|reflexivity].
  destruct (from_engine_spec fnm (c_select cfg ++ c_passthrough cfg) (c_include_deps cfg) false Hdb) as (ms0 & extra & He & _ & Hn0 & _).
  rewrite He. cbn [of_meta bind fst].
  destruct (edit_fks cfg ms0) as [ms|e] eqn:Hms; cbn [bind]; [|reflexivity].
  pose proof (@engine_edited fnm cfg db Hdb ms0 extra ms He Hms) as Hed.
  destruct (if c_include_deps cfg then _ else _) as [?|e]; cbn [bind]; [|reflexivity].
  assert (Hign' : forall n, In n (set_of ign) <-> ignored cfg n) by (intros n; rewrite set_of_In; apply Hign).
  assert (Hpt' : forall n, In n (set_of pt) <-> passthrough_listed cfg n) by (intros n; rewrite set_of_In; apply Hpt).
  destruct (check_pass_spec Hed Hpt') as [[Hop ->]|[Hop ->]]; cbn [bind]; [reflexivity|].
  pose proof (fun n => @pass_In fnm cfg db ms Hed (set_of pt) n Hpt') as Hpass.
  set (passl := filter (dmem ms) (set_of pt)) in *.
  assert (Hpassn : NoDup passl) by (apply NoDup_filter, set_of_NoDup). clearbody passl.
  assert (Hskip : forall n, In n (set_union passl (set_of ign)) <-> passed_through fnm cfg db n \/ ignored cfg n).
  { intros n. rewrite set_union_In, Hpass, Hign'. reflexivity. }
  rewrite (solve_order_det Hed Hskip).
  destruct (solve_order ord' cfg ms _) as [order|e] eqn:Eo; cbn [bind]; [|reflexivity].
  destruct (of_meta (compute_reverse_keys ms)) as [ms2|e]; cbn [bind]; [|reflexivity].
  assert (Hnd : forall f : list tname -> list tname, any_order f -> NoDup (map render (f passl) ++ order) /\
     dkeys (dict_of (map (fun n => (render n, passthrough_query n)) (f passl))) = map render (f passl) /\
     dict_of (map (fun n => (render n, passthrough_query n)) (f passl)) = map (fun n => (render n, passthrough_query n)) (f passl)).
  { intros f Hf.
    assert (Hbt : ~ bad_target fnm cfg db).
    { intros Hb. rewrite (@solve_order_bad fnm cfg db Hdb ms Hed _ ord' Hskip Hb) in Eo. discriminate. }
    destruct (@solve_order_spec fnm cfg db Hdb ms Hed _ Hskip Hbt ord' Hord') as [[_ E1]|(ns & E1 & Hg)]; [congruence|].
    assert (order = map render ns) by congruence. subst order. rewrite <- map_app.
    assert (Hfn : forall n, In n (f passl) <-> passed_through fnm cfg db n).
    { intros n. rewrite <- Hpass. split; apply Permutation_in; [apply Hf|symmetry; apply Hf]. }
    assert (HN : NoDup (map render (f passl ++ ns))).
    { apply (@render_NoDup fnm cfg db Hdb).
      - apply NoDup_app_iff. split; [eapply Permutation_NoDup; [symmetry; apply Hf|exact Hpassn]|]. split; [apply Hg|].
        intros n H1 H2. apply Hfn in H1. apply (ns_active Hg) in H2. destruct H1 as [_ H1], H2 as (_ & _ & H2). exact (H2 H1).
      - intros n Hin. apply in_app_iff in Hin. destruct Hin as [Hin|Hin]; [apply Hfn in Hin; apply Hin|apply (ns_active Hg) in Hin; apply Hin]. }
    split; [exact HN|].
    assert (Hd : dict_of (map (fun n => (render n, passthrough_query n)) (f passl)) = map (fun n => (render n, passthrough_query n)) (f passl)).
    { apply dict_of_nodup. rewrite map_map. cbn [fst]. rewrite map_app in HN. apply NoDup_app_iff in HN. apply HN. }
    rewrite Hd. split; [unfold dkeys; rewrite map_map; reflexivity|reflexivity]. }
  destruct (Hnd ordp Hordp) as (N1 & K1 & D1). destruct (Hnd ordp' Hordp') as (N2 & K2 & D2).
  rewrite <- K1 in N1. rewrite <- K2 in N2.
  pose proof (plan_tables_add ms2 order [] (dict_of (map (fun n => (render n, passthrough_query n)) (ordp passl)))) as A1.
  pose proof (plan_tables_add ms2 order [] (dict_of (map (fun n => (render n, passthrough_query n)) (ordp' passl)))) as A2.
  destruct (plan_tables cfg ms2 order [] []) as [new|e]; [|rewrite A1, A2; reflexivity].
  destruct (A1 N1) as [-> _], (A2 N2) as [-> _]. cbn [bind p_queries p_passthrough].
  eexists; eexists; exists new. split; [reflexivity|]. split; [reflexivity|]. rewrite K1, K2. split; [|tauto].
  rewrite D1, D2. apply Permutation_map. transitivity passl; [apply Hordp|symmetry; apply Hordp'].
Qed.
End Det.
