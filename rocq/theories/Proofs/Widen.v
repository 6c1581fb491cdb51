(** Samples of wider targets and of larger sources are larger (C115). *)
From Coq Require Import Lia QArith Permutation.
From Verif Require Import Model.Base Model.Solver Model.Value Model.Names Model.PlanModel Model.Metadata Model.Planner.
From Verif Require Import Spec.GraphSpec Spec.SchemaSpec Spec.SqlSem Spec.PlannerSpec Spec.WidenSpec.
From Verif Require Import Proofs.BaseFacts Proofs.GraphFacts Proofs.NameFacts Proofs.MetadataFacts Proofs.PlannerEdit Proofs.PlannerGraph Proofs.PlannerTables Proofs.PlannerMain Proofs.PlannerFinal Proofs.PlannerDet Proofs.PlannerWrap.
From Verif Require Proofs.BuildFacts.
Set Implicit Arguments. Unset Strict Implicit.
Open Scope string_scope.
Open Scope list_scope.
Open Scope nat_scope.

Lemma order_det fnm cfg db ord ord' : db_ok db -> any_order ord -> any_order ord' -> order_of fnm cfg db ord = order_of fnm cfg db ord'.
Proof.
  intros Hdb Hord Hord'. unfold order_of.
  destruct (mapM_parse (c_ignore cfg)) as [[Hi (ign & -> & Hign)]|[Hi ->]]; cbn [bind]; [|reflexivity].
  destruct (mapM_parse (c_passthrough cfg)) as [[Hp (pt & -> & Hpt)]|[Hp ->]]; cbn [bind]; [|reflexivity].
  destruct (from_engine_spec fnm (c_select cfg ++ c_passthrough cfg) (c_include_deps cfg) false Hdb) as (ms0 & extra & He & _ & Hn0 & _).
  rewrite He. cbn [of_meta bind fst].
  destruct (edit_fks cfg ms0) as [ms|e] eqn:Hms; cbn [bind]; [|reflexivity].
  pose proof (@engine_edited fnm cfg db Hdb ms0 extra ms He Hms) as Hed.
  destruct (if c_include_deps cfg then _ else _) as [?|e]; cbn [bind]; [|reflexivity].
  assert (Hign' : forall n, In n (set_of ign) <-> ignored cfg n) by (intros n; rewrite set_of_In; apply Hign).
  assert (Hpt' : forall n, In n (set_of pt) <-> passthrough_listed cfg n) by (intros n; rewrite set_of_In; apply Hpt).
  destruct (check_pass_spec Hed Hpt') as [[Hop ->]|[Hop ->]]; cbn [bind]; [reflexivity|].
  pose proof (fun n => @pass_In fnm cfg db ms Hed (set_of pt) n Hpt') as Hpass.
  apply (@solve_order_det fnm cfg db ord ord' Hdb Hord Hord' ms _ Hed). intros n. rewrite set_union_In, Hpass, Hign'. reflexivity.
Qed.

Lemma order_retargeted fnm cfg db ord ts cs : dkeys ts = dkeys (c_targets cfg) -> order_of fnm (retargeted cfg ts cs) db ord = order_of fnm cfg db ord.
Proof.
  intros Hk. unfold order_of, solve_order. cbn [retargeted c_ignore c_passthrough c_select c_include_deps c_targets]. rewrite Hk. reflexivity.
Qed.

(** Induction along a list. *)
Lemma before_ind {A} (l : list A) (P : A -> Prop) : NoDup l ->
  (forall n, In n l -> (forall d, before l d n -> P d) -> P n) -> forall n, In n l -> P n.
Proof.
  intros Hnd Hstep.
  assert (H : forall l2 l1, l = l1 ++ l2 -> (forall d, In d l1 -> P d) -> forall n, In n l -> P n).
  { induction l2 as [|x l2 IH]; intros l1 El H1 n Hn.
    - apply H1. rewrite app_nil_r in El. rewrite <- El. exact Hn.
    - apply (IH (l1 ++ [x])); [rewrite <- app_assoc; exact El| |exact Hn].
      intros d Hd. apply in_app_iff in Hd. destruct Hd as [Hd|[<-|[]]]; [exact (H1 d Hd)|].
      apply Hstep; [rewrite El; apply in_app_iff; right; left; reflexivity|].
      intros d Hb. apply H1. rewrite El in Hb, Hnd. apply (before_split d Hnd) in Hb. exact Hb. }
  exact (H l [] eq_refl (fun d F => match F with end)).
Qed.

Section Widen.
Variables (fnm : string -> string -> bool) (cfg : config) (db : list table) (ts : dict string target) (cs : dict string (list constr)).
Notation cfg' := (retargeted cfg ts cs).
Variables (ord ord' : list string -> list string) (ordp ordp' : list tname -> list tname).
Hypothesis Hdb : db_ok db.
Hypothesis Hord : any_order ord.
Hypothesis Hord' : any_order ord'.
Hypothesis Hordp : any_order ordp.
Hypothesis Hordp' : any_order ordp'.
Variables p p' : plan.
Hypothesis Hplan : plan_db ord ordp fnm cfg db = Ok p.
Hypothesis Hplan' : plan_db ord' ordp' fnm cfg' db = Ok p'.
Hypothesis Hok : config_ok cfg.
Hypothesis Hok' : config_ok cfg'.
Hypothesis Hxv : extras_valid cfg.
Variables (cmpf : cmpop -> value -> value -> bool) (textf : string -> option (dict string lit) -> row -> tv).
Variables source source' sample sample' : tname -> list row.
Hypothesis Hpop : populated cmpf textf source sample p.
Hypothesis Hpop' : populated cmpf textf source' sample' p'.
Hypothesis Hsym : eq_symmetric cmpf.
Hypothesis Hw : widened cmpf textf cfg cfg'.

(** Both plans have the same order. *)
Lemma same_order : exists passl passl' ns,
  plan_shape fnm cfg db p passl ns /\ good_order fnm cfg db ns /\ plan_shape fnm cfg' db p' passl' ns /\ good_order fnm cfg' db ns.
Proof.
  destruct (plan_ok_shape Hdb Hord Hordp Hplan) as (passl & ns & Ho & Hs & Hg & _).
  destruct (plan_ok_shape Hdb Hord' Hordp' Hplan') as (passl' & ns' & Ho' & Hs' & Hg' & _).
  rewrite (@order_retargeted fnm cfg db ord' ts cs (proj1 Hw)), (order_det fnm cfg Hdb Hord' Hord), Ho in Ho'. injection Ho' as E.
  assert (ns' = ns).
  { symmetry. apply map_render_inj; [| |exact E].
    - intros n Hn. apply (all_no_dot Hdb Hs Hg). apply in_app_iff. right. exact Hn.
    - intros n Hn. apply (all_no_dot Hdb Hs' Hg'). apply in_app_iff. right. exact Hn. }
  subst ns'. exists passl, passl', ns. auto.
Qed.

Lemma constr_holds_same r c : constr_holds cmpf textf source sample r c -> constr_holds cmpf textf source' sample' r c.
Proof. intros H. exact H. Qed.

Lemma indexed_In (l : list row) r : In r l -> exists i, In (i, r) (indexed l).
Proof.
  intros Hr. rewrite <- (Verif.Proofs.BuildFacts.indexed_snd l) in Hr. apply in_map_iff in Hr. destruct Hr as ([i r0] & <- & Hi). exists i. exact Hi.
Qed.

Theorem larger n : (forall m, planned p m -> incl (sample m) (source' m)) -> planned p n -> planned p' n /\ incl (sample n) (sample' n).
Proof.
  intros Hsrc Hpn. pose proof Hpn as Hpn0. destruct same_order as (passl & passl' & ns & Hs & Hg & Hs' & Hg').
  apply (planned_iff Hdb Hs Hg) in Hpn. rewrite (planned_iff Hdb Hs' Hg').
  destruct Hpn as [Hp|Hc].
  { split; [left; exact Hp|]. intros r Hr.
    assert (Hp' : passed_through fnm cfg' db n) by exact Hp.
    pose proof (pass_whole Hdb Hord' Hordp' Hplan' Hpop' Hp') as P2.
    apply (Permutation_in _ (Permutation_sym P2)). exact (Hsrc n Hpn0 r Hr). }
  apply (ns_iff Hg) in Hc. split; [right; apply (ns_iff Hg'); exact Hc|]. clear Hpn0.
  revert n Hc. apply (@before_ind _ ns (fun n => incl (sample n) (sample' n)) (proj1 Hg)). intros n Hn IH r Hr.
  pose proof (proj1 (ns_iff Hg n) Hn) as Hcn. pose proof (proj1 (ns_iff Hg' n) Hn) as Hcn'.
  assert (Hin : In r (source' n)) by (apply Hsrc; [apply (planned_iff Hdb Hs Hg); right; exact Hcn|exact Hr]).
  assert (Hdot : no_dot (fst n)) by exact (connected_no_dot Hdb Hcn).
  assert (Hpar : forall fk, earlier_parent fnm cfg db p n fk <-> earlier_parent fnm cfg' db p' n fk).
  { intros fk. rewrite (parent_iff Hdb Hs Hg), (parent_iff Hdb Hs' Hg'). reflexivity. }
  assert (Hchi : forall c fk, earlier_child fnm cfg db p n c fk <-> earlier_child fnm cfg' db p' n c fk).
  { intros c fk. rewrite (child_iff Hdb Hs Hg), (child_iff Hdb Hs' Hg'). reflexivity. }
  assert (Htgt : forall g, is_target cfg n g -> exists g', is_target cfg' n g').
  { intros g (s & Hi & Hnm). assert (Hk : In s (dkeys (c_targets cfg'))) by (rewrite (proj1 Hw); apply in_map_iff; exists (s, g); auto).
    apply in_map_iff in Hk. destruct Hk as ([s' g'] & <- & Hk). exists g', s'. auto. }
  assert (Htgt' : forall g', is_target cfg' n g' -> exists g, is_target cfg n g).
  { intros g (s & Hi & Hnm). assert (Hk : In s (dkeys (c_targets cfg))) by (rewrite <- (proj1 Hw); apply in_map_iff; exists (s, g); auto).
    apply in_map_iff in Hk. destruct Hk as ([s' g'] & <- & Hk). exists g', s'. auto. }
  assert (Hbase : forall c fk, earlier_child fnm cfg db p n c fk -> before ns c n).
  { intros c fk H. apply (child_iff Hdb Hs Hg) in H. apply H. }
  assert (Hbasep : forall fk, earlier_parent fnm cfg db p n fk -> before ns (fk_dst fk) n).
  { intros fk H. apply (parent_iff Hdb Hs Hg) in H. apply H. }
  destruct (table_kinds Hdb Hord Hordp Hplan Hok Hcn) as [(Hpa & _ & _)|[(_ & Hch)|(_ & Hno & (g & Hg0))]].
  - (* from its parents *)
    destruct (from_parents Hdb Hord Hordp Hplan Hok Hxv Hpop Hcn (l := confs_of cfg n)) as (keep & P & Hkeep); [apply (constraints_iff (cfg := cfg)); [apply Hok|exact Hdot|reflexivity]|exact Hpa|].
    assert (Hpa' : exists fk, earlier_parent fnm cfg' db p' n fk) by (destruct Hpa as (fk & H); exists fk; apply Hpar; exact H).
    destruct (from_parents Hdb Hord' Hordp' Hplan' Hok' Hxv Hpop' Hcn' (l := confs_of cfg' n)) as (keep' & P' & Hkeep'); [apply (constraints_iff (cfg := cfg')); [apply Hok'|exact Hdot|reflexivity]|exact Hpa'|].
    apply (Permutation_in _ (Permutation_sym P')). apply filter_In. split; [exact Hin|].
    apply (Permutation_in _ P) in Hr. apply filter_In in Hr. destruct Hr as [_ Hr]. apply Hkeep in Hr. destruct Hr as [R1 R2]. apply Hkeep'. split.
    + intros c Hc. apply constr_holds_same. apply R1. apply (proj2 (proj2 Hw) n (confs_of cfg n) (confs_of cfg' n));
        [apply (constraints_iff (cfg := cfg)); [apply Hok|exact Hdot|reflexivity]|apply (constraints_iff (cfg := cfg')); [apply Hok'|exact Hdot|reflexivity]|exact Hc].
    + intros fk Hfk. apply Hpar in Hfk. destruct (R2 fk Hfk) as (r' & Hr' & Href). exists r'. split; [|exact Href]. exact (IH _ (Hbasep _ Hfk) r' Hr').
  - (* from its children *)
    assert (Hch' : exists c fk, earlier_child fnm cfg' db p' n c fk) by (destruct Hch as (c & fk & H); exists c, fk; apply Hchi; exact H).
    destruct (tgt_of cfg n) as [g|] eqn:Et.
    + apply (is_target_iff (cfg := cfg)) in Et; [|apply Hok|exact Hdot]. destruct (Htgt g Et) as (g' & Et'). destruct (proj1 (proj2 Hw) n g g' Et Et') as (Ha & Hq & _).
      assert (P : Permutation (sample' n) (source' n)).
      { destruct (tg_all g') eqn:Eall; [exact (target_all Hdb Hord' Hordp' Hplan' Hok' Hxv Hpop' Et' Eall Ha)|].
        exact (target_referenced_whole Hdb Hord' Hordp' Hplan' Hok' Hxv Hpop' Et' Hch' Eall Ha Hq). }
      apply (Permutation_in _ (Permutation_sym P)). exact Hin.
    + assert (Hnt : forall g, ~ is_target cfg n g).
      { intros g H. apply (is_target_iff (cfg := cfg)) in H; [congruence|apply Hok|exact Hdot]. }
      assert (Hnt' : forall g, ~ is_target cfg' n g) by (intros g' H; destruct (Htgt' g' H) as (g & H'); exact (Hnt g H')).
      destruct (from_children Hdb Hord Hordp Hplan Hok Hxv Hpop Hsym Hcn Hnt Hch) as (keep & P & Hkeep).
      destruct (from_children Hdb Hord' Hordp' Hplan' Hok' Hxv Hpop' Hsym Hcn' Hnt' Hch') as (keep' & P' & Hkeep').
      apply (Permutation_in _ (Permutation_sym P')). apply filter_In. split; [exact Hin|].
      apply (Permutation_in _ P) in Hr. apply filter_In in Hr. destruct Hr as [_ Hr]. apply Hkeep in Hr. destruct Hr as (c & fk & r' & Hec & Hr' & Href).
      apply Hkeep'. exists c, fk, r'. split; [apply Hchi; exact Hec|]. split; [|exact Href]. exact (IH _ (Hbase _ _ Hec) r' Hr').
  - (* a target *)
    destruct (Htgt g Hg0) as (g' & Hg0'). destruct (proj1 (proj2 Hw) n g g' Hg0 Hg0') as (Ha & _ & Hmore).
    assert (Hno' : forall c fk, ~ earlier_child fnm cfg' db p' n c fk) by (intros c fk H; apply Hchi in H; exact (Hno c fk H)).
    destruct (target_selection Hdb Hord Hordp Hplan Hok Hxv Hpop Hg0 (or_introl Hno)) as (u & okf & rest & Hu & Hokf & P & _).
    destruct (target_selection Hdb Hord' Hordp' Hplan' Hok' Hxv Hpop' Hg0' (or_introl Hno')) as (u' & okf' & rest' & Hu' & Hokf' & P' & Hrest').
    rewrite Ha in Hrest'. subst rest'. rewrite app_nil_r in P'.
    apply (Permutation_in _ (Permutation_sym P')). destruct (indexed_In Hin) as (j & Hj). apply in_map_iff. exists (j, r). split; [reflexivity|].
    apply filter_In. split; [exact Hj|]. apply Hokf'. destruct (Hu' j) as [U1 U2].
    assert (Hsat : In r (map snd (filter okf (indexed (source n))))) by (apply (Permutation_in _ P); apply in_app_iff; left; exact Hr).
    apply in_map_iff in Hsat. destruct Hsat as ([i r0] & E0 & Hf). cbn in E0. subst r0. apply filter_In in Hf. destruct Hf as [_ Hf]. apply Hokf in Hf.
    exact (Hmore (u i) (u' j) r U1 U2 Hf).
Qed.
End Widen.

Lemma wider_takes_more cmpf textf g g' : wider_settings g g' -> takes_more cmpf textf g g'.
Proof.
  intros (Ha & Hp & H). split; [exact Ha|]. split; [intros q Hq; congruence|]. intros u u' r _ _ Hh. destruct H as [H|(Hall & Hs & Hl & Hi)]; [left; exact H|].
  destruct Hh as [Hh|(_ & Hs0 & Hl0 & Hi0)]; [congruence|]. right. split; [intros q Hq; congruence|]. split; [|split].
  - intros s Es. destruct Hs as [Hs|Hs]; [congruence|]. apply Hs0. congruence.
  - intros c ps p Hc Hpp. destruct (Hl c ps p Hc Hpp) as (ps0 & H1 & H2). exact (Hl0 c ps0 p H1 H2).
  - intros c vs Hc. destruct (Hi c vs Hc) as (vs0 & H1 & H2). destruct (Hi0 c vs0 H1) as (Hn & v & Hv & He). split; [exact Hn|]. exists v. split; [apply H2; exact Hv|exact He].
Qed.

Lemma retargeted_self cfg : retargeted cfg (c_targets cfg) (c_constraints cfg) = cfg.
Proof. destruct cfg. reflexivity. Qed.

Lemma is_target_fun cfg n g g' : config_ok cfg -> is_target cfg n g -> is_target cfg n g' -> g' = g.
Proof.
  intros Hok H H'. assert (Hdot : no_dot (fst n)) by (destruct H as (s & _ & Hs); apply Hs).
  apply is_target_iff in H; [|apply Hok|exact Hdot]. apply is_target_iff in H'; [|apply Hok|exact Hdot]. congruence.
Qed.

Lemma constraints_fun cfg n l l' : config_ok cfg -> no_dot (fst n) -> constraints_of cfg n l -> constraints_of cfg n l' -> l' = l.
Proof.
  intros Hok Hdot H H'. apply constraints_iff in H; [|apply Hok|exact Hdot]. apply constraints_iff in H'; [|apply Hok|exact Hdot]. congruence.
Qed.

Lemma constraints_no_dot cfg n l : constraints_of cfg n l -> no_dot (fst n).
Proof. intros (s & Hs & _). apply Hs. Qed.

Lemma drawless_widened cmpf textf cfg : config_ok cfg -> drawless cfg -> widened cmpf textf cfg cfg.
Proof.
  intros Hok Hd. split; [reflexivity|]. split.
  - intros n g g' H H'. rewrite (is_target_fun Hok H H') in *. destruct (Hd n g H) as [Ha Hp]. split; [exact Ha|]. split; [intros q Hq; congruence|].
    intros u u' r _ _ [Hh|(_ & Hh)]; [left; exact Hh|]. right. split; [intros q Hq; congruence|exact Hh].
  - intros n l l' H H'. rewrite (constraints_fun Hok (constraints_no_dot H) H H'). apply incl_refl.
Qed.

(** The rows of a target that nothing referring to it is sampled before, once the configuration has further targets. *)
Section Added.
Variables (fnm : string -> string -> bool) (cfg : config) (db : list table) (more : dict string target).
Notation cfg' := (retargeted cfg (c_targets cfg ++ more) (c_constraints cfg)).
Variables (ord ord' : list string -> list string) (ordp ordp' : list tname -> list tname).
Hypothesis Hdb : db_ok db.
Hypothesis Hord : any_order ord.
Hypothesis Hord' : any_order ord'.
Hypothesis Hordp : any_order ordp.
Hypothesis Hordp' : any_order ordp'.
Variables p p' : plan.
Hypothesis Hplan : plan_db ord ordp fnm cfg db = Ok p.
Hypothesis Hplan' : plan_db ord' ordp' fnm cfg' db = Ok p'.
Hypothesis Hok : config_ok cfg.
Hypothesis Hok' : config_ok cfg'.
Hypothesis Hxv : extras_valid cfg.
Variables (cmpf : cmpop -> value -> value -> bool) (textf : string -> option (dict string lit) -> row -> tv).
Variables source sample sample' : tname -> list row.
Hypothesis Hpop : populated cmpf textf source sample p.
Hypothesis Hpop' : populated cmpf textf source sample' p'.

Lemma added_keeps n g : is_target cfg n g -> tg_amount g = None -> tg_percent g = None ->
  (forall c fk, ~ earlier_child fnm cfg db p n c fk) -> incl (sample n) (sample' n).
Proof.
  intros Ht Ha Hp Hno r Hr.
  assert (Ht' : is_target cfg' n g) by (destruct Ht as (s & Hi & Hs); exists s; split; [apply in_app_iff; left; exact Hi|exact Hs]).
  destruct (target_selection Hdb Hord Hordp Hplan Hok Hxv Hpop Ht (or_introl Hno)) as (u & okf & rest & Hu & Hokf & P & _).
  assert (Hsat : In r (map snd (filter okf (indexed (source n))))) by (apply (Permutation_in _ P); apply in_app_iff; left; exact Hr).
  apply in_map_iff in Hsat. destruct Hsat as ([i r0] & E0 & Hf). cbn in E0. subst r0. apply filter_In in Hf. destruct Hf as [Hin Hf]. apply Hokf in Hf.
  assert (Hsrc : In r (source n)) by (rewrite <- (Verif.Proofs.BuildFacts.indexed_snd (source n)); apply in_map_iff; exists (i, r); auto).
  destruct (tg_all g) eqn:Eall.
  { apply (Permutation_in _ (Permutation_sym (target_all Hdb Hord' Hordp' Hplan' Hok' Hxv Hpop' Ht' Eall Ha))). exact Hsrc. }
  assert (Hq : forall q, tg_percent g = Some q -> Qlt 0 q) by (intros q Hq; congruence).
  destruct (table_kinds Hdb Hord' Hordp' Hplan' Hok' (target_connected Hdb Hord' Hordp' Hplan' Ht')) as [(_ & _ & Hnt)|[(_ & Hch)|(_ & Hno2 & _)]]; [destruct (Hnt g Ht')| |].
  { apply (Permutation_in _ (Permutation_sym (target_referenced_whole Hdb Hord' Hordp' Hplan' Hok' Hxv Hpop' Ht' Hch Eall Ha Hq))). exact Hsrc. }
  destruct (target_selection Hdb Hord' Hordp' Hplan' Hok' Hxv Hpop' Ht' (or_introl Hno2)) as (u' & okf' & rest' & Hu' & Hokf' & P' & Hrest').
  rewrite Ha in Hrest'. subst rest'. rewrite app_nil_r in P'. apply (Permutation_in _ (Permutation_sym P')). apply in_map_iff. exists (i, r). split; [reflexivity|].
  apply filter_In. split; [exact Hin|]. apply Hokf'. destruct Hf as [Hf|(_ & Hf)]; [congruence|]. right. split; [intros q Eq; congruence|exact Hf].
Qed.
End Added.
