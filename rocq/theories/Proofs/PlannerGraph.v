(** planner.py: considered foreign keys, the checks, the order of tables. *)
From Verif Require Import Model.Base Model.Solver Model.Value Model.Names Model.PlanModel Model.Metadata Model.Planner.
From Verif Require Import Spec.GraphSpec Spec.SchemaSpec Spec.SqlSem Spec.PlannerSpec.
From Verif Require Import Proofs.BaseFacts Proofs.GraphFacts Proofs.NameFacts Proofs.MetadataFacts Proofs.PlannerEdit.
From Verif Require Import Proofs.SolverOrder Proofs.SolverMain Proofs.StrOrder.
Set Implicit Arguments.
Unset Strict Implicit.
Open Scope string_scope.
Open Scope list_scope.

Section Planner.
Variables (fnm : string -> string -> bool) (cfg : config) (db : list table).
Hypothesis Hdb : db_ok db.

Notation chosen := (chosen fnm cfg db).
Notation considered := (considered fnm cfg db).
Notation active := (active fnm cfg db).
Notation active_edge := (active_edge fnm cfg db).
Notation connected := (connected fnm cfg db).
Notation passed_through := (passed_through fnm cfg db).

(** What the metadata is once the foreign keys are edited. *)
Definition edited (ms : meta) : Prop :=
  meta_ok ms /\ (forall n, In n (dkeys ms) <-> chosen n) /\
  forall n m, In (n, m) ms -> table_of db n (tm_table m) /\ tm_rev m = [] /\ forall fk, In fk (tm_fks m) <-> considered n fk.

Lemma chosen_table n : chosen n -> exists t, table_of db n t.
Proof.
  intros (m & (t & s & p & Ht & _) & Hp). apply Operators_Properties.clos_rt_rtn1 in Hp. destruct Hp as [|a b Hab Hp].
  - exists t. exact Ht.
  - eapply follow_table; eassumption.
Qed.
Lemma chosen_no_dot n : chosen n -> no_dot (fst n).
Proof. intros Hc. destruct (chosen_table Hc) as [t Ht]. eapply table_no_dot; eassumption. Qed.

Lemma engine_edited ms0 extra ms :
  from_engine fnm db (c_select cfg ++ c_passthrough cfg) (c_include_deps cfg) false = Ok (ms0, extra) ->
  edit_fks cfg ms0 = Ok ms -> edited ms.
Proof.
  intros He Hed. destruct (from_engine_spec fnm (c_select cfg ++ c_passthrough cfg) (c_include_deps cfg) false Hdb)
    as (ms0' & extra' & He' & _ & Hn & Hs & Hm). rewrite He in He'. inversion He'; subst ms0' extra'. clear He'.
  assert (Hms0 : meta_ok ms0). { split; [exact Hn|]. intros n m Hin. destruct (Hm n m Hin) as (t & [Ht Hnm] & ->). exact Hnm. }
  destruct (edit_valid_dec cfg) as [[Hi Hx]|Hbad]; [|rewrite (@edit_fks_bad cfg ms0 Hbad) in Hed; discriminate].
  rewrite (@edit_fks_ok cfg ms0 Hn Hi Hx) in Hed. inversion Hed; subst ms. clear Hed.
  assert (Htab : forall n m, In (n, m) ms0 <-> exists t, table_of db n t /\ chosen n /\ m = new_meta t).
  { intros n m. split.
    - intros Hin. destruct (Hm n m Hin) as (t & Ht & ->). exists t. split; [exact Ht|]. split; [|reflexivity]. apply Hs.
      apply in_map_iff. exists (n, new_meta t). tauto.
    - intros (t & Ht & Hc & ->). apply Hs in Hc. apply in_map_iff in Hc. destruct Hc as ([n' m] & Hn' & Hin). cbn in Hn'. subst n'.
      destruct (Hm n m Hin) as (t' & Ht' & ->). rewrite (table_of_fun Hdb Ht Ht'). exact Hin. }
  assert (Hpk : forall ia s c d, (ia = true <-> c_infer cfg = InferAll) -> has_pk ia ms0 s c d <-> chosen_pk fnm cfg db s c d).
  { intros ia s c d Hia. unfold has_pk, chosen_pk. split.
    - intros (m & Hin & Hp & Hor). apply Htab in Hin. destruct Hin as (t & Ht & Hc & ->). exists t. rewrite <- Hia. tauto.
    - intros (t & Hc & Ht & Hp & Hor). exists (new_meta t). split; [apply Htab; exists t; tauto|]. rewrite Hia. tauto. }
  assert (Hinf : forall n m, In (n, m) (infer_of cfg ms0) -> table_of db n (tm_table m) /\ chosen n /\ tm_rev m = [] /\
      forall fk, In fk (tm_fks m) <-> In fk (tb_fks (tm_table m)) \/ inferable fnm cfg db n fk).
  { intros n m Hin. unfold infer_of in Hin.
    assert (Hone : forall ia, c_infer cfg <> InferNone -> (ia = true <-> c_infer cfg = InferAll) ->
       In (n, m) (infer_missing_foreign_keys ia ms0) -> table_of db n (tm_table m) /\ chosen n /\ tm_rev m = [] /\
      forall fk, In fk (tm_fks m) <-> In fk (tb_fks (tm_table m)) \/ inferable fnm cfg db n fk).
    { clear Hin. intros ia Hne Hia Hin. apply infer_In in Hin. destruct Hin as (m0 & Hin & ->).
      pose proof Hin as Hin0. apply Htab in Hin. destruct Hin as (t & Ht & Hc & ->).
      assert (Hnc : NoDup (tb_cols t)) by (apply Hdb; apply Ht).
      destruct (@infer_table_spec ia ms0 n (new_meta t) Hms0 Hin0 Hnc) as (new & -> & _ & Hnew).
      cbn [with_fks new_meta tm_table tm_fks tm_rev]. split; [exact Ht|]. split; [exact Hc|]. split; [reflexivity|].
      intros fk. rewrite in_app_iff, Hnew. cbn [new_meta tm_fks].
      assert (Hii : inferred ia ms0 n (new_meta t) fk <-> inferable fnm cfg db n fk).
      { unfold inferred, inferable. cbn [new_meta tm_table]. split.
        - intros (c & d & -> & Hcc & [Hp Hu] & Hd). split; [exact Hne|]. exists c, d, t. split; [reflexivity|]. split; [exact Hd|].
          split; [exact Ht|]. split; [exact Hcc|]. split; [apply (Hpk ia _ _ _ Hia); exact Hp|]. intros d' Hd'. apply Hu. apply (Hpk ia _ _ _ Hia). exact Hd'.
        - intros (_ & c & d & t' & -> & Hd & Ht' & Hcc & Hp & Hu). rewrite <- (table_of_fun Hdb Ht Ht') in Hcc. exists c, d.
          split; [reflexivity|]. split; [exact Hcc|]. split; [|exact Hd]. split; [apply (Hpk ia _ _ _ Hia); exact Hp|].
          intros d' Hd'. apply Hu. apply (Hpk ia _ _ _ Hia). exact Hd'. }
      rewrite Hii. destruct (In_dec' fk (tb_fks t)); tauto. }
    destruct (c_infer cfg) eqn:Ei.
    - apply Htab in Hin. destruct Hin as (t & Ht & Hc & ->). cbn [new_meta tm_table tm_rev tm_fks]. split; [exact Ht|].
      split; [exact Hc|]. split; [reflexivity|]. intros fk. unfold inferable. rewrite Ei. tauto.
    - apply (Hone false); [discriminate|split; discriminate|exact Hin].
    - apply (Hone true); [discriminate|tauto|exact Hin]. }
  split; [apply mapf_ok; apply infer_of_ok; exact Hms0|]. split; [intros n; rewrite mapf_keys, infer_of_keys; apply Hs|].
  intros n m' Hin. apply mapf_In in Hin. destruct Hin as (m & Hin & ->). destruct (Hinf n m Hin) as (Ht & Hc & Hr & Hf).
  cbn [with_fks tm_table tm_rev tm_fks]. split; [exact Ht|]. split; [exact Hr|]. intros fk. rewrite in_app_iff, filter_In, keepb_true, Hf.
  assert (Hex : In fk (flat_map (extra_for ms0 n) (c_extra_fks cfg)) <-> exists x, In x (c_extra_fks cfg) /\ extra_describes fnm cfg db n x fk).
  { rewrite in_flat_map. split; intros (x & Hxin & Hd); exists x; (split; [exact Hxin|]).
    - unfold extra_for in Hd. destruct (parse_table_name (x_src x)) as [src|] eqn:Es; [|destruct Hd].
      destruct (parse_table_name (x_dst x)) as [dst|] eqn:Ed; [|destruct Hd]. apply parse_named in Es, Ed.
      destruct (dget ms0 src) as [ms1|] eqn:E1; [|destruct Hd]. destruct (dget ms0 dst) as [md|] eqn:E2; [|destruct Hd].
      destruct (eqb n src && _ && _) eqn:Eb; [|destruct Hd]. destruct Hd as [<-|[]]. rewrite !andb_true_iff in Eb. destruct Eb as [[Eb1 Eb2] Eb3].
      apply (proj1 (eqb_true _ _)) in Eb1. subst src. apply subsetb_true in Eb2, Eb3.
      apply dget_In in E1, E2. apply Htab in E1, E2. destruct E1 as (t1 & Ht1 & _ & ->), E2 as (t2 & Ht2 & Hc2 & ->).
      cbn [fk_dst fk_cols fk_dst_cols]. split; [exact Es|]. split; [exact Ed|]. split; [reflexivity|]. split; [reflexivity|]. split; [exact Hc2|].
      split; [exists t1; tauto|exists t2; tauto].
    - destruct fk as [fc fd fdc]. destruct Hd as (Hs1 & Hs2 & H1 & H2 & Hcd & (t1 & Ht1 & Hi1) & (t2 & Ht2 & Hi2)). cbn [fk_dst fk_cols fk_dst_cols] in *. subst fc fdc.
      unfold extra_for. rewrite (proj2 (parse_named _ _) Hs1), (proj2 (parse_named _ _) Hs2).
      rewrite (In_dget Hn (proj2 (Htab _ _) (ex_intro _ t1 (conj Ht1 (conj Hc eq_refl))))).
      rewrite (In_dget Hn (proj2 (Htab _ _) (ex_intro _ t2 (conj Ht2 (conj Hcd eq_refl))))).
      cbn [new_meta tm_table]. rewrite eqb_refl, (proj2 (subsetb_true _ _) Hi1), (proj2 (subsetb_true _ _) Hi2). left. reflexivity. }
  rewrite Hex. unfold PlannerSpec.considered. split.
  - intros [[[Hb|Hb] Hk]|Hx']; (split; [exact Hc|]); [left; split; [left; exists (tm_table m); tauto|exact Hk]|left; tauto|right; exact Hx'].
  - intros [_ [[[(t & Ht' & Hb)|Hb] Hk]|Hx']]; [left; split; [left; rewrite (table_of_fun Hdb Ht Ht'); exact Hb|exact Hk]|left; tauto|right; exact Hx'].
Qed.

Section Checks.
Variable ms : meta.
Hypothesis Hed : edited ms.

Lemma ed_names : names_ok ms.
Proof. intros n Hn. apply Hed in Hn. apply chosen_no_dot. exact Hn. Qed.
Lemma ed_get n : chosen n -> exists m, In (n, m) ms.
Proof. intros Hc. apply Hed in Hc. apply in_map_iff in Hc. destruct Hc as ([n' m] & Hn & Hin). cbn in Hn. subst. exists m. exact Hin. Qed.
Lemma ed_chosen n m : In (n, m) ms -> chosen n.
Proof. intros Hin. apply Hed. apply in_map_iff. exists (n, m). tauto. Qed.

Lemma check_ignore_spec ign : (forall n, In n ign <-> ignored cfg n) ->
  (into_ignored fnm cfg db /\ check_ignore_tables ign ms = Err (PValueError RIgnored)) \/
  (~ into_ignored fnm cfg db /\ check_ignore_tables ign ms = Ok tt).
Proof.
  intros Hign. unfold check_ignore_tables.
  assert (Hb : existsb (fun m => negb (memb (tm_name m) ign) && existsb (fun fk => memb (fk_dst fk) ign) (tm_fks m)) (dvals ms) = true <-> into_ignored fnm cfg db).
  { rewrite existsb_exists. split.
    - intros (m & Hm & Hc). apply andb_true_iff in Hc. destruct Hc as [Hc1 Hc2]. apply negb_true_iff, memb_false in Hc1.
      apply existsb_exists in Hc2. destruct Hc2 as (fk & Hfk & Hc2). apply (proj1 (memb_true _ _)) in Hc2.
      apply dvals_In in Hm. destruct Hm as [n Hm]. destruct Hed as (Hok & _ & Hall). pose proof (proj2 Hok _ _ Hm) as Hnm. rewrite Hnm in Hc1.
      exists n, fk. rewrite <- !Hign. split; [apply (Hall n m Hm); exact Hfk|tauto].
    - intros (n & fk & Hc & Hni & Hi). pose proof Hc as Hc'. destruct Hc' as [Hch _]. destruct (ed_get Hch) as [m Hm].
      destruct Hed as (Hok & _ & Hall). exists m. split; [apply dvals_In; exists n; exact Hm|]. apply andb_true_iff. split.
      + apply negb_true_iff, memb_false. rewrite (proj2 Hok _ _ Hm), Hign. exact Hni.
      + apply existsb_exists. exists fk. split; [apply (Hall n m Hm); exact Hc|]. apply memb_true, Hign, Hi. }
  destruct (existsb _ (dvals ms)); [left|right]; (split; [|reflexivity]).
  - apply Hb. reflexivity.
  - intros Hi. apply Hb in Hi. discriminate.
Qed.

Lemma check_pass_spec pl : (forall n, In n pl <-> passthrough_listed cfg n) ->
  (out_of_passthrough fnm cfg db /\ check_passthrough_tables pl ms = Err (PValueError RPassthrough)) \/
  (~ out_of_passthrough fnm cfg db /\ check_passthrough_tables pl ms = Ok (filter (dmem ms) pl)).
Proof.
  intros Hpl. unfold check_passthrough_tables.
  match goal with |- context [existsb ?f pl] => assert (Hb : existsb f pl = true <-> out_of_passthrough fnm cfg db) end.
  { rewrite existsb_exists. split.
    - intros (n & Hn & Hc). destruct (dget ms n) as [m|] eqn:Eg; [|discriminate]. apply dget_In in Eg.
      apply existsb_exists in Hc. destruct Hc as (fk & Hfk & Hc). apply negb_true_iff, memb_false in Hc.
      exists n, fk. rewrite <- Hpl. split; [split; [eapply ed_chosen; exact Eg|apply Hpl; exact Hn]|]. split; [|exact Hc].
      apply (proj2 (proj2 Hed) n m Eg). exact Hfk.
    - intros (n & fk & [Hch Hn] & Hc & Hni). destruct (ed_get Hch) as [m Hm]. exists n. split; [apply Hpl; exact Hn|].
      rewrite (In_dget (proj1 (proj1 Hed)) Hm). apply existsb_exists. exists fk. split; [apply (proj2 (proj2 Hed) n m Hm); exact Hc|].
      apply negb_true_iff, memb_false. rewrite Hpl. exact Hni. }
  destruct (existsb _ pl); [left|right]; (split; [|reflexivity]).
  - apply Hb. reflexivity.
  - intros Hi. apply Hb in Hi. discriminate.
Qed.
Lemma pass_In pl n : (forall n, In n pl <-> passthrough_listed cfg n) -> In n (filter (dmem ms) pl) <-> passed_through n.
Proof. intros Hpl. rewrite filter_In, dmem_true, Hpl, (proj1 (proj2 Hed)). unfold PlannerSpec.passed_through. tauto. Qed.

(** ** The graph *)
Section Order.
Variable skip : list tname.
Hypothesis Hskip : forall n, In n skip <-> passed_through n \/ ignored cfg n.

Lemma skip_active n : active n <-> In n (dkeys ms) /\ ~ In n skip.
Proof. rewrite Hskip, (proj1 (proj2 Hed)). unfold PlannerSpec.active, PlannerSpec.passed_through. tauto. Qed.

Lemma ag_edge u v : edge (as_graph ms skip) u v <-> exists n d, u = render n /\ v = render d /\ active_edge n d.
Proof.
  rewrite (as_graph_edge skip u v (proj1 Hed) ed_names). split.
  - intros (n & m & fk & -> & -> & Hm & Hfk & Hn & Hd & Hk). exists n, (fk_dst fk). split; [reflexivity|]. split; [reflexivity|].
    split; [apply skip_active; split; [apply in_map_iff; exists (n, m); tauto|exact Hn]|]. split; [apply skip_active; tauto|].
    exists fk. split; [apply (proj2 (proj2 Hed) n m Hm); exact Hfk|reflexivity].
  - intros (n & d & -> & -> & Ha & Hd & fk & Hc & <-). pose proof Ha as Ha'. apply skip_active in Ha, Hd. destruct Ha' as [Hch _].
    destruct (ed_get Hch) as [m Hm]. exists n, m, fk. repeat split; try tauto. apply (proj2 (proj2 Hed) n m Hm); exact Hc.
Qed.
Lemma ag_node u : node (as_graph ms skip) u <-> exists n, u = render n /\ active n.
Proof.
  rewrite (as_graph_node skip u (proj1 Hed) ed_names). split; intros (n & -> & Ha); exists n; (split; [reflexivity|]); apply skip_active; exact Ha.
Qed.

Definition G := dset (as_graph ms skip) "" (set_of (dkeys (c_targets cfg))).
Lemma G_eq : G = as_graph ms skip ++ [("", set_of (dkeys (c_targets cfg)))].
Proof.
  unfold G. apply dset_new. intros Hin. apply ag_node in Hin. destruct Hin as (n & Hr & _). symmetry in Hr. exact (render_nonempty Hr).
Qed.
Lemma G_node u : node G u <-> u = "" \/ exists n, u = render n /\ active n.
Proof.
  unfold node. rewrite G_eq. unfold dkeys. rewrite map_app, in_app_iff. change (In u (map fst (as_graph ms skip))) with (node (as_graph ms skip) u).
  rewrite ag_node. cbn. intuition.
Qed.
Lemma G_edge u v : edge G u v <-> (u = "" /\ In v (dkeys (c_targets cfg))) \/ exists n d, u = render n /\ v = render d /\ active_edge n d.
Proof.
  rewrite <- ag_edge. unfold edge. rewrite G_eq. split.
  - intros (es & Hin & Hv). apply in_app_iff in Hin. destruct Hin as [Hin|[He|[]]]; [right; exists es; tauto|].
    inversion He; subst. rewrite set_of_In in Hv. left. tauto.
  - intros [[-> Hv]|(es & Hin & Hv)].
    + exists (set_of (dkeys (c_targets cfg))). split; [apply in_app_iff; right; left; reflexivity|apply set_of_In; exact Hv].
    + exists es. split; [apply in_app_iff; left; exact Hin|exact Hv].
Qed.

Hypothesis Htg : ~ bad_target fnm cfg db.
Lemma target_node s : In s (dkeys (c_targets cfg)) -> s = "" \/ exists n, named s n /\ active n.
Proof.
  intros Hs. destruct (eq_dec s "") as [->|Hne]; [left; reflexivity|].
  destruct (parse_table_name s) as [n|] eqn:Ep.
  - apply parse_named in Ep. destruct (In_dec' n (dkeys ms)) as [H1|H1].
    + destruct (In_dec' n skip) as [H2|H2].
      * exfalso. apply Htg. exists s. split; [exact Hs|]. split; [exact Hne|]. intros (n' & Hn' & Ha). rewrite (named_fun Hn' Ep) in Ha.
        apply skip_active in Ha. tauto.
      * right. exists n. split; [exact Ep|]. apply skip_active. tauto.
    + exfalso. apply Htg. exists s. split; [exact Hs|]. split; [exact Hne|]. intros (n' & Hn' & Ha). rewrite (named_fun Hn' Ep) in Ha.
      apply skip_active in Ha. tauto.
  - exfalso. apply Htg. exists s. split; [exact Hs|]. split; [exact Hne|]. intros (n' & Hn' & Ha). apply parse_named in Hn'. congruence.
Qed.
Lemma G_ok : graph_ok G.
Proof.
  destruct (as_graph_ok skip (proj1 Hed) ed_names) as (Hn & Hes & Hcl). split; [|split].
  - rewrite G_eq. unfold dkeys. rewrite map_app. apply NoDup_app_one; [exact Hn|]. intros Hin. apply ag_node in Hin.
    destruct Hin as (n & Hr & _). symmetry in Hr. exact (render_nonempty Hr).
  - intros u es Hin. rewrite G_eq in Hin. apply in_app_iff in Hin. destruct Hin as [Hin|[He|[]]]; [apply (Hes u es Hin)|].
    inversion He; subst. apply set_of_NoDup.
  - intros u v He. apply G_edge in He. apply G_node. destruct He as [[_ Hv]|(n & d & _ & -> & _ & Hd & _)].
    + apply target_node in Hv. destruct Hv as [->|(n & Hn' & Ha)]; [left; reflexivity|]. right. exists n. split; [exact (named_eq Hn')|exact Ha].
    + right. exists d. tauto.
Qed.
Lemma G_source : node G "".
Proof. apply G_node. left. reflexivity. Qed.
Lemma G_one_sided : one_sided G "".
Proof.
  left. intros v He. apply G_edge in He. destruct He as [[-> _]|(n & d & _ & Hr & _)]; [reflexivity|].
  symmetry in Hr. exfalso. exact (render_nonempty Hr).
Qed.

Lemma active_no_dot n : active n -> no_dot (fst n).
Proof. intros [Hc _]. apply chosen_no_dot. exact Hc. Qed.
Lemma connected_active n : connected n -> active n.
Proof.
  intros (t & g & _ & Ha & Hp). apply Operators_Properties.clos_rt_rtn1 in Hp. destruct Hp as [|a b Hab _]; [exact Ha|].
  destruct Hab as [(_ & Hb & _)|(Hb & _)]; exact Hb.
Qed.
Lemma connected_step n d : connected n -> active_edge n d \/ active_edge d n -> connected d.
Proof. intros (t & g & Ht & Ha & Hp) He. exists t, g. split; [exact Ht|]. split; [exact Ha|]. eapply rt_trans; [exact Hp|]. apply rt_step. exact He. Qed.

Lemma weakly_connected_iff x : weakly_connected G "" x <-> x = "" \/ exists n, x = render n /\ connected n.
Proof.
  split.
  - intros Hp. apply Operators_Properties.clos_rt_rtn1 in Hp. induction Hp as [|y x Hyx Hp IH]; [left; reflexivity|].
    destruct IH as [->|(n & -> & Hn)].
    + destruct Hyx as [He|He]; apply G_edge in He.
      * destruct He as [[_ Hx]|(a & d & Hr & _)]; [|symmetry in Hr; exfalso; exact (render_nonempty Hr)].
        destruct (target_node Hx) as [->|(n & Hn & Ha)]; [left; reflexivity|]. right. exists n. split; [exact (named_eq Hn)|].
        apply in_map_iff in Hx. destruct Hx as ([s g] & Hs & Hin). cbn in Hs. subst s. exists n, g. split; [exists x; tauto|]. split; [exact Ha|apply rt_refl].
      * destruct He as [[-> _]|(a & d & _ & Hr & _)]; [left; reflexivity|]. symmetry in Hr. exfalso. exact (render_nonempty Hr).
    + destruct Hyx as [He|He]; apply G_edge in He.
      * destruct He as [[Hr _]|(a & d & Hr & -> & He)]; [exfalso; exact (render_nonempty Hr)|].
        apply render_inj in Hr; [|apply active_no_dot, connected_active; exact Hn|apply active_no_dot; apply He]. subst a.
        right. exists d. split; [reflexivity|]. eapply connected_step; [exact Hn|left; exact He].
      * destruct He as [[-> _]|(a & d & -> & Hr & He)]; [left; reflexivity|].
        apply render_inj in Hr; [|apply active_no_dot, connected_active; exact Hn|apply active_no_dot; apply He]. subst d.
        right. exists a. split; [reflexivity|]. eapply connected_step; [exact Hn|right; exact He].
  - intros [->|(n & -> & t & g & (s & Hin & Hs) & Ha & Hp)]; [apply rt_refl|].
    eapply rt_trans with (y := render t).
    + apply rt_step. left. apply G_edge. left. split; [reflexivity|]. rewrite <- (named_eq Hs). apply in_map_iff. exists (s, g). tauto.
    + clear Ha Hs. induction Hp as [a b Hor|a|a b c _ IH1 _ IH2]; [|apply rt_refl|eapply rt_trans; eassumption].
      apply rt_step. destruct Hor as [He|He]; [left; apply G_edge; right; exists a, b|right; apply G_edge; right; exists b, a]; tauto.
Qed.

Lemma cycle_iff n : active n -> on_cycle (edge G) (render n) <-> path active_edge n n.
Proof.
  intros Ha. split.
  - intros Hp.
    assert (Hgen : forall x y, path (edge G) x y -> forall a, x = render a -> active a -> exists b, y = render b /\ active b /\ path active_edge a b).
    { clear Hp Ha n. intros x y Hp. induction Hp as [x y He|x y z _ IH1 _ IH2]; intros a -> Ha.
      - apply G_edge in He. destruct He as [[Hr _]|(a' & d & Hr & -> & He)]; [exfalso; exact (render_nonempty Hr)|].
        apply render_inj in Hr; [|apply active_no_dot; exact Ha|apply active_no_dot; apply He]. subst a'.
        exists d. split; [reflexivity|]. split; [apply He|apply t_step; exact He].
      - destruct (IH1 a eq_refl Ha) as (b & -> & Hb & Hab). destruct (IH2 b eq_refl Hb) as (c & -> & Hc & Hbc).
        exists c. split; [reflexivity|]. split; [exact Hc|eapply t_trans; eassumption]. }
    destruct (Hgen _ _ Hp n eq_refl Ha) as (b & Hr & Hb & Hp'). apply render_inj in Hr; try (apply active_no_dot; assumption).
    subst b. exact Hp'.
  - intros Hp. unfold on_cycle. clear Ha.
    assert (Hgen : forall a b, path active_edge a b -> path (edge G) (render a) (render b)).
    { intros a b Hab. induction Hab as [a b He|a b c _ IH1 _ IH2]; [|eapply t_trans; eassumption].
      apply t_step. apply G_edge. right. exists a, b. tauto. }
    apply Hgen. exact Hp.
Qed.

Variable ord : list string -> list string.
Hypothesis Hord : any_order ord.

(** A source for the order: [ns] lists the connected tables; each of them has earlier parents or
    earlier children, not both; a target has no earlier parent. *)
Definition good_order (ns : list tname) : Prop :=
  NoDup ns /\ (forall n, In n ns <-> connected n) /\
  (forall n, connected n -> ~ path active_edge n n) /\
  (forall n, In n ns ->
     ((exists d, before ns d n /\ active_edge n d) /\ (forall c, before ns c n -> ~ active_edge c n) /\ ~ In (render n) (dkeys (c_targets cfg))) \/
     ((forall d, before ns d n -> ~ active_edge n d) /\
      (In (render n) (dkeys (c_targets cfg)) \/ exists c, before ns c n /\ active_edge c n))).

Lemma before_cons {A} (a : A) l x y : before (a :: l) x y <-> (x = a /\ In y l) \/ before l x y.
Proof.
  split.
  - intros ([|b l1] & l2 & l3 & He); cbn [app] in He; inversion He; subst.
    + left. split; [reflexivity|]. apply in_app_iff. right. left. reflexivity.
    + right. exists l1, l2, l3. reflexivity.
  - intros [[-> Hin]|(l1 & l2 & l3 & ->)].
    + apply in_split in Hin. destruct Hin as (l2 & l3 & ->). exists [], l2, l3. reflexivity.
    + exists (a :: l1), l2, l3. reflexivity.
Qed.
Lemma before_map {A B} (f : A -> B) l x y : (forall a b, In a l -> In b l -> f a = f b -> a = b) -> In x l -> In y l ->
  before (map f l) (f x) (f y) <-> before l x y.
Proof.
  intros Hinj Hx Hy. split.
  - intros (l1 & l2 & l3 & He). apply map_eq_app in He. destruct He as (k1 & k2' & -> & <- & He).
    destruct k2' as [|x' k2']; [discriminate|]. cbn [map] in He. inversion He as [[Hx' He']]. 
    apply map_eq_app in He'. destruct He' as (k2 & k3' & -> & <- & He').
    destruct k3' as [|y' k3]; [discriminate|]. cbn [map] in He'. inversion He' as [[Hy' He'']].
    assert (x' = x). { apply Hinj; [|exact Hx|exact Hx']. apply in_app_iff. right. left. reflexivity. }
    assert (y' = y). { apply Hinj; [|exact Hy|exact Hy']. apply in_app_iff. right. right. apply in_app_iff. right. left. reflexivity. }
    subst. exists k1, k2, k3. reflexivity.
  - intros (l1 & l2 & l3 & ->). exists (map f l1), (map f l2), (map f l3). rewrite !map_app. cbn [map]. rewrite map_app. reflexivity.
Qed.

Lemma solve_order_spec :
  ((exists n, connected n /\ path active_edge n n) /\ solve_order ord cfg ms skip = Err (PValueError RCycle)) \/
  (exists ns, solve_order ord cfg ms skip = Ok (map render ns) /\ good_order ns).
Proof.
  assert (Hall : existsb (fun t => negb (dmem G t)) (dkeys (c_targets cfg)) = false).
  { destruct (existsb _ _) eqn:Ee; [|reflexivity]. exfalso. apply existsb_exists in Ee. destruct Ee as (s & Hs & Hd).
    apply negb_true_iff, dmem_false in Hd. apply Hd. change (node G s). apply G_node. destruct (target_node Hs) as [->|(n & Hn & Ha)]; [left; reflexivity|].
    right. exists n. split; [exact (named_eq Hn)|exact Ha]. }
  destruct (order_err ord Hord String.ltb G "" G_ok G_source G_one_sided) as [Herr Hiff].
  unfold solve_order. fold G. rewrite Hall. destruct (order_graph ord String.ltb G "") as [l|e] eqn:Eo.
  - right. destruct (order_ok ord Hord String.ltb G "" l G_ok G_source G_one_sided Eo) as ((l' & ->) & Hn & Hdir & Hc).
    cbn [tl]. apply NoDup_cons_iff in Hn. destruct Hn as [Hn0 Hn].
    assert (Hex : exists ns, l' = map render ns /\ forall n, In n ns -> connected n).
    { assert (Hl : forall x, In x l' -> exists n, x = render n /\ connected n).
      { intros x Hx. specialize (proj1 (Hc x) (or_intror Hx)). intros Hw. apply weakly_connected_iff in Hw. destruct Hw as [->|Hw]; [contradiction|exact Hw]. }
      clear - Hl. induction l' as [|x l' IH]; [exists []; split; [reflexivity|intros n []]|].
      destruct IH as (ns & -> & Hns); [intros y Hy; apply Hl; right; exact Hy|]. destruct (Hl x (or_introl eq_refl)) as (n & -> & Hn).
      exists (n :: ns). split; [reflexivity|]. intros n' [<-|Hn']; [exact Hn|apply Hns; exact Hn']. }
    destruct Hex as (ns & -> & Hns). exists ns. split; [reflexivity|].
    assert (Hinj : forall a b, In a ns -> In b ns -> render a = render b -> a = b).
    { intros a b Ha Hb. apply render_inj; apply active_no_dot, connected_active, Hns; assumption. }
    assert (Hin : forall n, In n ns <-> connected n).
    { intros n. split; [apply Hns|]. intros Hcn. assert (Hw : In (render n) ("" :: map render ns)). { apply Hc. apply weakly_connected_iff. right. exists n. tauto. }
      destruct Hw as [Hw|Hw]; [symmetry in Hw; exfalso; exact (render_nonempty Hw)|]. apply in_map_iff in Hw. destruct Hw as (n' & Hr & Hn').
      apply render_inj in Hr; [|apply active_no_dot, connected_active, Hns; exact Hn'|apply active_no_dot, connected_active; exact Hcn]. subst. exact Hn'. }
    split; [eapply NoDup_map_rev; exact Hn|]. split; [exact Hin|]. split.
    + intros n Hcn Hcy. assert (He : exists e, Ok ("" :: map render ns) = Err e :> res (solver_exn string) (list string)); [|destruct He; discriminate].
      apply Hiff. exists (render n). split; [apply render_nonempty|]. split; [apply weakly_connected_iff; right; exists n; tauto|].
      apply cycle_iff; [apply connected_active; exact Hcn|exact Hcy].
    + intros n Hnin. assert (Hne : render n <> "") by apply render_nonempty.
      assert (Hb : forall a b, In a ns -> In b ns -> before ("" :: map render ns) (render a) (render b) <-> before ns a b).
      { intros a b Ha Hbn. rewrite before_cons. rewrite (before_map Hinj Ha Hbn). split; [|tauto].
        intros [[Hr _]|Hb]; [exfalso; exact (render_nonempty Hr)|exact Hb]. }
      assert (Hbl : forall a b, before ns a b -> In a ns /\ In b ns).
      { intros a b (l1 & l2 & l3 & ->). split; apply in_app_iff; right; [left; reflexivity|right; apply in_app_iff; right; left; reflexivity]. }
      assert (Hgp : has_parent_side G ("" :: map render ns) (render n) <-> In (render n) (dkeys (c_targets cfg)) \/ exists c, before ns c n /\ active_edge c n).
      { unfold has_parent_side. split.
        - intros (v & He & Hbf). apply G_edge in He. destruct He as [[-> Ht]|(a & d & -> & Hr & He)]; [left; exact Ht|].
          apply render_inj in Hr; [|apply active_no_dot, connected_active, Hns; exact Hnin|apply active_no_dot; apply He]. subst d.
          right. exists a. assert (Ha : In a ns). { apply Hin. eapply connected_step; [apply Hns; exact Hnin|right; exact He]. }
          split; [apply Hb; assumption|exact He].
        - intros [Ht|(c & Hbf & He)].
          + exists "". split; [apply G_edge; left; tauto|]. apply before_cons. left. split; [reflexivity|]. apply in_map. exact Hnin.
          + exists (render c). destruct (Hbl _ _ Hbf) as [Hc1 _]. split; [apply G_edge; right; exists c, n; tauto|apply Hb; assumption]. }
      assert (Hgc : has_child_side G ("" :: map render ns) (render n) <-> exists d, before ns d n /\ active_edge n d).
      { unfold has_child_side. split.
        - intros (v & He & Hbf). apply G_edge in He. destruct He as [[Hr _]|(a & d & Hr & -> & He)]; [exfalso; exact (render_nonempty Hr)|].
          apply render_inj in Hr; [|apply active_no_dot, connected_active, Hns; exact Hnin|apply active_no_dot; apply He]. subst a.
          exists d. assert (Hd : In d ns). { apply Hin. eapply connected_step; [apply Hns; exact Hnin|left; exact He]. }
          split; [apply Hb; assumption|exact He].
        - intros (d & Hbf & He). exists (render d). destruct (Hbl _ _ Hbf) as [Hd1 _]. split; [apply G_edge; right; exists n, d; tauto|apply Hb; assumption]. }
      destruct (Hdir (render n)) as [[Hp Hnc]|[Hnp Hcs]].
      * right. apply in_map. exact Hnin.
      * exact Hne.
      * right. rewrite Hgc in Hnc. rewrite Hgp in Hp. split; [|exact Hp]. intros d Hbf He. apply Hnc. exists d. tauto.
      * left. rewrite Hgc in Hcs. rewrite Hgp in Hnp. split; [exact Hcs|]. split; [|tauto]. intros c Hbf He. apply Hnp. right. exists c. tauto.
  - left. destruct (Herr e eq_refl) as (c & -> & _). split; [|reflexivity].
    destruct (proj1 Hiff (ex_intro _ _ eq_refl)) as (x & Hx0 & Hw & Hcy). apply weakly_connected_iff in Hw. destruct Hw as [->|(n & -> & Hn)]; [congruence|].
    exists n. split; [exact Hn|]. apply cycle_iff; [apply connected_active; exact Hn|exact Hcy].
Qed.
End Order.

Lemma bad_target_dec skip : (forall n, In n skip <-> passed_through n \/ ignored cfg n) -> bad_target fnm cfg db \/ ~ bad_target fnm cfg db.
Proof.
  intros Hskip.
  assert (Hd : forall s, (s <> "" /\ ~ exists n, named s n /\ active n) \/ ~ (s <> "" /\ ~ exists n, named s n /\ active n)).
  { intros s. destruct (eq_dec s "") as [->|Hne]; [right; tauto|]. destruct (parse_table_name s) as [n|] eqn:Ep.
    - apply parse_named in Ep. destruct (In_dec' n (dkeys ms)) as [H1|H1]; [destruct (In_dec' n skip) as [H2|H2]|].
      + left. split; [exact Hne|]. intros (n' & Hn' & Ha). rewrite (named_fun Hn' Ep) in Ha. apply (@skip_active skip Hskip) in Ha. tauto.
      + right. intros [_ Hc]. apply Hc. exists n. split; [exact Ep|apply (@skip_active skip Hskip); tauto].
      + left. split; [exact Hne|]. intros (n' & Hn' & Ha). rewrite (named_fun Hn' Ep) in Ha. apply (@skip_active skip Hskip) in Ha. tauto.
    - left. split; [exact Hne|]. intros (n' & Hn' & Ha). apply parse_named in Hn'. congruence. }
  destruct (@list_dec _ (fun s => ~ (s <> "" /\ ~ exists n, named s n /\ active n)) (dkeys (c_targets cfg))) as [Hl|Hl].
  - intros s. destruct (Hd s); tauto.
  - right. intros (s & Hs & Hb). exact (Hl s Hs Hb).
  - left. unfold bad_target. clear -Hl Hd. induction (dkeys (c_targets cfg)) as [|a l IH]; [exfalso; apply Hl; intros s []|].
    destruct (Hd a) as [Ha|Ha]; [exists a; split; [left; reflexivity|exact Ha]|]. destruct IH as (s & Hs & Hb).
    + intros Hall. apply Hl. intros s [<-|Hs]; [exact Ha|apply Hall; exact Hs].
    + exists s. split; [right; exact Hs|exact Hb].
Qed.
Lemma solve_order_bad skip ord : (forall n, In n skip <-> passed_through n \/ ignored cfg n) -> bad_target fnm cfg db ->
  solve_order ord cfg ms skip = Err (PValueError RTarget).
Proof.
  intros Hskip (s & Hs & Hne & Hbad). unfold solve_order.
  change (dset (as_graph ms skip) "" (set_of (dkeys (c_targets cfg)))) with (G skip).
  assert (Ht : existsb (fun t => negb (dmem (G skip) t)) (dkeys (c_targets cfg)) = true); [|rewrite Ht; reflexivity].
  apply existsb_exists. exists s. split; [exact Hs|]. apply negb_true_iff, dmem_false. intros Hin. apply (@G_node skip Hskip s) in Hin.
  destruct Hin as [->|(n & -> & Ha)]; [congruence|]. apply Hbad. exists n. split; [apply named_render; eapply active_no_dot; exact Ha|exact Ha].
Qed.
End Checks.
End Planner.
