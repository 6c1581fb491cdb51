(** planner.py: the theorems about plans. *)
From Verif Require Import Model.Base Model.Solver Model.Value Model.Names Model.PlanModel Model.Metadata Model.Planner.
From Verif Require Import Spec.GraphSpec Spec.SchemaSpec Spec.SqlSem Spec.PlannerSpec.
From Verif Require Import Proofs.BaseFacts Proofs.GraphFacts Proofs.NameFacts Proofs.MetadataFacts Proofs.PlannerEdit Proofs.PlannerGraph Proofs.PlannerTables Proofs.PlannerMain Proofs.PlannerSem Proofs.SimplifyFacts Proofs.BuildFacts.
Set Implicit Arguments.
Unset Strict Implicit.
Open Scope string_scope.
Open Scope list_scope.

Section Final.
Variables (fnm : string -> string -> bool) (cfg : config) (db : list table).
Variable ord : list string -> list string.
Variable ordp : list tname -> list tname.
Hypothesis Hdb : db_ok db.
Hypothesis Hord : any_order ord.
Hypothesis Hordp : any_order ordp.

Notation chosen := (chosen fnm cfg db).
Notation considered := (considered fnm cfg db).
Notation active := (active fnm cfg db).
Notation active_edge := (active_edge fnm cfg db).
Notation connected := (connected fnm cfg db).
Notation passed_through := (passed_through fnm cfg db).
Notation good_order := (good_order fnm cfg db).
Notation plan_db := (plan_db ord ordp fnm cfg db).

Ltac outcome := destruct (@plan_outcome fnm cfg db ord ordp Hdb Hord Hordp) as
    [[Hnv Eo]|(Hnv & [(Hinc & Hii & Eo)|(Hii & [[Hop Eo]|(Hop & [[Hbt Eo]|(Hbt & [[Hcy Eo]|(Hcy & [[Hcl Eo]|(Hcl & Htact & ns & Hns & Hgood & [(n & r & Hn & Htb & Eo & Hr)|(Hntb & p1 & passl & Eo & Hshape)])])])])])])].

Lemma plan_acyclic : names_valid cfg -> c_include_deps cfg = true -> ~ into_ignored fnm cfg db -> ~ out_of_passthrough fnm cfg db ->
  ~ bad_target fnm cfg db -> c_constraints cfg = [] ->
  (cyclic fnm cfg db /\ plan_db = Err (PValueError RCycle)) \/ (~ cyclic fnm cfg db /\ exists p, plan_db = Ok p).
Proof.
  intros H1 H2 H3 H4 H5 H6. outcome; try tauto.
  - exfalso. apply Hcl. apply include_deps_closed. exact H2.
  - exfalso. unfold table_bad, confs_of, dget_or in Htb. rewrite H6 in Htb. cbn in Htb. destruct Htb as [[C _]|(c & [] & _)]. congruence.
  - right. split; [exact Hcy|]. exists p1. exact Eo.
Qed.

Section Plan.
Variable p : plan.
Hypothesis Hplan : plan_db = Ok p.

Lemma plan_ok_shape : exists passl ns, order_of fnm cfg db ord = Ok (map render ns) /\ plan_shape fnm cfg db p passl ns /\ good_order ns /\
  (forall n, In n ns -> ~ table_bad fnm cfg db ns n) /\
  names_valid cfg /\ (c_include_deps cfg = true -> ~ into_ignored fnm cfg db) /\ ~ out_of_passthrough fnm cfg db /\
  ~ bad_target fnm cfg db /\ ~ cyclic fnm cfg db /\ dst_closed fnm cfg db /\ targets_active fnm cfg db.
Proof.
  outcome; try congruence. rewrite Hplan in Eo. inversion Eo; subst p1. exists passl, ns. tauto.
Qed.

Section Shape.
Variables (passl ns : list tname).
Hypothesis Hshape : plan_shape fnm cfg db p passl ns.
Hypothesis Hgood : good_order ns.

Lemma pass_iff n : In n passl <-> passed_through n.
Proof. destruct Hshape as (_ & Hx & _). apply Hx. Qed.
Lemma ns_iff n : In n ns <-> connected n.
Proof. destruct Hgood as (_ & Hx & _). apply Hx. Qed.
Lemma all_no_dot n : In n (passl ++ ns) -> no_dot (fst n).
Proof.
  intros Hin. apply in_app_iff in Hin. eapply chosen_no_dot; [exact Hdb|]. destruct Hin as [Hin|Hin].
  - apply pass_iff in Hin. apply Hin.
  - apply (ns_active Hgood) in Hin. apply Hin.
Qed.
Lemma all_NoDup : NoDup (passl ++ ns).
Proof.
  apply NoDup_app_iff. split; [apply Hshape|]. split; [apply Hgood|]. intros n H1 H2. apply pass_iff in H1. apply (ns_active Hgood) in H2.
  destruct H1 as [_ H1], H2 as (_ & _ & H2). exact (H2 H1).
Qed.
Lemma render_all_inj a b : In a (passl ++ ns) -> In b (passl ++ ns) -> render a = render b -> a = b.
Proof. intros Ha Hb He. apply render_inj in He; [exact He| |]; apply all_no_dot; assumption. Qed.

Lemma keys_In s : In s (dkeys (p_queries p)) <-> exists n, named s n /\ (passed_through n \/ connected n).
Proof.
  destruct Hshape as (_ & Hp & _ & Hk & _). rewrite Hk, in_map_iff. split.
  - intros (n & <- & Hin). exists n. split; [apply named_render; apply all_no_dot; exact Hin|]. apply in_app_iff in Hin. destruct Hin as [Hin|Hin].
    + left. apply Hp. exact Hin.
    + right. apply ns_iff. exact Hin.
  - intros (n & Hn & Hor). exists n. split; [symmetry; exact (named_eq Hn)|]. apply in_app_iff. destruct Hor as [Hor|Hor].
    + left. apply Hp. exact Hor.
    + right. apply ns_iff. exact Hor.
Qed.
Lemma keys_NoDup : NoDup (dkeys (p_queries p)).
Proof.
  destruct Hshape as (_ & _ & _ & Hk & _). rewrite Hk. apply NoDup_map_inj; [|exact all_NoDup]. intros a b Ha Hb. apply render_all_inj; assumption.
Qed.
Lemma planned_iff n : planned p n <-> passed_through n \/ connected n.
Proof.
  unfold planned. split.
  - intros (s & Hs & Hin). apply keys_In in Hin. destruct Hin as (n' & Hn' & Hor). rewrite (named_fun Hs Hn'). exact Hor.
  - intros Hor. exists (render n). assert (Hd : no_dot (fst n)).
    { eapply chosen_no_dot; [exact Hdb|]. destruct Hor as [[Hc _]|Hc]; [exact Hc|]. apply (@connected_active fnm cfg db) in Hc. apply Hc. }
    split; [apply named_render; exact Hd|]. apply keys_In. exists n. split; [apply named_render; exact Hd|exact Hor].
Qed.
Lemma query_of s q n : In (s, q) (p_queries p) -> named s n ->
  (In n passl /\ q = passthrough_query n) \/ (In n ns /\ exists st, q = mkQuery None None (Some st) /\ table_spec fnm cfg db ns n st).
Proof.
  intros Hin Hs. pose proof keys_NoDup as Hnd. destruct Hshape as (_ & _ & _ & Hk & Hpq & Htq).
  assert (Hkey : In (render n) (dkeys (p_queries p))). { rewrite <- (named_eq Hs). apply in_map_iff. exists (s, q). tauto. }
  rewrite Hk in Hkey. apply in_map_iff in Hkey. destruct Hkey as (n' & He & Hn').
  assert (n' = n). { apply render_inj in He; [exact He|apply all_no_dot; exact Hn'|apply Hs]. } subst n'.
  rewrite (named_eq Hs) in Hin. apply (In_dget Hnd) in Hin. apply in_app_iff in Hn'. destruct Hn' as [Hn'|Hn'].
  - left. split; [exact Hn'|]. specialize (Hpq n Hn'). apply (In_dget Hnd) in Hpq. congruence.
  - right. split; [exact Hn'|]. destruct (Htq n Hn') as (st & Hst & Hsp). apply (In_dget Hnd) in Hst. exists st. split; [congruence|exact Hsp].
Qed.
Lemma query_reads s q n : In (s, q) (p_queries p) -> named s n -> exists st, q = mkQuery None None (Some st) /\ reads_only n st.
Proof.
  intros Hin Hs. destruct (query_of Hin Hs) as [[_ ->]|(_ & st & -> & t & pa & ch & _ & _ & _ & Hc)].
  - eexists. split; [reflexivity|]. cbn. tauto.
  - exists st. split; [reflexivity|]. eapply table_case_reads. exact Hc.
Qed.

Lemma earlier_iff a b : In a ns -> In b ns -> earlier p a b <-> before ns a b.
Proof.
  intros Ha Hb. destruct Hshape as (_ & _ & _ & Hk & _).
  assert (Ha' : In a (passl ++ ns)) by (apply in_app_iff; right; exact Ha).
  assert (Hb' : In b (passl ++ ns)) by (apply in_app_iff; right; exact Hb).
  assert (He : earlier p a b <-> before (passl ++ ns) a b).
  { unfold earlier. rewrite Hk. split.
    - intros (sa & sb & Hsa & Hsb & Hbf). rewrite (named_eq Hsa), (named_eq Hsb) in Hbf. apply (before_map render_all_inj Ha' Hb') in Hbf. exact Hbf.
    - intros Hbf. exists (render a), (render b). split; [apply named_render, all_no_dot; exact Ha'|]. split; [apply named_render, all_no_dot; exact Hb'|].
      apply (before_map render_all_inj Ha' Hb'). exact Hbf. }
  rewrite He. split.
  - intros Hbf. apply before_app_inv in Hbf. pose proof all_NoDup as Hnd. apply NoDup_app_iff in Hnd. destruct Hnd as (_ & _ & Hd).
    destruct Hbf as [Hbf|[Hbf|Hbf]].
    + exfalso. apply before_In_l in Hbf. exact (Hd a Hbf Ha).
    + exfalso. apply (Hd a); tauto.
    + exact Hbf.
  - apply before_app_l.
Qed.
Lemma active_in_ns n : active n -> In (render n) (dkeys (p_queries p)) -> In n ns.
Proof.
  intros Ha Hin. destruct Hshape as (_ & Hp & _ & Hk & _). rewrite Hk in Hin. apply in_map_iff in Hin. destruct Hin as (n' & He & Hn').
  assert (n' = n). { apply render_inj in He; [exact He|apply all_no_dot; exact Hn'|eapply chosen_no_dot; [exact Hdb|apply Ha]]. } subst n'.
  apply in_app_iff in Hn'. destruct Hn' as [Hn'|Hn']; [|exact Hn']. apply Hp in Hn'. destruct Ha as (_ & _ & Ha). exfalso. apply Ha, Hn'.
Qed.
Lemma earlier_ns a b : active a -> active b -> earlier p a b -> In a ns /\ In b ns.
Proof.
  intros Ha Hb (sa & sb & Hsa & Hsb & Hbf). rewrite (named_eq Hsa), (named_eq Hsb) in Hbf. split; apply active_in_ns; try assumption.
  - eapply before_In_l. exact Hbf.
  - eapply before_In_r. exact Hbf.
Qed.
Lemma parent_iff n fk : earlier_parent fnm cfg db p n fk <-> pos_parent fnm cfg db ns n fk.
Proof.
  unfold earlier_parent, pos_parent. split.
  - intros (Ha & Hd & Hc & He). split; [exact Hc|]. destruct (earlier_ns Hd Ha He) as [H1 H2]. apply (earlier_iff H1 H2). exact He.
  - intros (Hc & Hb). pose proof (before_In_l Hb) as H1. pose proof (before_In_r Hb) as H2. split; [apply (ns_active Hgood); exact H2|].
    split; [apply (ns_active Hgood); exact H1|]. split; [exact Hc|]. apply (earlier_iff H1 H2). exact Hb.
Qed.
Lemma child_iff n c fk : earlier_child fnm cfg db p n c fk <-> pos_child fnm cfg db ns n c fk.
Proof.
  unfold earlier_child, pos_child. split.
  - intros (Ha & Hd & Hc & Hfk & He). split; [exact Hc|]. split; [exact Hfk|]. destruct (earlier_ns Hd Ha He) as [H1 H2]. apply (earlier_iff H1 H2). exact He.
  - intros (Hc & Hfk & Hb). pose proof (before_In_l Hb) as H1. pose proof (before_In_r Hb) as H2. split; [apply (ns_active Hgood); exact H2|].
    split; [apply (ns_active Hgood); exact H1|]. split; [exact Hc|]. split; [exact Hfk|]. apply (earlier_iff H1 H2). exact Hb.
Qed.

Lemma is_target_iff n g : NoDup (dkeys (c_targets cfg)) -> no_dot (fst n) -> is_target cfg n g <-> tgt_of cfg n = Some g.
Proof.
  intros Hnd Hdot. unfold is_target, tgt_of. split.
  - intros (s & Hin & Hs). rewrite (named_eq Hs) in Hin. apply (In_dget Hnd) in Hin. exact Hin.
  - intros Hg. apply dget_In in Hg. exists (render n). split; [exact Hg|apply named_render; exact Hdot].
Qed.
Lemma constraints_iff n l : NoDup (dkeys (c_constraints cfg)) -> no_dot (fst n) -> constraints_of cfg n l <-> l = confs_of cfg n.
Proof.
  intros Hnd Hdot. unfold constraints_of, confs_of, dget_or. split.
  - intros (s & Hs & Hor). rewrite (named_eq Hs) in Hor. destruct Hor as [Hin|[-> Hno]].
    + apply (In_dget Hnd) in Hin. rewrite Hin. reflexivity.
    + apply dget_None in Hno. rewrite Hno. reflexivity.
  - intros ->. exists (render n). split; [apply named_render; exact Hdot|]. destruct (dget (c_constraints cfg) (render n)) as [l|] eqn:Eg.
    + left. apply dget_In in Eg. exact Eg.
    + right. apply (proj1 (dget_None _ _)) in Eg. tauto.
Qed.

Lemma considered_len n fk : extras_valid cfg -> considered n fk -> fk_cols fk <> [] /\ length (fk_cols fk) = length (fk_dst_cols fk).
Proof.
  intros Hx (_ & [[[(t & [Ht _] & Hfk)|(_ & c & d & t & -> & _)] _]|(x & Hin & _ & _ & Hc & Hdc & _)]).
  - destruct Hdb as [_ Hall]. destruct (Hall t Ht) as (_ & _ & _ & Hw). destruct (Hw fk Hfk) as (H1 & H2 & _). tauto.
  - cbn. split; [discriminate|reflexivity].
  - rewrite Hc, Hdc. apply Hx. exact Hin.
Qed.

Section Pop.
Variables (cmpf : cmpop -> value -> value -> bool)
          (textf : string -> option (dict string lit) -> row -> tv)
          (source sample : tname -> list row).
Hypothesis Hpop : populated cmpf textf source sample p.
Hypothesis Hxv : extras_valid cfg.
Let e := plan_env cmpf textf source sample.

Lemma sample_query n : In n ns -> exists st z, table_spec fnm cfg db ns n st /\ rnd_ok z /\ Permutation (sample n) (sem_stmt e z st).
Proof.
  intros Hn. destruct Hshape as (_ & _ & _ & _ & _ & Htq). destruct (Htq n Hn) as (st & Hst & Hsp).
  destruct (@Hpop _ _ n Hst) as (st' & z & Hq & Hz & Hp).
  { apply named_render, all_no_dot, in_app_iff. right. exact Hn. }
  cbn [q_stmt] in Hq. inversion Hq; subst st'. exists st, z. tauto.
Qed.
Lemma sample_pass n : In n passl -> Permutation (sample n) (source n).
Proof.
  intros Hn. destruct Hshape as (_ & _ & _ & _ & Hpq & _). specialize (Hpq n Hn).
  destruct (@Hpop _ _ n Hpq) as (st' & z & Hq & Hz & Hp).
  { apply named_render, all_no_dot, in_app_iff. left. exact Hn. }
  cbn in Hq. inversion Hq; subst st'. etransitivity; [exact Hp|]. cbn [sem_stmt sem_sel limited]. cbn [project joins_hold andb].
  rewrite (@map_snd_filter (fun _ => true) (fun _ => true)) by reflexivity.
  replace (contents (plan_env cmpf textf source sample) (mkIdent (fst n) (snd n) false)) with (source n) by (destruct n; reflexivity).
  clear. induction (source n) as [|r l IH]; [constructor|]. cbn [filter]. constructor. exact IH.
Qed.
Lemma sample_source n r : planned p n -> In r (sample n) -> In r (source n).
Proof.
  intros Hn Hr. apply planned_iff in Hn. destruct Hn as [Hn|Hn].
  - eapply Permutation_in; [apply sample_pass; apply pass_iff; exact Hn|exact Hr].
  - apply ns_iff in Hn. destruct (sample_query Hn) as (st & z & (t & pa & ch & _ & _ & _ & Hc) & Hz & Hp).
    apply (@reads_source cmpf textf source sample z n st r Hz (table_case_reads Hc)). eapply Permutation_in; [exact Hp|exact Hr].
Qed.
Lemma sample_nodup n : planned p n -> NoDup (source n) -> NoDup (sample n).
Proof.
  intros Hn Hs. apply planned_iff in Hn. destruct Hn as [Hn|Hn].
  - eapply Permutation_NoDup; [symmetry; apply sample_pass; apply pass_iff; exact Hn|exact Hs].
  - apply ns_iff in Hn. destruct (sample_query Hn) as (st & z & (t & pa & ch & _ & _ & _ & Hc) & Hz & Hp).
    eapply Permutation_NoDup; [symmetry; exact Hp|]. apply (@reads_nodup cmpf textf source sample z n st Hz (table_case_reads Hc)). exact Hs.
Qed.

Lemma parents_len (pa : list fkey) n : (forall fk, In fk pa <-> pos_parent fnm cfg db ns n fk) -> forall fk, In fk pa -> length (fk_cols fk) = length (fk_dst_cols fk).
Proof. intros Hpa fk Hfk. apply Hpa in Hfk. destruct Hfk as [Hc _]. apply (considered_len Hxv) in Hc. apply Hc. Qed.
Lemma children_len (ch : list fkey) n : (forall rk, In rk ch <-> exists c fk, pos_child fnm cfg db ns n c fk /\ rk = mirror c fk) ->
  forall fk, In fk ch -> length (fk_cols fk) = length (fk_dst_cols fk).
Proof. intros Hpa fk Hfk. apply Hpa in Hfk. destruct Hfk as (c & fk0 & [Hc _] & ->). cbn. symmetry. apply (considered_len Hxv) in Hc. apply Hc. Qed.

(** Sampled from parents. *)
Lemma sample_from_parents n : (exists fk, earlier_parent fnm cfg db p n fk) ->
  exists keep, Permutation (sample n) (filter keep (source n)) /\
    forall r, keep r = true <->
      (forall c, In c (confs_of cfg n) -> constr_holds cmpf textf source sample r c) /\
      forall fk, earlier_parent fnm cfg db p n fk -> exists r', In r' (sample (fk_dst fk)) /\ refers cmpf fk r r'.
Proof.
  intros (fk0 & Hfk0). apply parent_iff in Hfk0. assert (Hn : In n ns) by (eapply before_In_r; apply Hfk0).
  destruct (sample_query Hn) as (st & z & (t & pa & ch & _ & Hpa & Hch & Hc) & Hz & Hp).
  assert (Hne : pa <> []) by (intros ->; apply Hpa in Hfk0; destruct Hfk0).
  assert (Htgt : tgt_of cfg n = None). { inversion Hc; try reflexivity; subst; congruence. }
  rewrite Htgt in Hc. destruct (@case_parents cmpf textf source sample n t (confs_of cfg n) pa ch st z Hz (parents_len Hpa) (children_len Hch) Hc Hne) as (keep & Hk & Hkeep).
  exists keep. split; [unfold e in Hp; rewrite <- Hk; exact Hp|]. intros r. rewrite Hkeep. unfold joined. split.
  - intros [H1 H2]. split; [exact H2|]. intros fk Hfk. apply H1, Hpa, parent_iff. exact Hfk.
  - intros [H1 H2]. split; [|exact H1]. intros fk Hfk. apply H2, parent_iff, Hpa. exact Hfk.
Qed.

Lemma referenced_iff (sym : eq_symmetric cmpf) n ch r : (forall rk, In rk ch <-> exists c fk, pos_child fnm cfg db ns n c fk /\ rk = mirror c fk) ->
  joined cmpf sample true ch r <-> exists c fk r', earlier_child fnm cfg db p n c fk /\ In r' (sample c) /\ refers cmpf fk r' r.
Proof.
  intros Hch. assert (Hm : forall c fk r', refers cmpf (mirror c fk) r r' <-> refers cmpf fk r' r).
  { intros c fk r'. unfold refers, mirror. cbn [fk_cols fk_dst_cols]. split; intros Hf.
    - induction Hf as [|a b la lb Hab Hf IH]; constructor; [|exact IH]. rewrite sym. tauto.
    - induction Hf as [|a b la lb Hab Hf IH]; constructor; [|exact IH]. rewrite sym. tauto. }
  unfold joined. split.
  - intros (rk & Hrk & r' & Hr' & Href). apply Hch in Hrk. destruct Hrk as (c & fk & Hpc & ->). exists c, fk, r'. cbn [mirror fk_dst] in Hr'.
    split; [apply child_iff; exact Hpc|]. split; [exact Hr'|apply (Hm c); exact Href].
  - intros (c & fk & r' & Hec & Hr' & Href). exists (mirror c fk). split; [apply Hch; exists c, fk; split; [apply child_iff; exact Hec|reflexivity]|].
    exists r'. split; [exact Hr'|apply Hm; exact Href].
Qed.

Lemma child_ne (ch : list fkey) n c fk : (forall rk, In rk ch <-> exists c fk, pos_child fnm cfg db ns n c fk /\ rk = mirror c fk) ->
  earlier_child fnm cfg db p n c fk -> ch <> [].
Proof. intros Hch Hec ->. destruct (proj2 (Hch (mirror c fk))). exists c, fk. split; [apply child_iff; exact Hec|reflexivity]. Qed.

(** Sampled from children, not a target. *)
Lemma sample_from_children (sym : eq_symmetric cmpf) n : (exists c fk, earlier_child fnm cfg db p n c fk) -> tgt_of cfg n = None ->
  exists keep, Permutation (sample n) (filter keep (source n)) /\
    forall r, keep r = true <-> exists c fk r', earlier_child fnm cfg db p n c fk /\ In r' (sample c) /\ refers cmpf fk r' r.
Proof.
  intros (c0 & fk0 & Hec) Htgt. assert (Hn : In n ns) by (apply child_iff in Hec; eapply before_In_r; apply Hec).
  destruct (sample_query Hn) as (st & z & (t & pa & ch & _ & Hpa & Hch & Hc) & Hz & Hp). rewrite Htgt in Hc.
  destruct (@case_children cmpf textf source sample n t (confs_of cfg n) pa ch st z Hz (parents_len Hpa) (children_len Hch) Hc (child_ne Hch Hec)) as (keep & Hk & Hkeep).
  exists keep. split; [unfold e in Hp; rewrite <- Hk; exact Hp|]. intros r. rewrite Hkeep. apply (referenced_iff sym r Hch).
Qed.

Lemma own_selection_perm g all l l' : Permutation l l' -> own_selection cmpf textf g all l -> own_selection cmpf textf g all l'.
Proof.
  intros Hp (u & ok & rest & Hu & Hok & Hperm & Hlen). exists u, ok, rest. split; [exact Hu|]. split; [exact Hok|]. split.
  - etransitivity; [|exact Hperm]. apply Permutation_app_tail. symmetry. exact Hp.
  - destruct (tg_amount g); [|exact Hlen]. rewrite <- (Permutation_length Hp). exact Hlen.
Qed.

Lemma target_in_ns n g : tgt_of cfg n = Some g -> active n -> In n ns.
Proof.
  intros Hg Ha. apply ns_iff. exists n, g. split.
  - apply dget_In in Hg. exists (render n). split; [exact Hg|]. apply named_render. eapply chosen_no_dot; [exact Hdb|apply Ha].
  - split; [exact Ha|apply rt_refl].
Qed.

(** A target not referenced by earlier tables (or with [all]). *)
Lemma sample_target n g : In n ns -> tgt_of cfg n = Some g -> (forall c fk, ~ earlier_child fnm cfg db p n c fk) \/ tg_all g = true ->
  own_selection cmpf textf g (source n) (sample n).
Proof.
  intros Hn Hg Hor. destruct (sample_query Hn) as (st & z & (t & pa & ch & _ & Hpa & Hch & Hc) & Hz & Hp). rewrite Hg in Hc.
  eapply own_selection_perm; [symmetry; exact Hp|].
  apply (@case_target cmpf textf source sample n t (confs_of cfg n) pa ch st z Hz (parents_len Hpa) g Hc). destruct Hor as [Hno|Ha]; [left|right; exact Ha].
  destruct ch as [|rk ch]; [reflexivity|]. destruct (proj1 (Hch rk) (or_introl eq_refl)) as (c & fk & Hpc & _). apply child_iff in Hpc.
  exfalso. exact (Hno c fk Hpc).
Qed.

(** A referenced target. *)
Lemma sample_both (sym : eq_symmetric cmpf) n g : tgt_of cfg n = Some g -> (exists c fk, earlier_child fnm cfg db p n c fk) -> tg_all g = false ->
  exists own, own_selection cmpf textf g (source n) own /\ (forall r, In r own -> In r (sample n)) /\
    (forall r c fk r', In r (source n) -> earlier_child fnm cfg db p n c fk -> In r' (sample c) -> refers cmpf fk r' r -> In r (sample n)) /\
    (tg_amount g <> None -> forall r, In r (sample n) -> In r own \/
       (In r (source n) /\ exists c fk r', earlier_child fnm cfg db p n c fk /\ In r' (sample c) /\ refers cmpf fk r' r)).
Proof.
  intros Hg (c0 & fk0 & Hec) Ha. assert (Hn : In n ns) by (apply child_iff in Hec; eapply before_In_r; apply Hec).
  destruct (sample_query Hn) as (st & z & (t & pa & ch & _ & Hpa & Hch & Hc) & Hz & Hp). rewrite Hg in Hc.
  destruct (@case_both cmpf textf source sample n t (confs_of cfg n) pa ch st z Hz (parents_len Hpa) (children_len Hch) g Hc (child_ne Hch Hec) Ha) as (own & Ho & Ho1 & Ho2 & Ho3).
  exists own. split; [exact Ho|]. split; [|split].
  - intros r Hr. eapply Permutation_in; [symmetry; exact Hp|]. apply Ho1. exact Hr.
  - intros r c fk r' Hr Hec' Hr' Href. eapply Permutation_in; [symmetry; exact Hp|]. apply Ho2; [exact Hr|]. apply (referenced_iff sym r Hch).
    exists c, fk, r'. tauto.
  - intros Ham r Hr. destruct (Ho3 Ham r) as [Hx|[Hx1 Hx2]].
    + eapply Permutation_in; [exact Hp|exact Hr].
    + left. exact Hx.
    + right. split; [exact Hx1|]. apply (referenced_iff sym r Hch). exact Hx2.
Qed.
Lemma sample_both_merged n g : tgt_of cfg n = Some g -> (exists c fk, earlier_child fnm cfg db p n c fk) -> tg_all g = false ->
  tg_amount g = None -> (forall q, tg_percent g = Some q -> Qlt 0 q) -> Permutation (sample n) (source n).
Proof.
  intros Hg (c0 & fk0 & Hec) Ha Ham Hper. assert (Hn : In n ns) by (apply child_iff in Hec; eapply before_In_r; apply Hec).
  destruct (sample_query Hn) as (st & z & (t & pa & ch & _ & Hpa & Hch & Hc) & Hz & Hp). rewrite Hg in Hc.
  rewrite <- (@case_both_merged cmpf textf source sample n t (confs_of cfg n) pa ch st z (parents_len Hpa) (children_len Hch) g Hc (child_ne Hch Hec) Ha Ham Hper). exact Hp.
Qed.

Lemma all_selection g l l' : tg_all g = true -> tg_amount g = None -> own_selection cmpf textf g l l' -> Permutation l' l.
Proof.
  intros Ha Ham (u & ok & rest & _ & Hok & Hperm & Hrest). rewrite Ham in Hrest. subst rest. rewrite app_nil_r in Hperm.
  etransitivity; [exact Hperm|]. rewrite (@map_snd_filter ok (fun _ => true)).
  - clear. induction l as [|r l IH]; [constructor|]. cbn [filter]. constructor. exact IH.
  - intros i r. apply Hok. left. exact Ha.
Qed.

(** Foreign keys. *)
Lemma fk_consistent1 (sym : eq_symmetric cmpf) :
  (forall n g, tgt_of cfg n = Some g -> tg_all g = true -> tg_amount g = None) ->
  forall n fk, considered n fk -> planned p n -> planned p (fk_dst fk) ->
  earlier_parent fnm cfg db p n fk \/ fk_holds cmpf fk (source n) (source (fk_dst fk)) -> fk_holds cmpf fk (sample n) (sample (fk_dst fk)).
Proof.
  intros Hall n fk Hc Hn Hd [Hep|Hsrc] r Hr Hnn.
  { destruct (sample_from_parents (ex_intro _ fk Hep)) as (keep & Hperm & Hkeep). assert (Hk : keep r = true).
    { eapply Permutation_in in Hr; [|exact Hperm]. apply filter_In in Hr. apply Hr. }
    apply Hkeep in Hk. exact (proj2 Hk fk Hep). }
  destruct (Hsrc r (sample_source Hn Hr) Hnn) as (r' & Hr' & Href).
  apply planned_iff in Hd. destruct Hd as [Hd|Hd].
  { exists r'. split; [|exact Href]. eapply Permutation_in; [symmetry; apply sample_pass; apply pass_iff; exact Hd|exact Hr']. }
  apply ns_iff in Hd. pose proof (ns_active Hgood Hd) as Hda.
  apply planned_iff in Hn. destruct Hn as [Hn|Hn].
  { destruct plan_ok_shape as (pl' & ns' & _ & _ & _ & _ & _ & _ & Hop & _). exfalso. apply Hop. exists n, fk. split; [exact Hn|]. split; [exact Hc|]. apply Hda. }
  apply ns_iff in Hn. pose proof (ns_active Hgood Hn) as Hna.
  assert (Hne : fk_dst fk <> n) by (apply (no_self Hgood Hn Hc)).
  destruct (before_total Hd Hn Hne) as [Hb|Hb].
  - assert (Hep : earlier_parent fnm cfg db p n fk) by (apply parent_iff; split; assumption).
    destruct (sample_from_parents (ex_intro _ fk Hep)) as (keep & Hperm & Hkeep). assert (Hk : keep r = true).
    { eapply Permutation_in in Hr; [|exact Hperm]. apply filter_In in Hr. apply Hr. }
    apply Hkeep in Hk. exact (proj2 Hk fk Hep).
  - assert (Hec : earlier_child fnm cfg db p (fk_dst fk) n fk) by (apply child_iff; split; [exact Hc|split; [reflexivity|exact Hb]]).
    destruct (tgt_of cfg (fk_dst fk)) as [g|] eqn:Eg.
    + destruct (tg_all g) eqn:Ea.
      * exists r'. split; [|exact Href]. eapply Permutation_in; [|exact Hr']. symmetry.
        apply (@all_selection g); [exact Ea|exact (Hall _ _ Eg Ea)|]. apply sample_target; [exact Hd|exact Eg|right; exact Ea].
      * destruct (sample_both sym Eg (ex_intro _ n (ex_intro _ fk Hec)) Ea) as (own & _ & _ & Hsup & _).
        exists r'. split; [|exact Href]. exact (Hsup r' n fk r Hr' Hec Hr Href).
    + destruct (sample_from_children sym (ex_intro _ n (ex_intro _ fk Hec)) Eg) as (keep & Hperm & Hkeep).
      exists r'. split; [|exact Href]. eapply Permutation_in; [symmetry; exact Hperm|]. apply filter_In. split; [exact Hr'|].
      apply Hkeep. exists n, fk, r. tauto.
Qed.

Lemma fk_consistent (sym : eq_symmetric cmpf) :
  source_consistent fnm cfg db cmpf source ->
  (forall n g, tgt_of cfg n = Some g -> tg_all g = true -> tg_amount g = None) ->
  forall n fk, considered n fk -> planned p n -> planned p (fk_dst fk) -> fk_holds cmpf fk (sample n) (sample (fk_dst fk)).
Proof. intros Hsrc Hall n fk Hc Hn Hd. apply (fk_consistent1 sym Hall Hc Hn Hd). right. exact (Hsrc n fk Hc). Qed.

(** Constraints hold on tables that are not targets. *)
Lemma constraints_hold n r : connected n -> tgt_of cfg n = None -> In r (sample n) ->
  forall c, In c (confs_of cfg n) -> constr_holds cmpf textf source sample r c.
Proof.
  intros Hcn Hg Hr c Hc. apply ns_iff in Hcn. destruct (sample_query Hcn) as (st & z & (t & pa & ch & _ & Hpa & Hch & Hcase) & Hz & Hp).
  rewrite Hg in Hcase. pose proof Hcase as Hcase'. inversion Hcase' as [js ws st' Hpn Hcn' Hj Hw Hs|js st' Hpn Hcn' Hco| |]; subst.
  - destruct (@case_parents cmpf textf source sample n t (confs_of cfg n) pa [] st z Hz (parents_len Hpa) (children_len Hch) Hcase Hpn) as (keep & Hk & Hkeep).
    eapply Permutation_in in Hr; [|exact Hp]. unfold e in Hr. rewrite Hk in Hr. apply filter_In in Hr. destruct Hr as [_ Hr]. apply Hkeep in Hr.
    apply Hr. exact Hc.
  - rewrite Hco in Hc. destruct Hc.
Qed.
End Pop.
End Shape.
End Plan.
End Final.
