(** planner.py: the plan depends only on the chosen tables and the configuration's entries, not on the order
    in which they are listed. *)
From Verif Require Import Model.Base Model.Solver Model.Value Model.Names Model.PlanModel Model.Metadata Model.Planner.
From Verif Require Import Spec.GraphSpec Spec.SchemaSpec Spec.SqlSem Spec.PlannerSpec Spec.ListingSpec.
From Verif Require Import Proofs.BaseFacts Proofs.GraphFacts Proofs.SolverOrder Proofs.SolverMain Proofs.StrOrder Proofs.NameFacts Proofs.MetadataFacts Proofs.PlannerEdit Proofs.PlannerGraph Proofs.PlannerTables Proofs.PlannerMain Proofs.PlannerFinal Proofs.PlannerDet Proofs.FkOrder.
Set Implicit Arguments.
Unset Strict Implicit.
Open Scope string_scope.
Open Scope list_scope.

(** ** Lists *)
Lemma Forall2_map2 {A B C D} (R : A -> B -> Prop) (S : C -> D -> Prop) (f : A -> C) (g : B -> D) l l' :
  Forall2 R l l' -> (forall a b, In a l -> In b l' -> R a b -> S (f a) (g b)) -> Forall2 S (map f l) (map g l').
Proof.
  intros H. induction H as [|a b l l' Hab H IH]; intros Hi; cbn [map]; constructor.
  - apply Hi; [left; reflexivity|left; reflexivity|exact Hab].
  - apply IH. intros x y Hx Hy. apply Hi; right; assumption.
Qed.
Lemma Permutation_filter {A} (p : A -> bool) l l' : Permutation l l' -> Permutation (filter p l) (filter p l').
Proof.
  intros H. induction H as [|x l l' H IH|x y l|l1 l2 l3 H1 IH1 H2 IH2]; cbn [filter].
  - constructor.
  - destruct (p x); [constructor|]; exact IH.
  - destruct (p x), (p y); try apply Permutation_refl. apply perm_swap.
  - etransitivity; eassumption.
Qed.
Lemma existsb_members {A} (p : A -> bool) l l' : same_members l l' -> existsb p l = existsb p l'.
Proof.
  intros H. apply eq_true_iff_eq. rewrite !existsb_exists. split; intros (x & Hx & Hp); exists x; (split; [apply H; exact Hx|exact Hp]).
Qed.
Lemma dget_perm {K V} `{EqDec K} (d d' : dict K V) k : Permutation d d' -> NoDup (dkeys d) -> dget d k = dget d' k.
Proof.
  intros Hp Hn. assert (Hn' : NoDup (dkeys d')) by (eapply Permutation_NoDup; [apply Permutation_map; exact Hp|exact Hn]).
  destruct (dget d k) as [v|] eqn:E.
  - apply dget_In in E. symmetry. apply In_dget; [exact Hn'|]. eapply Permutation_in; eassumption.
  - symmetry. apply dget_None. apply (proj1 (dget_None _ _)) in E. intros Hin. apply E.
    eapply Permutation_in; [|exact Hin]. apply Permutation_map. symmetry. exact Hp.
Qed.

(** ** The same metadata, listed in another order *)
Definition like_m (m m' : tmeta) : Prop :=
  same_table (tm_table m) (tm_table m') /\ Permutation (tm_fks m) (tm_fks m') /\ Permutation (tm_rev m) (tm_rev m').
Definition like_e (a b : tname * tmeta) : Prop := fst a = fst b /\ like_m (snd a) (snd b).
Definition like_ms (ms ms' : meta) : Prop :=
  meta_ok ms /\ meta_ok ms' /\ exists l, Permutation ms l /\ Forall2 like_e l ms'.

Lemma like_keys l l' : Forall2 like_e l l' -> dkeys l = dkeys l'.
Proof. unfold dkeys. intros H. induction H as [|a b l l' [Hab _] H IH]; cbn [map]; [reflexivity|congruence]. Qed.
Lemma like_get ms ms' n : like_ms ms ms' ->
  match dget ms n, dget ms' n with Some m, Some m' => like_m m m' | None, None => True | _, _ => False end.
Proof.
  intros (Hok & Hok' & l & Hp & Hf). rewrite (@dget_perm _ _ _ _ _ n Hp (proj1 Hok)). clear -Hf.
  induction Hf as [|[a m] [b m'] l l' [Hab Hm] H IH]; cbn [dget]; [exact I|]. cbn [fst snd] in Hab, Hm. subst b.
  destruct (eq_dec n a); [exact Hm|exact IH].
Qed.
Lemma like_dkeys ms ms' n : like_ms ms ms' -> In n (dkeys ms) <-> In n (dkeys ms').
Proof.
  intros (_ & _ & l & Hp & Hf). rewrite <- (like_keys Hf). split; apply Permutation_in; unfold dkeys; apply Permutation_map; [|symmetry]; exact Hp.
Qed.
Lemma like_dvals ms ms' : like_ms ms ms' -> exists l, Permutation (dvals ms) l /\ Forall2 like_m l (dvals ms').
Proof.
  intros (_ & _ & l & Hp & Hf). exists (map snd l). split; [apply Permutation_map; exact Hp|].
  eapply Forall2_map2; [exact Hf|]. intros a b _ _ H. apply H.
Qed.

Lemma like_map (f f' : tname * tmeta -> tmeta) ms ms' : like_ms ms ms' ->
  meta_ok (map (fun nm => (fst nm, f nm)) ms) -> meta_ok (map (fun nm => (fst nm, f' nm)) ms') ->
  (forall n m m', In (n, m) ms -> In (n, m') ms' -> like_m m m' -> like_m (f (n, m)) (f' (n, m'))) ->
  like_ms (map (fun nm => (fst nm, f nm)) ms) (map (fun nm => (fst nm, f' nm)) ms').
Proof.
  intros (_ & _ & l & Hp & Hf) Hok Hok' Hi. split; [exact Hok|]. split; [exact Hok'|].
  exists (map (fun nm => (fst nm, f nm)) l). split; [apply Permutation_map; exact Hp|].
  eapply Forall2_map2; [exact Hf|]. intros [n m] [n' m'] H1 H2 [Hn Hm]. cbn [fst snd] in *. subst n'. split; [reflexivity|].
  cbn [snd]. apply Hi; [|exact H2|exact Hm]. eapply Permutation_in; [symmetry; exact Hp|exact H1].
Qed.

(** ** Selection *)
Lemma engine_like fnm cfg db cfg' db' ms ms' extra extra' : db_ok db -> db_ok db' -> same_choice fnm cfg db cfg' db' ->
  from_engine fnm db (c_select cfg ++ c_passthrough cfg) (c_include_deps cfg) false = Ok (ms, extra) ->
  from_engine fnm db' (c_select cfg' ++ c_passthrough cfg') (c_include_deps cfg') false = Ok (ms', extra') -> like_ms ms ms'.
Proof.
  intros Hdb Hdb' [Hc Ht] E E'.
  destruct (from_engine_spec fnm (c_select cfg ++ c_passthrough cfg) (c_include_deps cfg) false Hdb) as (x1 & x2 & Ex & _ & Hn & Hs & Hm).
  rewrite E in Ex. inversion Ex; subst x1 x2. clear Ex.
  destruct (from_engine_spec fnm (c_select cfg' ++ c_passthrough cfg') (c_include_deps cfg') false Hdb') as (x1 & x2 & Ex & _ & Hn' & Hs' & Hm').
  rewrite E' in Ex. inversion Ex; subst x1 x2. clear Ex E E'.
  assert (Hok : meta_ok ms). { split; [exact Hn|]. intros n m Hin. destruct (Hm n m Hin) as (t & [_ Hnm] & ->). exact Hnm. }
  assert (Hok' : meta_ok ms'). { split; [exact Hn'|]. intros n m Hin. destruct (Hm' n m Hin) as (t & [_ Hnm] & ->). exact Hnm. }
  split; [exact Hok|]. split; [exact Hok'|].
  assert (Hex : forall l, incl l ms' -> exists l0, incl l0 ms /\ Forall2 like_e l0 l).
  { induction l as [|[n m'] l IH]; intros Hi; [exists []; split; [intros x []|constructor]|].
    destruct IH as (l0 & Hl0 & Hf); [intros x Hx; apply Hi; right; exact Hx|].
    assert (Hin' : In (n, m') ms') by (apply Hi; left; reflexivity).
    assert (Hcn : chosen fnm cfg db n). { apply Hc, Hs'. apply in_map_iff. exists (n, m'). tauto. }
    pose proof Hcn as Hk. apply Hs in Hk. apply in_map_iff in Hk. destruct Hk as ([n0 m] & Hn0 & Hin). cbn in Hn0. subst n0.
    destruct (Hm n m Hin) as (t & Htt & ->), (Hm' n m' Hin') as (t' & Htt' & ->). pose proof (Ht n t t' Hcn Htt Htt') as Hst.
    exists ((n, new_meta t) :: l0). split; [intros x [<-|Hx]; [exact Hin|apply Hl0; exact Hx]|]. constructor; [|exact Hf].
    split; [reflexivity|]. cbn [snd]. split; [exact Hst|]. cbn [new_meta tm_fks tm_rev]. split; [apply Hst|constructor]. }
  destruct (Hex ms' (fun x H => H)) as (l & Hl & Hf). exists l. split; [|exact Hf].
  pose proof (like_keys Hf) as Hk.
  symmetry. apply NoDup_Permutation_bis.
  - apply (@NoDup_map_rev _ _ fst). change (NoDup (dkeys l)). rewrite Hk. exact Hn'.
  - rewrite <- (map_length fst l), <- (map_length fst ms). apply NoDup_incl_length; [exact Hn|]. intros n Hin.
    change (In n (dkeys l)). rewrite Hk. apply Hs', Hc, Hs. exact Hin.
  - exact Hl.
Qed.

(** ** Inference *)
Lemma filter_like (p : tmeta -> bool) l l' : (forall m m', like_m m m' -> p m = p m') -> Forall2 like_m l l' -> Forall2 like_m (filter p l) (filter p l').
Proof.
  intros Hp H. induction H as [|m m' l l' Hm H IH]; cbn [filter]; [constructor|]. rewrite (Hp _ _ Hm).
  destruct (p m'); [constructor; assumption|exact IH].
Qed.
Lemma pk_like ia ms ms' k : like_ms ms ms' -> dget (pk_map ia (dvals ms)) k = dget (pk_map ia (dvals ms')) k.
Proof.
  intros Hl. destruct (like_dvals Hl) as (l & Hp & Hf). rewrite !pk_map_get.
  apply (Permutation_filter (has_key ia k)) in Hp.
  apply (@filter_like (has_key ia k)) in Hf.
  - destruct (filter _ l) as [|a [|b r]].
    + apply Permutation_sym, Permutation_nil in Hp. rewrite Hp. inversion Hf. reflexivity.
    + apply Permutation_sym, Permutation_length_1_inv in Hp. rewrite Hp. inversion Hf as [|? b ? r' Hab Hr]; subst. inversion Hr. subst.
      destruct Hab as [[Hn _] _]. rewrite Hn. reflexivity.
    + assert (Hlen := Permutation_length Hp). inversion Hf as [|? ? ? r' _ Hr]; subst. inversion Hr; subst.
      destruct (filter _ (dvals ms)) as [|x1 [|x2 x3]]; try discriminate Hlen. reflexivity.
  - intros m m' [(Hn & _ & Hpk & _) _]. unfold has_key, pk_key. rewrite Hn, Hpk. reflexivity.
Qed.
Lemma memb_perm {A} `{EqDec A} (x : A) l l' : Permutation l l' -> memb x l = memb x l'.
Proof. intros Hp. apply eq_true_iff_eq. rewrite !memb_true. split; apply Permutation_in; [|symmetry]; exact Hp. Qed.
Lemma infer_like ia ms ms' : like_ms ms ms' -> like_ms (infer_missing_foreign_keys ia ms) (infer_missing_foreign_keys ia ms').
Proof.
  intros Hl. unfold infer_missing_foreign_keys.
  assert (Hok : forall ms pm, meta_ok ms -> meta_ok (map (fun nm : tname * tmeta => (fst nm, infer_table ia pm (snd nm))) ms)).
  { intros ms0 pm [Hn Hnm]. split; [unfold dkeys; rewrite map_map; exact Hn|]. intros n m Hin. apply in_map_iff in Hin.
    destruct Hin as ([n0 m0] & He & Hin). cbn [fst snd] in He. inversion He; subst. exact (Hnm _ _ Hin). }
  apply (@like_map (fun nm => infer_table ia (pk_map ia (dvals ms)) (snd nm)) (fun nm => infer_table ia (pk_map ia (dvals ms')) (snd nm))); [exact Hl|apply Hok, Hl|apply Hok, Hl|].
  intros n m m' _ _ (Hst & Hf & Hr). cbn [snd]. unfold infer_table. split; [exact Hst|]. split; [|exact Hr].
  cbn [with_fks tm_fks]. apply Permutation_app; [exact Hf|]. destruct Hst as (Hn & Hc & _). rewrite <- Hn, <- Hc.
  match goal with |- Permutation ?a ?b => assert (He : a = b); [|rewrite He; apply Permutation_refl] end.
  clear Hc. induction (tb_cols (tm_table m)) as [|c cs IH]; [reflexivity|]. cbn [flat_map]. rewrite (pk_like ia _ Hl), IH. f_equal.
  destruct (dget _ _) as [[d|]|]; try reflexivity. destruct (eqb d _); [reflexivity|]. rewrite (memb_perm _ Hf). reflexivity.
Qed.

(** ** ignore_fks and extra_fks *)
Section Edit.
Variables cfg cfg' : config.
Hypothesis Hcfg : same_config cfg cfg'.
Lemma keepb_same n fk : keepb (c_ignore_fks cfg) n fk = keepb (c_ignore_fks cfg') n fk.
Proof. unfold keepb. f_equal. apply existsb_members. apply Hcfg. Qed.
Lemma extra_same ms ms' n x : like_ms ms ms' -> extra_for ms n x = extra_for ms' n x.
Proof.
  intros Hl. unfold extra_for. destruct (parse_table_name (x_src x)) as [src|]; [|reflexivity]. destruct (parse_table_name (x_dst x)) as [dst|]; [|reflexivity].
  pose proof (like_get src Hl) as H1. pose proof (like_get dst Hl) as H2.
  destruct (dget ms src) as [m1|], (dget ms' src) as [m1'|]; try contradiction; [|reflexivity].
  destruct (dget ms dst) as [m2|], (dget ms' dst) as [m2'|]; try contradiction; [|reflexivity].
  destruct H1 as [(_ & -> & _) _], H2 as [(_ & -> & _) _]. reflexivity.
Qed.
Lemma edit_valid_same : edit_valid cfg -> edit_valid cfg'.
Proof.
  destruct Hcfg as (_ & _ & _ & _ & _ & Hi & Hx & _). intros [H1 H2]. split.
  - intros a b Hin. apply H1, Hi. exact Hin.
  - intros x Hin. apply H2. eapply Permutation_in; [symmetry; exact Hx|exact Hin].
Qed.
End Edit.
Lemma same_config_sym cfg cfg' : same_config cfg cfg' -> same_config cfg' cfg.
Proof.
  assert (Hs : forall A (l l' : list A), same_members l l' -> same_members l' l) by (intros A l l' H x; symmetry; apply H).
  intros (H1 & H2 & H3 & H4 & H5 & H6 & H7 & H8 & H9). unfold same_config. repeat split; try (symmetry; assumption); try (apply Hs; assumption); try (apply H3); try (apply H4); try (apply H5); apply H6.
Qed.
Lemma edit_like cfg cfg' ms ms' : same_config cfg cfg' -> like_ms ms ms' ->
  match edit_fks cfg ms, edit_fks cfg' ms' with Ok a, Ok b => like_ms a b | Err e, Err e' => e = e' | _, _ => False end.
Proof.
  intros Hcfg Hl. destruct (edit_valid_dec cfg) as [Hv|Hv].
  - pose proof (edit_valid_same Hcfg Hv) as Hv'.
    rewrite (@edit_fks_ok cfg ms (proj1 (proj1 Hl)) (proj1 Hv) (proj2 Hv)), (@edit_fks_ok cfg' ms' (proj1 (proj1 (proj2 Hl))) (proj1 Hv') (proj2 Hv')).
    assert (Hi : like_ms (infer_of cfg ms) (infer_of cfg' ms')).
    { unfold infer_of. destruct Hcfg as (_ & _ & _ & _ & _ & _ & _ & <- & _). destruct (c_infer cfg); [exact Hl|apply infer_like; exact Hl|apply infer_like; exact Hl]. }
    pose proof (@mapf_ok (fun n fks => filter (keepb (c_ignore_fks cfg) n) fks ++ flat_map (extra_for ms n) (c_extra_fks cfg)) _ (proj1 Hi)) as K1.
    pose proof (@mapf_ok (fun n fks => filter (keepb (c_ignore_fks cfg') n) fks ++ flat_map (extra_for ms' n) (c_extra_fks cfg')) _ (proj1 (proj2 Hi))) as K2.
    unfold mapf in *.
    apply (@like_map (fun nm => with_fks (snd nm) (filter (keepb (c_ignore_fks cfg) (fst nm)) (tm_fks (snd nm)) ++ flat_map (extra_for ms (fst nm)) (c_extra_fks cfg)))
                     (fun nm => with_fks (snd nm) (filter (keepb (c_ignore_fks cfg') (fst nm)) (tm_fks (snd nm)) ++ flat_map (extra_for ms' (fst nm)) (c_extra_fks cfg')))); [exact Hi|exact K1|exact K2|].
    intros n m m' _ _ (Hst & Hf & Hr). cbn [fst snd]. split; [exact Hst|]. split; [|exact Hr]. cbn [with_fks tm_fks]. apply Permutation_app.
    + rewrite (filter_ext _ _ (keepb_same Hcfg n)). apply Permutation_filter. exact Hf.
    + rewrite (flat_map_ext _ _ (fun x => extra_same n x Hl)). apply Permutation_flat_map. apply Hcfg.
  - rewrite (@edit_fks_bad cfg ms Hv), (@edit_fks_bad cfg' ms'); [reflexivity|]. intros Hv'. apply Hv. exact (edit_valid_same (same_config_sym Hcfg) Hv').
Qed.

(** ** Reverse keys *)
Lemma all_fks_like ms ms' : like_ms ms ms' -> Permutation (all_fks ms) (all_fks ms').
Proof.
  intros Hl. destruct (like_dvals Hl) as (l & Hp & Hf). unfold all_fks. transitivity (flat_map (fun m => map (fun fk => (tm_name m, fk)) (tm_fks m)) l).
  - apply Permutation_flat_map. exact Hp.
  - clear Hp. induction Hf as [|m m' l l' Hm Hf IH]; cbn [flat_map]; [constructor|]. apply Permutation_app; [|exact IH].
    destruct Hm as ((Hn & _) & Hk & _). unfold tm_name. rewrite Hn. apply Permutation_map. exact Hk.
Qed.
Lemma reverse_like ms ms' : like_ms ms ms' ->
  match compute_reverse_keys ms, compute_reverse_keys ms' with Ok a, Ok b => like_ms a b | Err e, Err e' => e = e' | _, _ => False end.
Proof.
  intros Hl. pose proof (all_fks_like Hl) as Ha.
  destruct (reverse_keys_spec (proj1 Hl)) as [O1 B1]. destruct (reverse_keys_spec (proj1 (proj2 Hl))) as [O2 B2].
  assert (Hiff : (forall n fk, In (n, fk) (all_fks ms) -> In (fk_dst fk) (dkeys ms)) <-> (forall n fk, In (n, fk) (all_fks ms') -> In (fk_dst fk) (dkeys ms'))).
  { split; intros H n fk Hin.
    - apply (like_dkeys _ Hl). apply (H n). eapply Permutation_in; [symmetry; exact Ha|exact Hin].
    - apply (like_dkeys _ Hl). apply (H n). eapply Permutation_in; [exact Ha|exact Hin]. }
  destruct (@list_dec _ (fun nf : tname * fkey => In (fk_dst (snd nf)) (dkeys ms)) (all_fks ms)) as [Hd|Hd].
  { intros [n fk]. cbn [snd]. destruct (In_dec' (fk_dst fk) (dkeys ms)); tauto. }
  - assert (H1 : forall n fk, In (n, fk) (all_fks ms) -> In (fk_dst fk) (dkeys ms)) by (intros n fk Hin; exact (Hd (n, fk) Hin)).
    rewrite (O1 H1), (O2 (proj1 Hiff H1)). unfold add_rev.
    assert (Hok : forall ms l, meta_ok ms -> meta_ok (map (fun nm => (fst nm, with_rev (snd nm) (tm_rev (snd nm) ++ mirrors l (fst nm)))) ms)).
    { intros ms0 l [Hn Hnm]. split; [unfold dkeys; rewrite map_map; exact Hn|]. intros n m Hin. apply in_map_iff in Hin.
      destruct Hin as ([n0 m0] & He & Hin). cbn [fst snd] in He. inversion He; subst. exact (Hnm _ _ Hin). }
    apply (@like_map (fun nm => with_rev (snd nm) (tm_rev (snd nm) ++ mirrors (all_fks ms) (fst nm))) (fun nm => with_rev (snd nm) (tm_rev (snd nm) ++ mirrors (all_fks ms') (fst nm)))); [exact Hl|apply Hok, Hl|apply Hok, Hl|].
    intros n m m' _ _ (Hst & Hf & Hr). cbn [fst snd]. split; [exact Hst|]. split; [exact Hf|]. cbn [with_rev tm_rev]. apply Permutation_app; [exact Hr|].
    unfold mirrors. apply Permutation_map, Permutation_filter. exact Ha.
  - assert (H1 : ~ (forall n fk, In (n, fk) (all_fks ms) -> In (fk_dst fk) (dkeys ms))) by (intros H; apply Hd; intros [n fk] Hin; exact (H n fk Hin)).
    rewrite (B1 H1), (B2 (fun H => H1 (proj2 Hiff H))). reflexivity.
Qed.

(** ** The query of a table *)
Lemma distinct_same t t' cols : same_table t t' -> is_distinct t cols = is_distinct t' cols.
Proof. intros (_ & _ & Hp & _ & Hu). unfold is_distinct. cbn [existsb]. rewrite Hp. f_equal. apply existsb_members. exact Hu. Qed.
Lemma joins_same ms ms' t t' fks : like_ms ms ms' -> same_table t t' -> fk_joins ms t fks = fk_joins ms' t' fks.
Proof.
  intros Hl Ht. unfold fk_joins. induction fks as [|fk fks IH]; [reflexivity|]. cbn [mapM]. rewrite IH. clear IH.
  pose proof (like_get (fk_dst fk) Hl) as Hg. unfold dfind.
  destruct (dget ms (fk_dst fk)) as [m|], (dget ms' (fk_dst fk)) as [m'|]; try contradiction; [|reflexivity].
  cbn [bind]. rewrite (distinct_same (fk_cols fk) Ht), (distinct_same (fk_dst_cols fk) (proj1 Hg)). reflexivity.
Qed.
Lemma plan_table_same cfg cfg' ms ms' m m' P tgt : config_ok cfg -> same_config cfg cfg' -> like_ms ms ms' -> like_m m m' ->
  plan_table cfg ms m P tgt = plan_table cfg' ms' m' P tgt.
Proof.
  intros [_ Hck] Hcfg Hl (Ht & Hf & Hr). unfold plan_table.
  rewrite (fk_sort_perm (Permutation_filter (fun fk => memb (fk_dst fk) P) Hf)), (fk_sort_perm (Permutation_filter (fun fk => memb (fk_dst fk) P) Hr)).
  set (fks := fk_sort (filter _ (tm_fks m'))). set (rev := fk_sort (filter _ (tm_rev m'))). clearbody fks rev.
  destruct (negb (is_nil fks || is_nil rev)); [reflexivity|]. destruct (negb _); [reflexivity|]. destruct (_ && _); [reflexivity|].
  rewrite (joins_same _ Hl Ht). destruct (fk_joins ms' _ _) as [joins|e]; cbn [bind]; [|reflexivity].
  assert (Hcc : dget_or (c_constraints cfg) (render (tb_name (tm_table m))) [] = dget_or (c_constraints cfg') (render (tb_name (tm_table m'))) []).
  { unfold dget_or. destruct Ht as (-> & _). destruct Hcfg as (_ & Hc & _). rewrite (@dget_perm _ _ _ _ _ (render (tb_name (tm_table m'))) Hc Hck). reflexivity. }
  rewrite Hcc. set (confs := dget_or (c_constraints cfg') _ _). clearbody confs.
  destruct (_ && _); [reflexivity|].
  assert (Hm : mapM (constraint_sql (tm_table m)) confs = mapM (constraint_sql (tm_table m')) confs).
  { destruct Ht as (_ & Hcols & _). induction confs as [|c cs IH]; [reflexivity|]. cbn [mapM]. rewrite IH. unfold constraint_sql. rewrite Hcols. reflexivity. }
  rewrite Hm. destruct Ht as (-> & _). reflexivity.
Qed.
Lemma plan_tables_same cfg cfg' ms ms' : config_ok cfg -> same_config cfg cfg' -> like_ms ms ms' ->
  forall order P q, plan_tables cfg ms order P q = plan_tables cfg' ms' order P q.
Proof.
  intros Hck Hcfg Hl. induction order as [|s order IH]; intros P q; [reflexivity|]. cbn [plan_tables].
  destruct (parse s) as [n|e]; cbn [bind]; [|reflexivity]. pose proof (like_get n Hl) as Hg. unfold dfind.
  destruct (dget ms n) as [m|], (dget ms' n) as [m'|]; try contradiction; [|reflexivity]. cbn [bind].
  rewrite (@plan_table_same _ _ _ _ _ _ (set_add n P) (dget (c_targets cfg) s) Hck Hcfg Hl Hg).
  rewrite (@dget_perm _ _ _ _ _ s (proj1 Hcfg) (proj1 Hck)).
  destruct (plan_table cfg' ms' m' _ _) as [tq|e]; cbn [bind]; [apply IH|reflexivity].
Qed.

(** ** Checks and order *)
Section Same.
Variables (fnm : string -> string -> bool) (cfg cfg' : config) (db db' : list table).
Hypothesis Hdb : db_ok db.
Hypothesis Hdb' : db_ok db'.
Hypothesis Hck : config_ok cfg.
Hypothesis Hcfg : same_config cfg cfg'.
Hypothesis Hch : same_choice fnm cfg db cfg' db'.

Lemma ignored_same n : ignored cfg n <-> ignored cfg' n.
Proof. unfold ignored. destruct Hcfg as (_ & _ & _ & Hi & _). split; intros (s & Hs & Hn); exists s; (split; [apply Hi; exact Hs|exact Hn]). Qed.
Lemma listed_same n : passthrough_listed cfg n <-> passthrough_listed cfg' n.
Proof. unfold passthrough_listed. destruct Hcfg as (_ & _ & _ & _ & Hi & _). split; intros (s & Hs & Hn); exists s; (split; [apply Hi; exact Hs|exact Hn]). Qed.
Lemma chosen_same n : chosen fnm cfg db n <-> chosen fnm cfg' db' n.
Proof. apply Hch. Qed.
Lemma active_same n : active fnm cfg db n <-> active fnm cfg' db' n.
Proof. unfold active. rewrite chosen_same, ignored_same, listed_same. reflexivity. Qed.
Lemma passed_same n : passed_through fnm cfg db n <-> passed_through fnm cfg' db' n.
Proof. unfold passed_through. rewrite chosen_same, listed_same. reflexivity. Qed.
Lemma target_keys_same s : In s (dkeys (c_targets cfg)) <-> In s (dkeys (c_targets cfg')).
Proof. destruct Hcfg as (Ht & _). split; apply Permutation_in; unfold dkeys; apply Permutation_map; [|symmetry]; exact Ht. Qed.
Lemma bad_target_same : bad_target fnm cfg db <-> bad_target fnm cfg' db'.
Proof.
  unfold bad_target. split; intros (s & Hs & Hne & Hb); exists s; (split; [apply target_keys_same; exact Hs|]); (split; [exact Hne|]);
    intros (n & Hn & Ha); apply Hb; exists n; (split; [exact Hn|apply active_same; exact Ha]).
Qed.

Section Edited.
Variables ms ms' : meta.
Hypothesis Hl : like_ms ms ms'.
Hypothesis Hed : edited fnm cfg db ms.
Hypothesis Hed' : edited fnm cfg' db' ms'.

Lemma considered_same n fk : considered fnm cfg db n fk <-> considered fnm cfg' db' n fk.
Proof.
  assert (Hg := like_get n Hl). split; intros Hc; pose proof (proj1 Hc) as Hn.
  - destruct (ed_get Hed Hn) as [m Hm]. rewrite (In_dget (proj1 (proj1 Hed)) Hm) in Hg. destruct (dget ms' n) as [m'|] eqn:E'; [|contradiction].
    apply dget_In in E'. apply (proj2 (proj2 Hed') n m' E'). eapply Permutation_in; [apply (proj1 (proj2 Hg))|]. apply (proj2 (proj2 Hed) n m Hm). exact Hc.
  - destruct (ed_get Hed' Hn) as [m' Hm']. rewrite (In_dget (proj1 (proj1 Hed')) Hm') in Hg. destruct (dget ms n) as [m|] eqn:E; [|contradiction].
    apply dget_In in E. apply (proj2 (proj2 Hed) n m E). eapply Permutation_in; [symmetry; apply (proj1 (proj2 Hg))|]. apply (proj2 (proj2 Hed') n m' Hm'). exact Hc.
Qed.
Lemma active_edge_same a b : active_edge fnm cfg db a b <-> active_edge fnm cfg' db' a b.
Proof.
  unfold active_edge. rewrite !active_same. split; intros (H1 & H2 & fk & H3 & H4); (split; [exact H1|]); (split; [exact H2|]); exists fk; (split; [apply considered_same; exact H3|exact H4]).
Qed.
Lemma into_ignored_same : into_ignored fnm cfg db <-> into_ignored fnm cfg' db'.
Proof.
  unfold into_ignored. split; intros (n & fk & H1 & H2 & H3); exists n, fk.
  - rewrite <- considered_same, <- !ignored_same. tauto.
  - rewrite considered_same, !ignored_same. tauto.
Qed.
Lemma out_of_passthrough_same : out_of_passthrough fnm cfg db <-> out_of_passthrough fnm cfg' db'.
Proof.
  unfold out_of_passthrough. split; intros (n & fk & H1 & H2 & H3); exists n, fk.
  - rewrite <- passed_same, <- considered_same, <- listed_same. tauto.
  - rewrite passed_same, considered_same, listed_same. tauto.
Qed.

Lemma solve_order_same ord ord' skip skip' : any_order ord -> any_order ord' ->
  (forall n, In n skip <-> passed_through fnm cfg db n \/ ignored cfg n) ->
  (forall n, In n skip' <-> passed_through fnm cfg' db' n \/ ignored cfg' n) ->
  solve_order ord cfg ms skip = solve_order ord' cfg' ms' skip'.
Proof.
  intros Hord Hord' Hskip Hskip'. destruct (@bad_target_dec fnm cfg db ms Hed skip Hskip) as [Hbt|Hbt].
  { rewrite (@solve_order_bad fnm cfg db Hdb ms Hed skip ord Hskip Hbt), (@solve_order_bad fnm cfg' db' Hdb' ms' Hed' skip' ord' Hskip' (proj1 bad_target_same Hbt)). reflexivity. }
  assert (Hbt' : ~ bad_target fnm cfg' db') by (intros H; apply Hbt, bad_target_same; exact H).
  assert (Hsame : same_graph (G cfg ms skip) (G cfg' ms' skip')).
  { split.
    - intros u. rewrite (@G_node fnm cfg db Hdb ms Hed skip Hskip u), (@G_node fnm cfg' db' Hdb' ms' Hed' skip' Hskip' u).
      split; (intros [H|(n & H1 & H2)]; [left; exact H|right; exists n; split; [exact H1|apply active_same; exact H2]]).
    - intros u v. rewrite (@G_edge fnm cfg db Hdb ms Hed skip Hskip u v), (@G_edge fnm cfg' db' Hdb' ms' Hed' skip' Hskip' u v), target_keys_same.
      split; (intros [H|(n & d & H1 & H2 & H3)]; [left; exact H|right; exists n, d; split; [exact H1|split; [exact H2|apply active_edge_same; exact H3]]]). }
  pose proof (order_graph_det Hord Hord' string_ltb_total (@G_ok fnm cfg db Hdb ms Hed skip Hskip Hbt) (@G_ok fnm cfg' db' Hdb' ms' Hed' skip' Hskip' Hbt') Hsame (@G_source fnm cfg db Hdb ms Hed skip Hskip)) as Hdet.
  pose proof (@solve_order_spec fnm cfg db Hdb ms Hed skip Hskip Hbt ord Hord) as H1.
  pose proof (@solve_order_spec fnm cfg' db' Hdb' ms' Hed' skip' Hskip' Hbt' ord' Hord') as H2.
  unfold solve_order, same_outcome in *. fold (G cfg ms skip) in H1 |- *. fold (G cfg' ms' skip') in H2 |- *.
  destruct (existsb (fun t => negb (dmem (G cfg ms skip) t)) _); [destruct H1 as [[_ H1]|(ns & H1 & _)]; discriminate|].
  destruct (existsb (fun t => negb (dmem (G cfg' ms' skip') t)) _); [destruct H2 as [[_ H2]|(ns & H2 & _)]; discriminate|].
  destruct (order_graph ord String.ltb _ "") as [l|e]; destruct (order_graph ord' String.ltb _ "") as [l'|e']; try contradiction; [congruence|].
  destruct H1 as [[_ H1]|(ns & H1 & _)]; [|destruct e; discriminate]. destruct H2 as [[_ H2]|(ns & H2 & _)]; [|destruct e'; discriminate].
  rewrite H1, H2. reflexivity.
Qed.
End Edited.

Theorem plan_same ord ord' ordp ordp' : any_order ord -> any_order ord' -> any_order ordp -> any_order ordp' ->
  same_plan (plan_db ord ordp fnm cfg db) (plan_db ord' ordp' fnm cfg' db').
Proof.
  intros Hord Hord' Hordp Hordp'. unfold same_plan, plan_db, plan_internal.
  destruct Hcfg as (Ctg & Ccn & Csel & Cign & Cpass & Cigf & Cex & Cinf & Cdep).
  destruct (mapM_parse (c_ignore cfg)) as [[Hi (ign & -> & Hign)]|[Hi ->]]; destruct (mapM_parse (c_ignore cfg')) as [[Hi' (ign' & -> & Hign')]|[Hi' ->]]; cbn [bind].
  2: { exfalso. apply Hi'. intros s Hs. apply Hi, Cign, Hs. }
  2: { exfalso. apply Hi. intros s Hs. apply Hi', Cign, Hs. }
  2: { reflexivity. }
  destruct (mapM_parse (c_passthrough cfg)) as [[Hp (pt & -> & Hpt)]|[Hp ->]]; destruct (mapM_parse (c_passthrough cfg')) as [[Hp' (pt' & -> & Hpt')]|[Hp' ->]]; cbn [bind].
  2: { exfalso. apply Hp'. intros s Hs. apply Hp, Cpass, Hs. }
  2: { exfalso. apply Hp. intros s Hs. apply Hp', Cpass, Hs. }
  2: { reflexivity. }
  destruct (from_engine_spec fnm (c_select cfg ++ c_passthrough cfg) (c_include_deps cfg) false Hdb) as (ms0 & extra & He & _ & Hn0 & _).
  destruct (from_engine_spec fnm (c_select cfg' ++ c_passthrough cfg') (c_include_deps cfg') false Hdb') as (ms0' & extra' & He' & _ & Hn0' & _).
  rewrite He, He'. cbn [of_meta bind fst].
  pose proof (engine_like Hdb Hdb' Hch He He') as Hl0. pose proof (edit_like Hcfg Hl0) as Hl.
  destruct (edit_fks cfg ms0) as [ms|e] eqn:Hms; destruct (edit_fks cfg' ms0') as [ms'|e'] eqn:Hms'; cbn [bind]; try contradiction; [|exact Hl].
  pose proof (@engine_edited fnm cfg db Hdb ms0 extra ms He Hms) as Hed.
  pose proof (@engine_edited fnm cfg' db' Hdb' ms0' extra' ms' He' Hms') as Hed'.
  assert (Hign1 : forall n, In n (set_of ign) <-> ignored cfg n) by (intros n; rewrite set_of_In; apply Hign).
  assert (Hpt1 : forall n, In n (set_of pt) <-> passthrough_listed cfg n) by (intros n; rewrite set_of_In; apply Hpt).
  assert (Hign1' : forall n, In n (set_of ign') <-> ignored cfg' n) by (intros n; rewrite set_of_In; apply Hign').
  assert (Hpt1' : forall n, In n (set_of pt') <-> passthrough_listed cfg' n) by (intros n; rewrite set_of_In; apply Hpt').
  assert (Hck1 : (if c_include_deps cfg then check_ignore_tables (set_of ign) ms else Ok tt) = (if c_include_deps cfg' then check_ignore_tables (set_of ign') ms' else Ok tt)).
  { rewrite Cdep. destruct (c_include_deps cfg'); [|reflexivity]. pose proof (into_ignored_same Hl Hed Hed') as Hii.
    destruct (check_ignore_spec Hed Hign1) as [[Ha ->]|[Ha ->]], (check_ignore_spec Hed' Hign1') as [[Hb ->]|[Hb ->]]; try reflexivity; tauto. }
  rewrite Hck1. clear Hck1. destruct (if c_include_deps cfg' then _ else _) as [?|e]; cbn [bind]; [|reflexivity].
  pose proof (out_of_passthrough_same Hl Hed Hed') as Hoo.
  destruct (check_pass_spec Hed Hpt1) as [[Hop ->]|[Hop ->]]; destruct (check_pass_spec Hed' Hpt1') as [[Hop' ->]|[Hop' ->]]; cbn [bind]; try tauto.
  pose proof (fun n => @pass_In fnm cfg db ms Hed (set_of pt) n Hpt1) as Hpass.
  pose proof (fun n => @pass_In fnm cfg' db' ms' Hed' (set_of pt') n Hpt1') as Hpass'.
  set (passl := filter (dmem ms) (set_of pt)) in *. set (passl' := filter (dmem ms') (set_of pt')) in *.
  assert (Hpassn : NoDup passl) by (apply NoDup_filter, set_of_NoDup). assert (Hpassn' : NoDup passl') by (apply NoDup_filter, set_of_NoDup). clearbody passl passl'.
  assert (Hpp : Permutation passl passl'). { apply NoDup_Permutation; [exact Hpassn|exact Hpassn'|]. intros n. rewrite Hpass, Hpass'. apply passed_same. }
  assert (Hskip : forall n, In n (set_union passl (set_of ign)) <-> passed_through fnm cfg db n \/ ignored cfg n).
  { intros n. rewrite set_union_In, Hpass, Hign1. reflexivity. }
  assert (Hskip' : forall n, In n (set_union passl' (set_of ign')) <-> passed_through fnm cfg' db' n \/ ignored cfg' n).
  { intros n. rewrite set_union_In, Hpass', Hign1'. reflexivity. }
  rewrite (solve_order_same Hl Hed Hed' Hord Hord' Hskip Hskip').
  destruct (solve_order ord' cfg' ms' _) as [order|e] eqn:Eo; cbn [bind]; [|reflexivity].
  pose proof (reverse_like Hl) as Hr.
  destruct (compute_reverse_keys ms) as [ms2|e]; destruct (compute_reverse_keys ms') as [ms2'|e']; try contradiction; [|subst e'; cbn [of_meta]; destruct e; reflexivity].
  cbn [of_meta bind].
  assert (Hnd : forall f : list tname -> list tname, any_order f -> forall pl, Permutation pl passl' -> NoDup (map render (f pl) ++ order) /\
     dkeys (dict_of (map (fun n => (render n, passthrough_query n)) (f pl))) = map render (f pl) /\
     dict_of (map (fun n => (render n, passthrough_query n)) (f pl)) = map (fun n => (render n, passthrough_query n)) (f pl)).
  { intros f Hf pl Hpl.
    assert (Hbt : ~ bad_target fnm cfg' db').
    { intros Hb. rewrite (@solve_order_bad fnm cfg' db' Hdb' ms' Hed' _ ord' Hskip' Hb) in Eo. discriminate. }
    destruct (@solve_order_spec fnm cfg' db' Hdb' ms' Hed' _ Hskip' Hbt ord' Hord') as [[_ E1]|(ns & E1 & Hg)]; [congruence|].
    assert (order = map render ns) by congruence. subst order. rewrite <- map_app.
    assert (Hfp : Permutation (f pl) passl') by (transitivity pl; [apply Hf|exact Hpl]).
    assert (Hfn : forall n, In n (f pl) <-> passed_through fnm cfg' db' n).
    { intros n. rewrite <- Hpass'. split; apply Permutation_in; [|symmetry]; exact Hfp. }
    assert (HN : NoDup (map render (f pl ++ ns))).
    { apply (@render_NoDup fnm cfg' db' Hdb').
      - apply NoDup_app_iff. split; [eapply Permutation_NoDup; [symmetry; exact Hfp|exact Hpassn']|]. split; [apply Hg|].
        intros n H1 H2. apply Hfn in H1. apply (ns_active Hg) in H2. destruct H1 as [_ H1], H2 as (_ & _ & H2). exact (H2 H1).
      - intros n Hin. apply in_app_iff in Hin. destruct Hin as [Hin|Hin]; [apply Hfn in Hin; apply Hin|apply (ns_active Hg) in Hin; apply Hin]. }
    split; [exact HN|].
    assert (Hd : dict_of (map (fun n => (render n, passthrough_query n)) (f pl)) = map (fun n => (render n, passthrough_query n)) (f pl)).
    { apply dict_of_nodup. rewrite map_map. cbn [fst]. rewrite map_app in HN. apply NoDup_app_iff in HN. apply HN. }
    rewrite Hd. split; [unfold dkeys; rewrite map_map; reflexivity|reflexivity]. }
  destruct (Hnd ordp Hordp passl Hpp) as (N1 & K1 & D1). destruct (Hnd ordp' Hordp' passl' (Permutation_refl _)) as (N2 & K2 & D2).
  rewrite <- K1 in N1. rewrite <- K2 in N2.
  rewrite (plan_tables_same Hck Hcfg Hr).
  pose proof (plan_tables_add cfg' ms2' order [] (dict_of (map (fun n => (render n, passthrough_query n)) (ordp passl)))) as A1.
  pose proof (plan_tables_add cfg' ms2' order [] (dict_of (map (fun n => (render n, passthrough_query n)) (ordp' passl')))) as A2.
  destruct (plan_tables cfg' ms2' order [] []) as [new|e]; [|rewrite A1, A2; reflexivity].
  destruct (A1 N1) as [-> _], (A2 N2) as [-> _]. cbn [bind p_queries p_passthrough].
  eexists; eexists; exists new. split; [reflexivity|]. split; [reflexivity|]. rewrite K1, K2. split; [|tauto].
  rewrite D1, D2. apply Permutation_map. transitivity passl; [apply Hordp|]. transitivity passl'; [exact Hpp|symmetry; apply Hordp'].
Qed.
End Same.

(** ** When two configurations choose the same tables *)
Lemma same_table_names db db' : Forall2 same_table db db' -> map tb_name db = map tb_name db'.
Proof. intros H. induction H as [|t t' l l' [Ht _] H IH]; cbn [map]; [reflexivity|congruence]. Qed.

Lemma reordered_choice fnm cfg cfg' db db' : db_ok db' -> same_config cfg cfg' -> same_schema db db' -> same_choice fnm cfg db cfg' db'.
Proof.
  intros Hdb' Hcfg (db1 & Hp & Hf).
  destruct Hcfg as (_ & _ & Csel & _ & Cpass & _ & _ & _ & Cdep).
  assert (Hto : forall n t, table_of db n t -> exists t', table_of db' n t' /\ same_table t t').
  { intros n t [Hin Hn]. apply (Permutation_in _ Hp) in Hin. clear Hp. induction Hf as [|a b l l' Hab Hf IH]; [destruct Hin|].
    destruct Hin as [->|Hin].
    - exists b. split; [|exact Hab]. split; [left; reflexivity|]. rewrite <- Hn. symmetry. apply Hab.
    - assert (Hx : exists t', table_of l' n t' /\ same_table t t').
      { clear -Hin Hf Hn. induction Hf as [|a b l l' Hab Hf IH]; [destruct Hin|]. destruct Hin as [->|Hin].
        - exists b. split; [|exact Hab]. split; [left; reflexivity|]. rewrite <- Hn. symmetry. apply Hab.
        - destruct (IH Hin) as (t' & [H1 H2] & H3). exists t'. split; [|exact H3]. split; [right; exact H1|exact H2]. }
      destruct Hx as (t' & [H1 H2] & H3). exists t'. split; [|exact H3]. split; [right; exact H1|exact H2]. }
  assert (Hfrom : forall n t', table_of db' n t' -> exists t, table_of db n t /\ same_table t t').
  { intros n t' [Hin Hn]. assert (Hx : exists t, In t db1 /\ same_table t t').
    { clear -Hf Hin. induction Hf as [|a b l l' Hab Hf IH]; [destruct Hin|]. destruct Hin as [->|Hin]; [exists a; split; [left; reflexivity|exact Hab]|].
      destruct (IH Hin) as (t & H1 & H2). exists t. split; [right; exact H1|exact H2]. }
    destruct Hx as (t & H1 & H2). exists t. split; [|exact H2]. split; [eapply Permutation_in; [symmetry; exact Hp|exact H1]|]. rewrite <- Hn. apply H2. }
  assert (Hpat : forall p, In p (c_select cfg ++ c_passthrough cfg) <-> In p (c_select cfg' ++ c_passthrough cfg')).
  { intros p. rewrite !in_app_iff. rewrite (Csel p), (Cpass p). reflexivity. }
  assert (Href : forall a b, references db a b <-> references db' a b).
  { intros a b. split; intros (t & fk & Ht & Hfk & Hd).
    - destruct (Hto a t Ht) as (t' & Ht' & Hst). exists t', fk. split; [exact Ht'|]. split; [|exact Hd]. eapply Permutation_in; [apply Hst|exact Hfk].
    - destruct (Hfrom a t Ht) as (t' & Ht' & Hst). exists t', fk. split; [exact Ht'|]. split; [|exact Hd]. eapply Permutation_in; [symmetry; apply Hst|exact Hfk]. }
  assert (Hpath : forall (R S : tname -> tname -> Prop) a b, (forall x y, R x y -> S x y) -> path0 R a b -> path0 S a b).
  { intros R S a b H Hab. induction Hab as [x y H0|x|x y z _ I1 _ I2]; [apply rt_step; apply H; exact H0|apply rt_refl|eapply rt_trans; eassumption]. }
  split.
  - intros n. unfold chosen, selected. rewrite <- Cdep. split; intros (m & (t & s & p & Ht & Hs & Hpp & Hm) & Hpa); exists m.
    + destruct (Hto m t Ht) as (t' & Ht' & _). split; [exists t', s, p; rewrite <- Hpat; tauto|]. eapply Hpath; [|exact Hpa].
      unfold follow. intros x y. rewrite !Href. tauto.
    + destruct (Hfrom m t Ht) as (t' & Ht' & _). split; [exists t', s, p; rewrite Hpat; tauto|]. eapply Hpath; [|exact Hpa].
      unfold follow. intros x y. rewrite !Href. tauto.
  - intros n t t' _ Ht Ht'. destruct (Hto n t Ht) as (t2 & Ht2 & Hst). rewrite (table_of_fun Hdb' Ht' Ht2). exact Hst.
Qed.

Lemma same_table_refl t : same_table t t.
Proof. unfold same_table, same_members. repeat split; auto. Qed.

(** Further tables that no pattern matches. *)
Lemma more_choice fnm cfg db db' more : db_ok db -> db_ok db' -> Permutation db' (db ++ more) ->
  (forall t p, In t more -> In p (c_select cfg ++ c_passthrough cfg) -> fnm (fst (tb_name t) ++ "." ++ snd (tb_name t))%string p = false) ->
  same_choice fnm cfg db cfg db'.
Proof.
  intros Hdb Hdb' Hp Hno.
  assert (Hin : forall t, In t db' <-> In t db \/ In t more).
  { intros t. rewrite <- in_app_iff. split; apply Permutation_in; [|symmetry]; exact Hp. }
  assert (Hdir : forall n t, table_of db n t -> table_of db' n t) by (intros n t [H1 H2]; split; [apply Hin; left; exact H1|exact H2]).
  split.
  - intros n. unfold chosen, selected. split.
    + intros (m & (t & s & p & Ht & Hs & Hpp & Hm) & Hpa). exists m. split; [exists t, s, p; split; [apply Hdir; exact Ht|tauto]|].
      clear -Hdir Hpa. induction Hpa as [x y H0|x|x y z _ I1 _ I2]; [apply rt_step|apply rt_refl|eapply rt_trans; eassumption].
      destruct H0 as [(H0 & t0 & fk & Ht0 & Hfk & Hd)|[H0 _]]; [|discriminate]. left. split; [exact H0|]. exists t0, fk. split; [apply Hdir; exact Ht0|tauto].
    + intros (m & (t & s & p & Ht & Hs & Hpp & Hm) & Hpa). exists m.
      assert (Htm : table_of db m t).
      { destruct Ht as [H1 H2]. apply Hin in H1. destruct H1 as [H1|H1]; [split; assumption|]. exfalso.
        specialize (Hno t p H1 Hpp). rewrite H2 in Hno. destruct Hs as [-> _]. congruence. }
      split; [exists t, s, p; split; [exact Htm|tauto]|].
      assert (Hgo : forall x y, path0 (follow db' (c_include_deps cfg) false) x y -> (exists t, table_of db x t) -> path0 (follow db (c_include_deps cfg) false) x y /\ exists t, table_of db y t).
      { intros x y H. induction H as [x y H0|x|x y z _ I1 _ I2].
        - intros [tx Htx]. destruct H0 as [(H0 & t0 & fk & Ht0 & Hfk & Hd)|[H0 _]]; [|discriminate].
          rewrite <- (table_of_fun Hdb' (Hdir _ _ Htx) Ht0) in Hfk.
          assert (Hfo : follow db (c_include_deps cfg) false x y) by (left; split; [exact H0|]; exists tx, fk; tauto).
          split; [apply rt_step; exact Hfo|]. eapply follow_table; eassumption.
        - intros Hx. split; [apply rt_refl|exact Hx].
        - intros Hx. destruct (I1 Hx) as [P1 Hy]. destruct (I2 Hy) as [P2 Hz]. split; [eapply rt_trans; eassumption|exact Hz]. }
      apply Hgo; [exact Hpa|exists t; exact Htm].
  - intros n t t' _ Ht Ht'. rewrite (table_of_fun Hdb' (Hdir _ _ Ht) Ht'). apply same_table_refl.
Qed.
Lemma same_config_refl cfg : same_config cfg cfg.
Proof. unfold same_config, same_members. repeat split; auto. Qed.
Lemma same_schema_ok db db' : db_ok db -> same_schema db db' -> db_ok db'.
Proof.
  intros [Hn Hok] (db1 & Hp & Hf).
  assert (Hfrom : forall t', In t' db' -> exists t, In t db /\ same_table t t').
  { intros t' Hin. assert (Hx : exists t, In t db1 /\ same_table t t').
    { clear -Hf Hin. induction Hf as [|a b l l' Hab Hf IH]; [destruct Hin|]. destruct Hin as [->|Hin]; [exists a; split; [left; reflexivity|exact Hab]|].
      destruct (IH Hin) as (t & H1 & H2). exists t. split; [right; exact H1|exact H2]. }
    destruct Hx as (t & H1 & H2). exists t. split; [eapply Permutation_in; [symmetry; exact Hp|exact H1]|exact H2]. }
  assert (Hto : forall t, In t db -> exists t', In t' db' /\ same_table t t').
  { intros t Hin. apply (Permutation_in _ Hp) in Hin. clear -Hf Hin. induction Hf as [|a b l l' Hab Hf IH]; [destruct Hin|].
    destruct Hin as [->|Hin]; [exists b; split; [left; reflexivity|exact Hab]|].
    destruct (IH Hin) as (t' & H1 & H2). exists t'. split; [right; exact H1|exact H2]. }
  split.
  - rewrite <- (same_table_names Hf). eapply Permutation_NoDup; [apply Permutation_map; exact Hp|exact Hn].
  - intros t' Hin'. destruct (Hfrom t' Hin') as (t & Hin & Hst). destruct (Hok t Hin) as (H1 & H2 & H3 & H4).
    pose proof Hst as (E1 & E2 & E3 & E4 & _). rewrite <- E1, <- E2, <- E3. repeat split; try assumption.
    + apply (Permutation_in _ (Permutation_sym E4)) in H. apply (H4 fk H).
    + apply (Permutation_in _ (Permutation_sym E4)) in H. apply (H4 fk H).
    + apply (Permutation_in _ (Permutation_sym E4)) in H. rewrite <- E2. apply (H4 fk H).
    + apply (Permutation_in _ (Permutation_sym E4)) in H. destruct (H4 fk H) as (_ & _ & _ & d & [Hd Hdn] & Hdi).
      destruct (Hto d Hd) as (d' & Hd' & Hsd). exists d'. destruct Hsd as (D1 & D2 & _). rewrite <- D2. split; [split; [exact Hd'|congruence]|exact Hdi].
Qed.
