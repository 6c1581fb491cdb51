(** Proofs about reverse_graph and toposort (solver.py:23-49, 110-122). *)
From Verif Require Import Model.Solver Proofs.GraphFacts.

Set Implicit Arguments.
Unset Strict Implicit.

Section Topo.
Context {N : Type} `{EqDec N}.
Variable ord : list N -> list N.
Hypothesis ord_perm : any_order ord.
Implicit Types (G RG : dict N (list N)) (u v x y : N).

Lemma ord_In l x : In x (ord l) <-> In x l.
Proof. split; apply Permutation_in; [|symmetry]; apply ord_perm. Qed.
Lemma ord_NoDup l : NoDup (ord l) <-> NoDup l.
Proof. split; apply Permutation_NoDup; [|symmetry]; apply ord_perm. Qed.

(** ** reverse_graph *)
Lemma rev_inner_spec u vs RG :
  (forall v, In v vs -> In v (dkeys RG)) ->
  exists RG', forM (fun RG v => let* s := dfind (@SKeyError N) RG v in
                                Ok (dset RG v (set_add u s))) vs RG = Ok RG' /\
    dkeys RG' = dkeys RG /\
    (forall a b, In b (adj RG' a) <-> In b (adj RG a) \/ (In a vs /\ b = u)) /\
    ((forall a, NoDup (adj RG a)) -> forall a, NoDup (adj RG' a)).
Proof.
  revert RG. induction vs as [|v vs IH]; intros RG Hk; cbn [forM].
  - exists RG. repeat split; auto; try tauto. intros [?|[[] _]]; auto.
  - destruct (key_dget (d := RG) (k := v)) as (s & Es); [apply Hk; now left|].
    rewrite (proj2 (dfind_Ok _ _ _ _) Es). cbn [bind].
    assert (Hkeys : dkeys (dset RG v (set_add u s)) = dkeys RG)
      by (apply dkeys_dset_old; eapply dget_Some_key; eauto).
    destruct (IH (dset RG v (set_add u s))) as (RG' & HE & Hkk & Hadj & Hnd).
    { intros w Hw. rewrite Hkeys. apply Hk. now right. }
    exists RG'. split; auto. split; [congruence|].
    assert (Ha : forall a, adj (dset RG v (set_add u s)) a = if eq_dec a v then set_add u s else adj RG a).
    { intros a. unfold adj, dget_or. rewrite dget_dset. now destruct (eq_dec a v). }
    split.
    + intros a b. rewrite Hadj, Ha. destruct (eq_dec a v) as [->|Hne].
      * rewrite set_add_In. unfold adj, dget_or at 1. rewrite Es. cbn. intuition congruence.
      * cbn. intuition congruence.
    + intros Hn. apply Hnd. intros a. rewrite Ha. destruct (eq_dec a v) as [->|]; auto.
      apply set_add_NoDup. rewrite <- (adj_dget Es). auto.
Qed.

Lemma rev_outer_spec G l RG :
  (forall u es v, In (u, es) l -> In v es -> In v (dkeys RG)) ->
  exists RG', forM (fun RG ue =>
          forM (fun RG v => let* s := dfind (@SKeyError N) RG v in
                            Ok (dset RG v (set_add (fst ue) s))) (ord (snd ue)) RG) l RG = Ok RG' /\
    dkeys RG' = dkeys RG /\
    (forall a b, In b (adj RG' a) <-> In b (adj RG a) \/ (exists es, In (b, es) l /\ In a es)) /\
    ((forall a, NoDup (adj RG a)) -> forall a, NoDup (adj RG' a)).
Proof.
  revert RG. induction l as [|[u es] l IH]; intros RG Hk; cbn [forM fst snd].
  - exists RG. repeat split; auto; try tauto. intros [?|(es & [] & _)]; auto.
  - destruct (@rev_inner_spec u (ord es) RG) as (RG1 & H1 & H2 & H3 & H4).
    { intros v Hv. rewrite ord_In in Hv. apply (Hk u es v); [now left|auto]. }
    rewrite H1. cbn [bind].
    destruct (IH RG1) as (RG2 & K1 & K2 & K3 & K4).
    { intros u' es' v Hi Hv. rewrite H2. eapply Hk; [right; eauto|auto]. }
    exists RG2. split; [auto|]. split; [congruence|]. split; [|auto].
    intros a b. rewrite K3, H3, ord_In. cbn. split.
    + intros [[?|[? ->]]|(es' & Hi & Ha)]; eauto.
    + intros [?|(es' & [E|Hi] & Ha)]; auto.
      * inv E. auto.
      * right. eauto.
Qed.

Theorem reverse_graph_spec G union : graph_ok G ->
  exists RG, reverse_graph ord G union = Ok RG /\ dkeys RG = dkeys G /\ graph_ok RG /\
    (forall u v, edge RG u v <-> edge G v u \/ (union = true /\ edge G u v)).
Proof.
  intros Hok. pose proof Hok as (Hn & Hs & Hc). unfold reverse_graph.
  set (RG0 := map (fun ue => (fst ue, if union then snd ue else [])) G).
  assert (Hk0 : dkeys RG0 = dkeys G) by (unfold RG0; apply dkeys_map_snd with (f := fun ue => if union then snd ue else [])).
  assert (Ha0 : forall a, adj RG0 a = if union then adj G a else []).
  { intros a. unfold adj, dget_or, RG0.
    rewrite dget_map_snd with (f := fun ue => if union then snd ue else []) by auto. cbn.
    destruct (dget G a), union; auto. }
  destruct (@rev_outer_spec G G RG0) as (RG & H1 & H2 & H3 & H4).
  { intros u es v Hi Hv. rewrite Hk0. apply (Hc u v). exists es; auto. }
  assert (HnR : NoDup (dkeys RG)) by congruence.
  assert (Hedge : forall u v, edge RG u v <-> edge G v u \/ (union = true /\ edge G u v)).
  { intros u v. rewrite edge_adj by auto. rewrite H3, Ha0.
    destruct union.
    - rewrite <- (edge_adj u v Hn). unfold edge. tauto.
    - cbn. unfold edge. intuition congruence. }
  exists RG. split; [exact H1|]. split; [congruence|]. split; [|exact Hedge].
  split; [auto|]. split.
  - intros u es Hi. rewrite <- (adj_In HnR Hi). apply H4. intros a. rewrite Ha0.
    destruct union; [now apply adj_NoDup|constructor].
  - intros u v Hv. unfold node. rewrite H2, Hk0. apply Hedge in Hv.
    destruct Hv as [Hv|[_ Hv]]; [eapply edge_node_l; eauto | eapply Hc; eauto].
Qed.

Corollary reverse_graph_false G : graph_ok G ->
  exists RG, reverse_graph ord G false = Ok RG /\ dkeys RG = dkeys G /\ graph_ok RG /\
    (forall u v, edge RG u v <-> edge G v u).
Proof.
  intros Hok. destruct (@reverse_graph_spec G false Hok) as (RG & H1 & H2 & H3 & H4).
  exists RG. repeat split; try apply H3; auto; intros Hx; [apply H4 in Hx | apply H4]; intuition congruence.
Qed.

(** ** toposort *)
Definition getz (d : dict N Z) v : Z := dget_or d v 0%Z.

Lemma topo_inner_spec vs deg q : NoDup vs -> (forall v, In v vs -> In v (dkeys deg)) ->
  exists deg', topo_inner vs deg q
    = Ok (deg', q ++ filter (fun v => getz deg v - 1 =? 0)%Z vs) /\
    dkeys deg' = dkeys deg /\
    (forall v, getz deg' v = if memb v vs then getz deg v - 1 else getz deg v)%Z.
Proof.
  revert deg q. induction vs as [|v vs IH]; intros deg q Hn Hk; cbn [topo_inner filter].
  - exists deg. cbn. rewrite app_nil_r. auto.
  - inv Hn. destruct (key_dget (d := deg) (k := v)) as (d & Ed); [apply Hk; now left|].
    rewrite (proj2 (dfind_Ok _ _ _ _) Ed). cbn [bind].
    assert (Hg : getz deg v = d) by (unfold getz, dget_or; now rewrite Ed).
    assert (Hkeys : dkeys (dset deg v (d - 1)%Z) = dkeys deg)
      by (apply dkeys_dset_old; eapply dget_Some_key; eauto).
    assert (Hgs : forall w, getz (dset deg v (d - 1)%Z) w = if eq_dec w v then (d - 1)%Z else getz deg w).
    { intros w. unfold getz, dget_or. rewrite dget_dset. now destruct (eq_dec w v). }
    destruct (IH (dset deg v (d - 1)%Z) (if (d - 1 =? 0)%Z then q ++ [v] else q)) as (deg' & E & Hk' & Hd'); auto.
    { intros w Hw. rewrite Hkeys. apply Hk. now right. }
    exists deg'. rewrite E. split; [|split; [congruence|]].
    + f_equal. f_equal. rewrite Hg.
      assert (Hf : filter (fun w => (getz (dset deg v (d - 1)) w - 1 =? 0)%Z) vs
                   = filter (fun w => (getz deg w - 1 =? 0)%Z) vs).
      { apply filter_ext_in. intros w Hw. rewrite Hgs.
        destruct (eq_dec w v) as [->|]; [contradiction|auto]. }
      rewrite Hf. destruct (d - 1 =? 0)%Z; auto. now rewrite <- app_assoc.
    + intros w. rewrite Hd', Hgs. cbn. unfold eqb. destruct (eq_dec w v) as [->|Hne].
      * cbn. rewrite (proj2 (memb_false v vs)) by auto. lia.
      * cbn. reflexivity.
Qed.

(** out-neighbours of [v] not yet in [done] *)
Definition pending G (done : list N) v : list N := filter (fun w => negb (memb w done)) (adj G v).

Lemma pending_step G done u v : graph_ok G -> ~ In u done ->
  length (pending G (done ++ [u]) v) = (length (pending G done v) - if memb u (adj G v) then 1 else 0)%nat
  /\ (In u (adj G v) -> 1 <= length (pending G done v)).
Proof.
  intros Hok Hu. unfold pending. pose proof (@adj_NoDup N _ G v Hok) as Hn. revert Hn.
  generalize (adj G v) as l. induction l as [|w l IH]; intros Hn; [cbn; split; auto; tauto|].
  inv Hn. destruct (IH H3) as [IH1 IH2]. rewrite memb_cons. cbn [filter In].
  destruct (eq_dec u w) as [->|Hne].
  - rewrite (proj2 (memb_false w done)) by auto.
    rewrite (proj2 (memb_true w (done ++ [w]))) by (rewrite in_app_iff; cbn; auto).
    rewrite eqb_refl. cbn [orb negb length].
    rewrite (proj2 (memb_false w l)) in IH1 by auto. split; lia.
  - rewrite (proj2 (eqb_false u w)) by auto. cbn [orb].
    replace (memb w (done ++ [u])) with (memb w done).
    2:{ destruct (memb w done) eqn:E; symmetry.
        - apply memb_true. apply memb_true in E. rewrite in_app_iff. auto.
        - apply memb_false. apply memb_false in E. rewrite in_app_iff. cbn. intuition congruence. }
    destruct (memb w done); cbn [negb length]; split; auto.
    + intros [?|?]; [congruence|auto].
    + destruct (memb u l) eqn:E; [apply memb_true in E; specialize (IH2 E)|]; lia.
    + intros [?|?]; [congruence|lia].
Qed.

Record topo_inv G (deg : dict N Z) (done q : list N) : Prop := {
  ti_keys : dkeys deg = dkeys G;
  ti_nodup : NoDup q;
  ti_prefix : exists rest, q = done ++ rest;
  ti_deg : forall v, node G v -> getz deg v = Z.of_nat (length (pending G done v));
  ti_q : forall v, In v q <-> node G v /\ pending G done v = [];
  ti_topo : forall v w, In v q -> edge G v w -> before q w v
}.

Lemma pending_nil_done G done v w : graph_ok G -> pending G done v = [] -> edge G v w -> In w done.
Proof.
  intros Hok Hp He. apply edge_adj in He; [|apply Hok].
  destruct (In_dec' w done) as [|Hn]; auto. exfalso.
  assert (Hi : In w (pending G done v)).
  { unfold pending. apply filter_In. split; auto. now rewrite (proj2 (memb_false w done)). }
  rewrite Hp in Hi. inv Hi.
Qed.

Lemma topo_inv_step G RG deg done u rest :
  graph_ok G -> dkeys RG = dkeys G -> graph_ok RG -> (forall a b, edge RG a b <-> edge G b a) ->
  topo_inv G deg done (done ++ u :: rest) ->
  exists vs deg' q', dget RG u = Some vs /\ topo_inner (ord vs) deg (done ++ u :: rest) = Ok (deg', q') /\
    topo_inv G deg' (done ++ [u]) q'.
Proof.
  intros Hok HkR HokR HeR [Hk Hnd _ Hdeg Hq Htopo].
  set (q := done ++ u :: rest) in *.
  assert (Hu : node G u). { apply Hq. unfold q. rewrite in_app_iff. right. now left. }
  assert (Hud : ~ In u done) by (apply (In_split_NoDup Hnd)).
  exists (adj RG u). assert (HRu : dget RG u = Some (adj RG u)).
  { apply adj_dget'. unfold node. now rewrite HkR. }
  assert (HRin : forall v, In v (adj RG u) <-> In u (adj G v)).
  { intros v. rewrite <- edge_adj by apply HokR. rewrite HeR. apply edge_adj, Hok. }
  destruct (@topo_inner_spec (ord (adj RG u)) deg q) as (deg' & E & Hk' & Hd').
  { apply ord_NoDup. now apply adj_NoDup. }
  { intros v Hv. rewrite ord_In in Hv. rewrite Hk, <- HkR.
    apply edge_adj in Hv; [|apply HokR]. exact (edge_node_r HokR Hv). }
  set (new := filter (fun v => (getz deg v - 1 =? 0)%Z) (ord (adj RG u))) in *.
  exists deg', (q ++ new). split; [auto|]. split; [exact E|].
  assert (Hdeg' : forall v, node G v -> getz deg' v = Z.of_nat (length (pending G (done ++ [u]) v))).
  { intros v Hv. rewrite Hd', (Hdeg v Hv).
    destruct (@pending_step G done u v Hok Hud) as [H1 H2].
    destruct (memb v (ord (adj RG u))) eqn:Em.
    - rewrite memb_true, ord_In, HRin in Em. specialize (H2 Em).
      rewrite (proj2 (memb_true _ _) Em) in H1. lia.
    - apply memb_false in Em. rewrite ord_In, HRin in Em.
      rewrite (proj2 (memb_false _ _) Em) in H1. lia. }
  assert (Hnew : forall v, In v new <-> node G v /\ pending G done v <> [] /\ pending G (done ++ [u]) v = []).
  { intros v. unfold new. rewrite filter_In, ord_In, HRin, Z.eqb_eq.
    destruct (@pending_step G done u v Hok Hud) as [H1 H2]. split.
    - intros [Hi Hz]. assert (Hv : node G v) by (eapply edge_node_l; apply edge_adj; [apply Hok|eauto]).
      specialize (H2 Hi). rewrite (proj2 (memb_true _ _) Hi) in H1. rewrite Hdeg in Hz by auto.
      split; auto. split.
      + intros E0. rewrite E0 in H2. cbn in H2. lia.
      + apply length_zero_iff_nil. lia.
    - intros (Hv & Hne & Hz). rewrite Hdeg by auto.
      assert (Hl : length (pending G done v) <> 0%nat) by (intros E0; apply length_zero_iff_nil in E0; auto).
      rewrite Hz in H1. cbn in H1. destruct (memb u (adj G v)) eqn:Em; [|lia].
      apply memb_true in Em. split; auto. lia. }
  constructor.
  - congruence.
  - apply NoDup_app_iff. split; [auto|]. split.
    + apply NoDup_filter, ord_NoDup, adj_NoDup, HokR.
    + intros x Hx Hx'. apply Hnew in Hx'. apply Hq in Hx. tauto.
  - exists (rest ++ new). unfold q. now rewrite <- !app_assoc, <- app_comm_cons.
  - exact Hdeg'.
  - intros v. rewrite in_app_iff, Hq, Hnew.
    destruct (@pending_step G done u v Hok Hud) as [H1 H2].
    assert (Hmono : pending G done v = [] -> pending G (done ++ [u]) v = []).
    { intros E0. apply length_zero_iff_nil. rewrite E0 in H1. cbn in H1. lia. }
    split; [tauto|]. intros [Hv Hz]. destruct (pending G done v) eqn:E0; [auto|].
    right. repeat split; auto. congruence.
  - intros v w Hv He. apply in_app_iff in Hv. destruct Hv as [Hv|Hv].
    + apply before_app_r. eauto.
    + apply before_cross; auto. apply Hnew in Hv. destruct Hv as (_ & _ & Hz).
      pose proof (pending_nil_done Hok Hz He) as Hd. unfold q.
      apply in_app_iff in Hd. apply in_app_iff. destruct Hd as [Hd|[->|[]]]; cbn; auto.
Qed.

Lemma topo_loop_spec G RG : graph_ok G -> dkeys RG = dkeys G -> graph_ok RG ->
  (forall a b, edge RG a b <-> edge G b a) ->
  forall fuel deg done q,
  topo_inv G deg done q -> fuel + length done = S (length G) ->
  exists deg' q', topo_loop ord fuel (length done) RG deg q = Ok q' /\ topo_inv G deg' q' q'.
Proof.
  intros Hok HkR HokR HeR. induction fuel as [|f IH]; intros deg done q Hinv Hfuel.
  - exfalso. destruct Hinv as [_ Hnd (rest & ->) _ Hq _].
    assert (Hl : length (done ++ rest) <= length G).
    { apply graph_ok_size; auto. intros x Hx. now apply Hq. }
    rewrite app_length in Hl. cbn in Hfuel. lia.
  - pose proof Hinv as [_ _ (rest & ->) _ _ _]. cbn [topo_loop]. destruct rest as [|u rest].
    + rewrite app_nil_r in *. rewrite (proj2 (nth_error_None done (length done))) by lia.
      exists deg, done. auto.
    + rewrite nth_error_app2 by lia. rewrite Nat.sub_diag. cbn [nth_error].
      destruct (@topo_inv_step G RG deg done u rest) as (vs & deg' & q' & Hvs & Hin & Hinv'); auto.
      rewrite (proj2 (dfind_Ok _ _ _ _) Hvs). cbn [bind]. rewrite Hin. cbn [bind fst snd].
      replace (S (length done)) with (length (done ++ [u])) by (rewrite app_length; cbn; lia).
      apply IH with (done := done ++ [u]); auto. rewrite app_length. cbn. lia.
Qed.

Lemma topo_init G : graph_ok G ->
  topo_inv G (map (fun ue => (fst ue, Z.of_nat (length (snd ue)))) G) []
    (map fst (filter (fun ue => is_nil (snd ue)) G)).
Proof.
  intros Hok. pose proof Hok as (Hn & _ & _).
  assert (Hp : forall v, pending G [] v = adj G v).
  { intros v. unfold pending. induction (adj G v) as [|a l IH]; auto. cbn in *. now rewrite IH. }
  assert (Hq : forall v, In v (map fst (filter (fun ue => is_nil (snd ue)) G)) <-> node G v /\ pending G [] v = []).
  { intros v. rewrite Hp, in_map_iff. split.
    - intros ([u es] & <- & Hf). apply filter_In in Hf. cbn in *. destruct Hf as [Hi He].
      split; [change u with (fst (u, es)); now apply in_map|].
      rewrite (adj_In Hn Hi). now destruct es.
    - intros [Hv Ha]. apply adj_dget' in Hv. rewrite Ha in Hv. apply dget_In in Hv.
      exists (v, []). split; auto. apply filter_In. auto. }
  constructor.
  - apply dkeys_map_snd with (f := fun ue => Z.of_nat (length (snd ue))).
  - clear - Hn. unfold dkeys in Hn. induction G as [|[u es] G IH]; cbn; [constructor|].
    inv Hn. destruct (is_nil es); cbn; auto. constructor; auto.
    intros Hi. apply H1. apply in_map_iff in Hi. destruct Hi as (p & <- & Hp).
    apply filter_In in Hp. now apply in_map.
  - eexists. reflexivity.
  - intros v Hv. rewrite Hp. unfold getz, dget_or.
    rewrite dget_map_snd with (f := fun ue => Z.of_nat (length (snd ue))) by auto.
    now rewrite (@adj_dget' N _ G v Hv).
  - exact Hq.
  - intros v w Hv He. apply Hq in Hv. destruct Hv as [_ Hv].
    pose proof (pending_nil_done Hok Hv He) as [].
Qed.

Theorem toposort_spec G : graph_ok G ->
  (exists q, toposort ord G = Ok q /\ Permutation q (dkeys G) /\
             (forall v w, edge G v w -> before q w v) /\
             (forall x, ~ path (edge G) x x))
  \/ (toposort ord G = Err (@SValueError N) /\ exists x, path (edge G) x x).
Proof.
  intros Hok. pose proof Hok as (Hn & _ & _). unfold toposort.
  destruct (@reverse_graph_false G Hok) as (RG & HR & HkR & HokR & HeR).
  rewrite HR. cbn [bind].
  destruct (@topo_loop_spec G RG Hok HkR HokR HeR (S (length G))
              (map (fun ue => (fst ue, Z.of_nat (length (snd ue)))) G) []
              (map fst (filter (fun ue => is_nil (snd ue)) G)))
    as (deg' & q & E & Hinv).
  { now apply topo_init. }
  { cbn. lia. }
  cbn [length] in E. rewrite E. cbn [bind]. destruct Hinv as [_ Hnd _ _ Hq Htopo].
  assert (Hincl : incl q (dkeys G)) by (intros x Hx; apply Hq in Hx; apply Hx).
  assert (HlenG : length (dkeys G) = length G) by (unfold dkeys; apply map_length).
  destruct (Nat.ltb (length q) (length G)) eqn:El.
  - right. split; auto. apply Nat.ltb_lt in El.
    set (rest := filter (fun x => negb (memb x q)) (dkeys G)).
    assert (Hrest : forall x, In x rest <-> node G x /\ ~ In x q).
    { intros x. unfold rest. now rewrite filter_In, negb_true_iff, memb_false. }
    destruct (@finite_cycle N _ (length rest) (edge G) rest eq_refl) as (x & _ & Hx); eauto.
    + intros E0. assert (Hi : incl (dkeys G) q).
      { intros x Hx. destruct (In_dec' x q); auto. exfalso.
        assert (In x rest) by (apply Hrest; auto). rewrite E0 in *. auto. }
      apply NoDup_incl_length in Hi; auto. lia.
    + intros x Hx. apply Hrest in Hx. destruct Hx as [Hx Hxq].
      destruct (pending G q x) as [|y l] eqn:Ep.
      { exfalso. apply Hxq. apply Hq. auto. }
      assert (Hy : In y (pending G q x)) by (rewrite Ep; now left).
      unfold pending in Hy. apply filter_In in Hy. destruct Hy as [Hy Hyq].
      apply negb_true_iff, memb_false in Hyq. apply edge_adj in Hy; [|auto].
      exists y. split; auto. apply Hrest. split; auto. eapply edge_node_r; eauto.
  - left. apply Nat.ltb_ge in El. exists q. split; auto.
    assert (Hi : incl (dkeys G) q).
    { apply NoDup_length_incl; auto. lia. }
    assert (Hord : forall v w, edge G v w -> before q w v).
    { intros v w He. apply Htopo; auto. apply Hi. eapply edge_node_l; eauto. }
    split; [|split; auto].
    + apply NoDup_Permutation; auto. intros x. split; auto.
    + intros x Hx. apply path_flip in Hx.
      eapply before_irrefl; [exact Hnd|].
      eapply order_acyclic with (R := fun a b => edge G b a); eauto.
Qed.
End Topo.

(** When edges leave the node set. *)
Section ReverseFails.
Context {N : Type} `{EqDec N}.
Variable ord : list N -> list N.
Hypothesis ord_perm : any_order ord.

Lemma rev_inner_out u vs (RG : dict N (list N)) :
  match forM (fun RG v => let* s := dfind (@SKeyError N) RG v in
                          Ok (dset RG v (set_add u s))) vs RG with
  | Ok RG' => dkeys RG' = dkeys RG /\ (forall v, In v vs -> In v (dkeys RG))
  | Err e => e = SKeyError
  end.
Proof.
  revert RG. induction vs as [|v vs IH]; intros RG; cbn [forM].
  - split; auto. intros v [].
  - unfold dfind. destruct (dget RG v) as [s|] eqn:Es; cbn [bind]; auto.
    specialize (IH (dset RG v (set_add u s))).
    assert (Hk : dkeys (dset RG v (set_add u s)) = dkeys RG)
      by (apply dkeys_dset_old; eapply dget_Some_key; eauto).
    destruct forM; auto. destruct IH as [IH1 IH2]. split; [congruence|].
    intros w [<-|Hw]; [eapply dget_Some_key; eauto|]. rewrite <- Hk. auto.
Qed.
Lemma rev_outer_out l (RG : dict N (list N)) :
  match forM (fun RG ue =>
          forM (fun RG v => let* s := dfind (@SKeyError N) RG v in
                            Ok (dset RG v (set_add (fst ue) s))) (ord (snd ue)) RG) l RG with
  | Ok RG' => dkeys RG' = dkeys RG /\ (forall u es v, In (u, es) l -> In v es -> In v (dkeys RG))
  | Err e => e = SKeyError
  end.
Proof.
  revert RG. induction l as [|[u es] l IH]; intros RG; cbn [forM fst snd].
  - split; auto. intros u es v [].
  - pose proof (rev_inner_out u (ord es) RG) as Hi.
    destruct (forM _ (ord es) RG) as [RG1|e]; cbn [bind]; auto.
    destruct Hi as [H1 H2]. specialize (IH RG1). destruct forM; auto.
    destruct IH as [K1 K2]. split; [congruence|].
    intros u' es' v [E|Hi] Hv; [inv E|].
    + apply H2. now apply (ord_In ord_perm).
    + rewrite <- H1. eauto.
Qed.
Lemma reverse_graph_fails (G : dict N (list N)) union :
  NoDup (dkeys G) -> (exists u v, edge G u v /\ ~ node G v) -> reverse_graph ord G union = Err SKeyError.
Proof.
  intros Hn (u & v & (es & Hi & Hv) & Hnode). unfold reverse_graph.
  pose proof (rev_outer_out G (map (fun ue => (fst ue, if union then snd ue else [])) G)) as Ho.
  match type of Ho with match ?x with _ => _ end => destruct x eqn:E end;
    [|now subst]. exfalso. apply Hnode. destruct Ho as [_ Ho].
  specialize (Ho u es v Hi Hv). unfold node.
  rewrite dkeys_map_snd with (f := fun ue => if union then snd ue else []) in Ho. exact Ho.
Qed.
End ReverseFails.
