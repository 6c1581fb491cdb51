(** Proofs about order_graph (solver.py:125-168). *)
From Verif Require Import Model.Solver Proofs.GraphFacts Proofs.SolverTopo Proofs.SolverDfs.

Set Implicit Arguments.
Unset Strict Implicit.

Section Flip.
Context {N : Type}.
Implicit Types (G RG : dict N (list N)) (u v : N).
Definition rev_of G RG : Prop := forall u v, edge RG u v <-> edge G v u.
Lemma weak_flip G RG u v : rev_of G RG -> weakly_connected G u v -> weakly_connected RG u v.
Proof.
  intros Hr Hp. induction Hp as [a b Hab| |]; [|apply rt_refl|eapply rt_trans; eauto].
  apply rt_step. unfold weak_edge, rev_of in *. rewrite !Hr. tauto.
Qed.
Lemma rev_sym G RG : rev_of G RG -> rev_of RG G.
Proof. intros Hr u v. rewrite (Hr v u). tauto. Qed.

End Flip.

Section Order.
Context {N : Type} `{EqDec N}.
Variable ord : list N -> list N.
Hypothesis ord_perm : any_order ord.
Variable nlt : N -> N -> bool.
Variable s : N.
Implicit Types (G RG : dict N (list N)) (u v x y : N).

Definition acyclic_in G (l : list N) : Prop :=
  forall x, ~ path (fun a b => edge G a b /\ (In a l /\ a <> s) /\ (In b l /\ b <> s)) x x.

Record oinv G (vis hd result : list N) : Prop := {
  oi_nd : NoDup result;
  oi_hd : exists l, result = s :: l;
  oi_vis : forall x, In x vis <-> In x result;
  oi_visnd : NoDup vis;
  oi_node : forall x, In x vis -> node G x;
  oi_sub : forall x, In x hd -> In x vis;
  oi_in : forall x y, In x vis -> edge G y x -> In y vis;
  oi_out : forall x y, In x vis -> ~ In x hd -> edge G x y -> In y vis;
  oi_conn : forall x, In x vis -> weakly_connected G s x;
  oi_one : exactly_one_direction G s result;
  oi_acyc : acyclic_in G result
}.


Lemma one_flip G RG l : rev_of G RG -> exactly_one_direction G s l -> exactly_one_direction RG s l.
Proof.
  intros Hr Ho u Hu Hs. specialize (Ho u Hu Hs).
  assert (H1 : has_parent_side RG l u <-> has_child_side G l u).
  { split; intros (v & Hv & Hb); exists v; split; auto; now apply Hr. }
  assert (H2 : has_child_side RG l u <-> has_parent_side G l u).
  { split; intros (v & Hv & Hb); exists v; split; auto; now apply Hr. }
  tauto.
Qed.
Lemma acyc_flip G RG l : rev_of G RG -> acyclic_in G l -> acyclic_in RG l.
Proof.
  intros Hr Ha x Hp. apply (Ha x). apply path_flip in Hp. revert Hp. apply path_mono.
  intros a b (He & Hb & Hc). repeat split; try tauto. now apply Hr.
Qed.

Definition good G (l : list N) : Prop :=
  NoDup l /\ (exists l', l = s :: l') /\ (forall x, In x l <-> weakly_connected G s x) /\
  exactly_one_direction G s l /\ acyclic_in G l.
Definition bad G RG (c : list N) : Prop :=
  (is_cycle (edge G) c \/ is_cycle (edge RG) c) /\
  (forall x, In x c -> x <> s /\ weakly_connected G s x).

Lemma good_flip G RG l : rev_of G RG -> good G l -> good RG l.
Proof.
  intros Hr (H1 & H2 & H3 & H4 & H5). split; [auto|]. split; [auto|]. split; [|split].
  - intros x. rewrite H3. split; apply weak_flip; auto. now apply rev_sym.
  - eapply one_flip; eauto.
  - eapply acyc_flip; eauto.
Qed.
Lemma bad_flip G RG c : rev_of G RG -> bad G RG c -> bad RG G c.
Proof.
  intros Hr (H1 & H2). split; [tauto|]. intros x Hx. destruct (H2 x Hx). split; auto.
  eapply weak_flip; eauto.
Qed.

Lemma chain_mono (R S : N -> N -> Prop) l : forall x, (forall a b, R a b -> S a b) -> chain R x l -> chain S x l.
Proof. induction l as [|y l IH]; intros x Hi; cbn; auto. intros [? ?]. split; auto. Qed.
Lemma is_cycle_mono (R S : N -> N -> Prop) c : (forall a b, R a b -> S a b) -> is_cycle R c -> is_cycle S c.
Proof. destruct c as [|x l]; cbn; auto. intros Hi [? ?]. split; auto. eapply chain_mono; eauto. Qed.

Lemma order_step G RG vis hd result hd' :
  graph_ok G -> dkeys RG = dkeys G -> rev_of G RG -> oinv G vis hd result ->
  (forall x, In x hd' <-> reachable_avoiding G hd vis x) -> NoDup hd' ->
  (forall x y, In x hd' -> edge_avoiding G vis x y -> before hd' x y) ->
  (forall x, reachable_avoiding G hd vis x -> ~ path (edge_avoiding G vis) x x) ->
  oinv RG (set_update vis hd') hd' (result ++ hd').
Proof.
  intros Hok HkR Hr [Hnd Hhd Hvis Hvnd Hnode Hsub Hin Hout Hconn Hone Hac] Hreach Hnd' Htopo Hacyc.
  assert (Hs : In s vis). { destruct Hhd as (l & ->). apply Hvis. now left. }
  assert (Hnew : forall x, In x hd' -> ~ In x vis).
  { intros x Hx. apply Hreach in Hx. destruct Hx as (h & _ & Hp). apply path_last in Hp.
    destruct Hp as (z & [_ Hz] & _). auto. }
  assert (Hpred : forall x, In x hd' -> exists z, edge G z x /\ (In z hd \/ (In z hd' /\ before hd' z x))).
  { intros x Hx. apply Hreach in Hx. destruct Hx as (h & Hh & Hp). apply path_last in Hp.
    destruct Hp as (z & Hz & [->|Hp]).
    - exists h. split; [apply Hz|auto].
    - exists z. split; [apply Hz|]. right. assert (Hz' : In z hd') by (apply Hreach; exists h; auto).
      split; auto. }
  assert (Hsu : forall x, In x (set_update vis hd') <-> In x vis \/ In x hd') by (intros; apply set_update_In).
  assert (Hndall : NoDup (result ++ hd')).
  { apply NoDup_app_iff. split; [auto|]. split; auto. intros x Hx Hx'. apply Hvis in Hx. eapply Hnew; eauto. }
  assert (Hout' : forall x y, In x (set_update vis hd') -> edge G x y -> In y (set_update vis hd')).
  { intros x y Hx He. apply Hsu. apply Hsu in Hx.
    destruct (In_dec' y vis) as [|Hy]; auto. right. destruct Hx as [Hx|Hx].
    - destruct (In_dec' x hd) as [Hxh|Hxh].
      + apply Hreach. exists x. split; auto. apply t_step. split; auto.
      + exfalso. apply Hy. eapply Hout; eauto.
    - apply Hreach in Hx. destruct Hx as (h & Hh & Hp). apply Hreach. exists h. split; auto.
      eapply t_trans; [exact Hp|]. apply t_step. split; auto. }
  assert (Hback : forall x y, In x hd' -> edge G x y -> In y vis -> False).
  { intros x y Hx He Hy. apply (Hnew x Hx). eapply Hin; eauto. }
  constructor; auto.
  - destruct Hhd as (l & ->). exists (l ++ hd'). reflexivity.
  - intros x. rewrite Hsu, in_app_iff, Hvis. tauto.
  - now apply set_update_NoDup.
  - intros x Hx. unfold node. rewrite HkR. apply Hsu in Hx. destruct Hx as [Hx|Hx]; auto.
    + now apply Hnode.
    + destruct (Hpred x Hx) as (z & Hz & _). apply (edge_node_r Hok Hz).
  - intros x Hx. apply Hsu. auto.
  - intros x y Hx He. apply Hr in He. eapply Hout'; eauto.
  - intros x y Hx Hn He. apply Hr in He. apply Hsu in Hx. apply Hsu. destruct Hx as [Hx|]; [|tauto]. left. eauto.
  - intros x Hx. apply weak_flip with (G := G); auto. apply Hsu in Hx. destruct Hx as [Hx|Hx]; auto.
    apply Hreach in Hx. destruct Hx as (h & Hh & Hp). eapply rt_trans; [apply Hconn, Hsub, Hh|].
    apply path0_cases. right. revert Hp. apply path_mono. intros a b [? _]. now left.
  - apply one_flip with (G := G); auto. intros u Hu Hus. apply in_app_iff in Hu. destruct Hu as [Hu|Hu].
    + assert (Hpos : forall v, before (result ++ hd') v u <-> before result v u).
      { intros v. split; [|apply before_app_r]. intros Hb.
        apply before_app_inv in Hb. destruct Hb as [Hb|[[_ Hb]|Hb]]; auto; exfalso.
        - apply (Hnew _ Hb). now apply Hvis.
        - apply before_In_r in Hb. apply (Hnew _ Hb). now apply Hvis. }
      assert (Hps : has_parent_side G (result ++ hd') u <-> has_parent_side G result u).
      { split; intros (v & Hv & Hb); exists v; split; auto; now apply Hpos. }
      assert (Hcs : has_child_side G (result ++ hd') u <-> has_child_side G result u).
      { split; intros (v & Hv & Hb); exists v; split; auto; now apply Hpos. }
      rewrite Hps, Hcs. now apply Hone.
    + left. split.
      * destruct (Hpred u Hu) as (z & Hz & [Hzh|[Hz' Hb]]); exists z; split; auto.
        -- apply before_cross; auto. now apply Hvis, Hsub.
        -- now apply before_app_l.
      * intros (v & Hv & Hb).
        assert (Hvin : In v vis \/ In v hd').
        { apply before_In_l, in_app_iff in Hb. rewrite Hvis. tauto. }
        destruct Hvin as [Hvin|Hvin]; [eapply Hback; eauto|].
        assert (Huv : before hd' u v) by (apply Htopo; auto; split; auto).
        eapply before_antisym; [exact Hndall|exact Hb|]. now apply before_app_l.
  - apply acyc_flip with (G := G); auto. intros x Hp.
    assert (Hx : In x vis \/ In x hd').
    { apply path_first in Hp. destruct Hp as (z & (_ & [Hx _] & _) & _). rewrite in_app_iff, <- Hvis in Hx. auto. }
    destruct Hx as [Hx|Hx].
    + (* everything that reaches vis is in vis *)
      apply (Hac x).
      assert (Hg : forall a b, path (fun a b => edge G a b /\ (In a (result ++ hd') /\ a <> s) /\ In b (result ++ hd') /\ b <> s) a b ->
                In b vis -> In a vis /\ path (fun a b => edge G a b /\ (In a result /\ a <> s) /\ In b result /\ b <> s) a b).
      { intros a b Hab. induction Hab as [a b (He & [Ha Has] & [Hb Hbs])|a b c H1 IH1 H2 IH2]; intros Hbv.
        - assert (In a vis) by eauto. split; auto. apply t_step. rewrite <- !Hvis. auto.
        - destruct (IH2 Hbv) as [Hb Hp2]. destruct (IH1 Hb) as [Ha Hp1]. split; auto. eapply t_trans; eauto. }
      apply (Hg x x Hp Hx).
    + apply (Hacyc x); [now apply Hreach|].
      assert (Hg : forall a b, path (fun a b => edge G a b /\ (In a (result ++ hd') /\ a <> s) /\ In b (result ++ hd') /\ b <> s) a b ->
                In a hd' -> In b hd' /\ path (edge_avoiding G vis) a b).
      { intros a b Hab. induction Hab as [a b (He & [Ha Has] & [Hb Hbs])|a b c H1 IH1 H2 IH2]; intros Hah.
        - assert (Hbn : ~ In b vis) by (intros Hbv; eapply Hback; eauto).
          split; [|apply t_step; split; auto].
          rewrite in_app_iff, <- Hvis in Hb. tauto.
        - destruct (IH1 Hah) as [Hb Hp1]. destruct (IH2 Hb) as [Hc Hp2]. split; auto. eapply t_trans; eauto. }
      apply (Hg x x Hp Hx).
Qed.

Lemma order_loop_spec : forall fuel G RG vis hd result,
  graph_ok G -> graph_ok RG -> dkeys RG = dkeys G -> rev_of G RG -> oinv G vis hd result ->
  1 <= fuel -> (hd <> [] -> length G + 3 <= fuel + length vis) ->
  (exists l, order_loop ord nlt fuel G RG vis hd result = Ok l /\ good G l)
  \/ (exists c, order_loop ord nlt fuel G RG vis hd result = Err (CycleExn c) /\ bad G RG c).
Proof.
  induction fuel as [|f IH]; intros G RG vis hd result Hok HokR HkR Hr Hinv Hf1 Hf; [lia|].
  cbn [order_loop]. destruct hd as [|h hd].
  - left. exists result. split; auto. destruct Hinv as [Hnd Hhd Hvis Hvnd Hnode Hsub Hin Hout Hconn Hone Hac].
    split; [auto|]. split; [auto|]. split; [|split; auto].
    intros x. rewrite <- Hvis. split; auto. intros Hw. refine (path0_closed (P := fun y => In y vis) _ _ Hw).
    + intros a b Ha [He|He]; eauto.
    + destruct Hhd as (l & ->). apply Hvis. now left.
  - set (hd0 := h :: hd) in *.
    assert (Hlen : length vis <= length G).
    { apply graph_ok_size; [apply (oi_visnd Hinv)|]. apply (oi_node Hinv). }
    specialize (Hf ltac:(discriminate)).
    destruct (@toposort_reachable_spec N _ nlt ord G hd0 vis ord_perm Hok) as [(l & E & Hnd & Hre & Hto & Hac)|(c & E & Hcy & Hc)].
    + intros x Hx. apply (oi_node Hinv), (oi_sub Hinv), Hx.
    + apply (oi_sub Hinv).
    + rewrite E. cbn [bind].
      pose proof (order_step Hok HkR Hr Hinv Hre Hnd Hto Hac) as Hinv'.
      destruct (IH RG G (set_update vis l) l (result ++ l)) as [(l' & E' & Hg)|(c & E' & Hb)]; auto.
      * now apply rev_sym.
      * lia.
      * intros Hl. rewrite set_update_disjoint; auto.
        -- rewrite app_length. destruct l; [congruence|]. cbn [length].
           assert (length RG = length G). { rewrite <- (map_length fst RG), <- (map_length fst G). unfold dkeys in HkR. now rewrite HkR. }
           lia.
        -- intros x Hx. apply Hre in Hx. destruct Hx as (z & _ & Hp). apply path_last in Hp.
           destruct Hp as (y & [_ Hy] & _). auto.
      * left. exists l'. split; auto. eapply good_flip; [apply rev_sym, Hr|auto].
      * right. exists c. split; auto. eapply bad_flip; [apply rev_sym, Hr|auto].
    + right. exists c. rewrite E. split; auto. split.
      * left. revert Hcy. apply is_cycle_mono. intros a b [? _]. auto.
      * intros x Hx. apply Hc in Hx. destruct Hx as (z & Hz & Hp). split.
        -- intros ->. apply path_last in Hp. destruct Hp as (y & [_ Hy] & _). apply Hy.
           destruct (oi_hd Hinv) as (l & El). apply (oi_vis Hinv). rewrite El. now left.
        -- eapply rt_trans; [apply (oi_conn Hinv), (oi_sub Hinv), Hz|].
           apply path0_cases. right. revert Hp. apply path_mono. intros a b [? _]. now left.
Qed.

Lemma oinv_init G : node G s -> (forall v, edge G v s -> v = s) -> oinv G [s] [s] [s].
Proof.
  intros Hs Hin. constructor; try (cbn; tauto).
  - repeat constructor. auto.
  - exists []. reflexivity.
  - repeat constructor. auto.
  - intros x [<-|[]]. auto.
  - intros x y [<-|[]] He. apply Hin in He. subst. now left.
  - intros x [<-|[]]. apply rt_refl.
  - intros u [<-|[]]. congruence.
  - intros x Hp. apply path_first in Hp. destruct Hp as (z & (_ & [[->|[]] Hn] & _) & _). auto.
Qed.

Theorem order_graph_spec G : graph_ok G -> node G s -> one_sided G s ->
  (exists l, order_graph ord nlt G s = Ok l /\ good G l)
  \/ (exists c RG, order_graph ord nlt G s = Err (CycleExn c) /\ rev_of G RG /\ bad G RG c).
Proof.
  intros Hok Hs Hone. unfold order_graph.
  destruct (@reverse_graph_false N _ ord ord_perm G Hok) as (RG & HR & HkR & HokR & HeR).
  rewrite HR. cbn [bind]. rewrite (proj2 (dfind_Ok _ _ _ _) (adj_dget' Hs)). cbn [bind].
  assert (Hlen : length RG = length G).
  { rewrite <- (map_length fst RG), <- (map_length fst G). unfold dkeys in HkR. now rewrite HkR. }
  destruct (is_nil (adj G s)) eqn:En.
  - destruct (@order_loop_spec (S (S (length G))) RG G [s] [s] [s]) as [(l & E & Hg)|(c & E & Hb)]; auto.
    + now apply rev_sym.
    + apply oinv_init; [unfold node; now rewrite HkR|]. intros v Hv. apply HeR in Hv.
      apply edge_adj in Hv; [|apply Hok]. destruct (adj G s); [inv Hv|discriminate].
    + lia.
    + intros _. cbn. lia.
    + left. exists l. split; auto. eapply good_flip; [|exact Hg]. now apply rev_sym.
    + right. exists c, RG. split; auto. split; auto. eapply bad_flip; [|exact Hb]. now apply rev_sym.
  - destruct (@order_loop_spec (S (S (length G))) G RG [s] [s] [s]) as [(l & E & Hg)|(c & E & Hb)]; auto.
    + apply oinv_init; auto. destruct Hone as [Hone|Hone]; auto.
      exfalso. destruct (adj G s) as [|v es] eqn:Ea; [discriminate|].
      apply (Hone v). apply edge_adj; [apply Hok|]. rewrite Ea. now left.
    + lia.
    + intros _. cbn. lia.
    + left. exists l. auto.
    + right. exists c, RG. auto.
Qed.
End Order.

(** A cycle found in the reverse graph, read backwards, is a cycle of the graph. *)
Lemma chain_flip_rev {N} (R : N -> N -> Prop) l : forall x y,
  chain (fun a b => R b a) x (l ++ [y]) -> chain R y (rev l ++ [x]).
Proof.
  induction l as [|a l IH]; intros x y; cbn; [tauto|].
  intros [Hr Hc]. apply IH in Hc. apply chain_app_one; auto.
Qed.
Lemma is_cycle_flip {N} `{EqDec N} (R S : N -> N -> Prop) c :
  (forall a b, S a b <-> R b a) -> is_cycle S c -> is_cycle R (rev c).
Proof.
  intros Hs. destruct c as [|x l]; cbn; auto. intros [Hn Hc].
  assert (Hc' : chain (fun a b => R b a) x (l ++ [x])).
  { eapply chain_mono; [|exact Hc]. intros a b. apply Hs. }
  apply chain_flip_rev in Hc'.
  (* rotate *)
  destruct l as [|y l] using rev_ind.
  - cbn in *. auto.
  - clear IHl. rewrite rev_app_distr in *. cbn [rev app] in *. destruct Hc' as [Hxy Hc'].
    split.
    + apply NoDup_rev in Hn. cbn [rev] in Hn. rewrite rev_app_distr in Hn. exact Hn.
    + apply chain_app_one; auto.
Qed.

Section OrderDet.
Context {N : Type} `{EqDec N}.
Variables ord ord' : list N -> list N.
Hypothesis ord_perm : any_order ord.
Hypothesis ord_perm' : any_order ord'.
Variable nlt : N -> N -> bool.
Hypothesis nlt_total : strict_total nlt.

Lemma order_loop_det : forall fuel G RG G' RG' vis vis' hd result,
  graph_ok G -> graph_ok RG -> graph_ok G' -> graph_ok RG' -> same_graph G G' -> same_graph RG RG' ->
  (forall x, In x vis <-> In x vis') -> (forall x, In x hd -> In x vis) -> (forall x, In x hd -> node G x) ->
  (forall x, node G x <-> node RG x) ->
  same_outcome (order_loop ord nlt fuel G RG vis hd result) (order_loop ord' nlt fuel G' RG' vis' hd result).
Proof.
  induction fuel as [|f IH]; intros G RG G' RG' vis vis' hd result K1 K2 K3 K4 S1 S2 Hv Hs Hn Hnr; cbn [order_loop]; [exact I|].
  destruct hd as [|h hd]; [reflexivity|].
  destruct (@toposort_reachable_det N _ nlt ord ord' G G' (h :: hd) vis vis') as [(l & E & E')|(c & c' & E & E')]; auto.
  - rewrite E, E'. cbn [bind].
    destruct (@toposort_reachable_spec N _ nlt ord G (h :: hd) vis) as [(l0 & E0 & _ & Hre & _)|(c & E0 & _)]; auto;
      [|congruence].
    assert (l0 = l) by congruence. subst l0.
    apply IH; auto.
    + intros x. rewrite !set_update_In, Hv. tauto.
    + intros x Hx. apply set_update_In. auto.
    + intros x Hx. apply Hnr. apply Hre in Hx. destruct Hx as (z & _ & Hp). apply path_last in Hp.
      destruct Hp as (y & [Hy _] & _). apply (edge_node_r K1 Hy).
    + intros x. symmetry. apply Hnr.
  - rewrite E, E'. exact I.
Qed.

Theorem order_graph_det G G' s : graph_ok G -> graph_ok G' -> same_graph G G' -> node G s ->
  same_outcome (order_graph ord nlt G s) (order_graph ord' nlt G' s).
Proof.
  intros Hok Hok' Hs Hn. unfold order_graph.
  destruct (@reverse_graph_false N _ ord ord_perm G Hok) as (RG & HR & HkR & HokR & HeR).
  destruct (@reverse_graph_false N _ ord' ord_perm' G' Hok') as (RG' & HR' & HkR' & HokR' & HeR').
  rewrite HR, HR'. cbn [bind].
  assert (Hn' : node G' s) by (now apply Hs).
  rewrite (proj2 (dfind_Ok _ _ _ _) (adj_dget' Hn)), (proj2 (dfind_Ok _ _ _ _) (adj_dget' Hn')). cbn [bind].
  assert (Hlen : length G = length G').
  { rewrite <- (map_length fst G), <- (map_length fst G'). apply Nat.le_antisymm; apply NoDup_incl_length;
      try apply Hok; try apply Hok'; intros x Hx; now apply (proj1 Hs). }
  assert (HsR : same_graph RG RG').
  { split.
    - intros u. unfold node. rewrite HkR, HkR'. apply (proj1 Hs).
    - intros u v. rewrite HeR, HeR'. apply (proj2 Hs). }
  assert (Hnil : is_nil (adj G s) = is_nil (adj G' s)).
  { destruct (adj G s) as [|v l] eqn:E, (adj G' s) as [|v' l'] eqn:E'; auto; exfalso.
    - assert (Hx : In v' (adj G s)).
      { apply edge_adj; [apply Hok|]. apply (proj2 Hs). apply edge_adj; [apply Hok'|]. rewrite E'. now left. }
      rewrite E in Hx. inv Hx.
    - assert (Hx : In v (adj G' s)).
      { apply edge_adj; [apply Hok'|]. apply (proj2 Hs). apply edge_adj; [apply Hok|]. rewrite E. now left. }
      rewrite E' in Hx. inv Hx. }
  rewrite <- Hnil, <- Hlen. destruct (is_nil (adj G s)); apply order_loop_det; auto; try tauto.
  - intros x [<-|[]]. unfold node. now rewrite HkR.
  - intros x. unfold node. now rewrite HkR.
  - intros x [<-|[]]. auto.
  - intros x. unfold node. now rewrite HkR.
Qed.
End OrderDet.
