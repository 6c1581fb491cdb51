(** Solver theorems in the form used by the property file. *)
From Verif Require Import Model.Solver Proofs.GraphFacts Proofs.SolverTopo Proofs.SolverDfs Proofs.SolverOrder.

Section Main.
Context {N : Type} `{EqDec N}.
Variable ord : list N -> list N.
Hypothesis ord_perm : any_order ord.
Variable nlt : N -> N -> bool.
Implicit Types (G : dict N (list N)) (s u v x : N).

Lemma toposort_order G q : graph_ok G -> toposort ord G = Ok q ->
  Permutation q (dkeys G) /\ NoDup q /\ (forall u v, edge G u v -> before q v u).
Proof.
  intros Hok E. destruct (toposort_spec ord_perm Hok) as [(q' & E' & Hp & Ho & _)|(E' & _)]; [|congruence].
  assert (q' = q) by congruence. subst q'. split; auto. split; auto.
  eapply Permutation_NoDup; [symmetry; exact Hp|apply Hok].
Qed.
Lemma toposort_fails G : graph_ok G ->
  (exists q, toposort ord G = Ok q) \/ toposort ord G = Err SValueError.
Proof.
  intros Hok. destruct (toposort_spec ord_perm Hok) as [(q' & E' & _)|(E' & _)]; eauto.
Qed.
Lemma toposort_cycle G : graph_ok G ->
  toposort ord G = Err SValueError <-> exists x, on_cycle (edge G) x.
Proof.
  intros Hok. destruct (toposort_spec ord_perm Hok) as [(q' & E' & _ & _ & Ha)|(E' & Hc)]; split; auto.
  - congruence.
  - intros (x & Hx). exfalso. eapply Ha; eauto.
Qed.

Lemma reverse_ok G union : graph_ok G ->
  exists RG, reverse_graph ord G union = Ok RG /\ dkeys RG = dkeys G /\ graph_ok RG /\
    (forall u v, edge RG v u <-> edge G u v \/ (union = true /\ edge G v u)).
Proof.
  intros Hok. destruct (reverse_graph_spec ord_perm union Hok) as (RG & H1 & H2 & H3 & H4).
  exists RG. auto.
Qed.
Lemma reverse_keyerror G union : NoDup (dkeys G) -> (forall u es, In (u, es) G -> NoDup es) ->
  reverse_graph ord G union = Err SKeyError <-> exists u v, edge G u v /\ ~ node G v.
Proof.
  intros Hn Hs. split.
  - intros E.
    destruct (existsb (fun ue => existsb (fun v => negb (memb v (dkeys G))) (snd ue)) G) eqn:Ex.
    + apply existsb_exists in Ex. destruct Ex as ([u es] & Hi & Hv).
      apply existsb_exists in Hv. destruct Hv as (v & Hv & Hm).
      apply negb_true_iff, memb_false in Hm. exists u, v. split; auto. exists es. auto.
    + exfalso. assert (Hok : graph_ok G).
      { split; [auto|]. split; auto. intros u v (es & Hi & Hv).
        destruct (In_dec' v (dkeys G)) as [|Hne]; auto. exfalso.
        assert (Ht : existsb (fun ue => existsb (fun v => negb (memb v (dkeys G))) (snd ue)) G = true).
        { apply existsb_exists. exists (u, es). split; auto. apply existsb_exists. exists v. split; auto.
          apply negb_true_iff. now apply memb_false. }
        congruence. }
      destruct (reverse_ok G union Hok) as (RG & E' & _). congruence.
  - now apply reverse_graph_fails.
Qed.

Lemma reachable_ok G sources ignore l : graph_ok G ->
  (forall s, In s sources -> node G s) -> (forall s, In s sources -> In s ignore) ->
  toposort_reachable ord nlt G sources ignore = Ok l ->
  NoDup l /\ (forall x, In x l <-> reachable_avoiding G sources ignore x) /\
  (forall x y, In x l -> In y l -> edge G x y -> before l x y).
Proof.
  intros Hok Hn Hi E.
  destruct (@toposort_reachable_spec N _ nlt ord G sources ignore ord_perm Hok Hn Hi)
    as [(l' & E' & Hnd & Hre & Hto & _)|(c & E' & _)]; [|congruence].
  assert (l' = l) by congruence. subst l'. split; auto. split; auto.
  intros x y Hx Hy He. apply Hto; auto. split; auto.
  apply Hre in Hy. destruct Hy as (s & _ & Hp). apply path_last in Hp. destruct Hp as (z & [_ Hz] & _). auto.
Qed.
Lemma reachable_err G sources ignore : graph_ok G ->
  (forall s, In s sources -> node G s) -> (forall s, In s sources -> In s ignore) ->
  (forall e, toposort_reachable ord nlt G sources ignore = Err e ->
     exists c, e = CycleExn c /\ is_cycle (edge_avoiding G ignore) c /\
       forall x, In x c -> reachable_avoiding G sources ignore x) /\
  ((exists e, toposort_reachable ord nlt G sources ignore = Err e) <->
   (exists x, reachable_avoiding G sources ignore x /\ on_cycle (edge_avoiding G ignore) x)).
Proof.
  intros Hok Hn Hi.
  destruct (@toposort_reachable_spec N _ nlt ord G sources ignore ord_perm Hok Hn Hi)
    as [(l' & E' & _ & _ & _ & Hac)|(c & E' & Hcy & Hre)]; rewrite E'.
  - split; [congruence|]. split.
    + intros (e & ?). congruence.
    + intros (x & Hx & Hc). exfalso. eapply Hac; eauto.
  - split.
    + intros e Ee. injection Ee as <-. eauto.
    + split; [|eauto]. intros _. destruct (cycle_path Hcy) as (x & Hx & Hp). eauto.
Qed.

Lemma order_ok G s l : graph_ok G -> node G s -> one_sided G s -> order_graph ord nlt G s = Ok l ->
  (exists l', l = s :: l') /\ NoDup l /\ exactly_one_direction G s l /\
  (forall x, In x l <-> weakly_connected G s x).
Proof.
  intros Hok Hs Ho E. destruct (@order_graph_spec N _ ord ord_perm nlt s G Hok Hs Ho)
    as [(l' & E' & H1 & H2 & H3 & H4 & H5)|(c & RG & E' & _)]; [|congruence].
  assert (l' = l) by congruence. subst. auto.
Qed.

Lemma connected_cycle_in G s l x : node G s -> one_sided G s -> good s G l ->
  weakly_connected G s x -> x <> s -> ~ on_cycle (edge G) x.
Proof.
  intros Hn Hone (_ & _ & Hc & _ & Hac) Hx Hxs Hcy.
  apply (Hac x).
  assert (Hwe : forall a b, weakly_connected G s a -> edge G a b -> weakly_connected G s b).
  { intros a b Ha He. eapply rt_trans; [exact Ha|]. apply rt_step. now left. }
  assert (Hns : forall a, path (edge G) x a -> path (edge G) a x -> a <> s).
  { intros a H1 H2 ->. destruct Hone as [Hone|Hone].
    - apply Hxs. clear - H1 Hone. revert x H1. apply path_ind_l; [auto|]. intros a z Haz _ ->. auto.
    - apply path_first in H2. destruct H2 as (z & Hz & _). eapply Hone; eauto. }
  assert (Hg : forall a b, path (edge G) a b -> path (edge G) x a \/ a = x -> path (edge G) b x \/ b = x ->
     path (fun a b => edge G a b /\ (In a l /\ a <> s) /\ In b l /\ b <> s) a b).
  { intros a b Hab. induction Hab as [a b He|a b c H1 IH1 H2 IH2]; intros Ha Hb.
    - apply t_step. split; auto.
      assert (Hwa : weakly_connected G s a).
      { destruct Ha as [Ha| ->]; auto. refine (path_closed (P := weakly_connected G s) Hwe Hx Ha). }
      assert (Has : a <> s).
      { destruct Ha as [Ha| ->]; auto. apply Hns; auto. destruct Hb as [Hb| ->].
        - eapply t_trans; [apply t_step; exact He|auto].
        - now apply t_step. }
      assert (Hbs : b <> s).
      { destruct Hb as [Hb| ->]; auto. apply Hns; auto. destruct Ha as [Ha| ->].
        - eapply t_trans; [exact Ha|now apply t_step].
        - now apply t_step. }
      split; split; auto; apply Hc; eauto.
    - eapply t_trans; [apply IH1|apply IH2]; auto; left.
      + destruct Hb as [Hb| ->]; auto. eapply t_trans; eauto.
      + destruct Ha as [Ha| ->]; auto. eapply t_trans; eauto. }
  apply Hg; auto.
Qed.

Lemma order_err G s : graph_ok G -> node G s -> one_sided G s ->
  (forall e, order_graph ord nlt G s = Err e ->
     exists c, e = CycleExn c /\ (is_cycle (edge G) c \/ is_cycle (edge G) (rev c)) /\
       forall x, In x c -> x <> s /\ weakly_connected G s x) /\
  ((exists e, order_graph ord nlt G s = Err e) <->
   (exists x, x <> s /\ weakly_connected G s x /\ on_cycle (edge G) x)).
Proof.
  intros Hok Hs Ho.
  destruct (@order_graph_spec N _ ord ord_perm nlt s G Hok Hs Ho)
    as [(l' & E' & Hg)|(c & RG & E' & Hr & Hcy & Hin)]; rewrite E'.
  - split; [congruence|]. split.
    + intros (e & ?). congruence.
    + intros (x & Hxs & Hx & Hc). exfalso. eapply connected_cycle_in; eauto.
  - assert (Hc : is_cycle (edge G) c \/ is_cycle (edge G) (rev c)).
    { destruct Hcy as [Hcy|Hcy]; auto. right. eapply is_cycle_flip; eauto. }
    split.
    + intros e Ee. injection Ee as <-. eauto.
    + split; [|eauto]. intros _. destruct Hc as [Hc|Hc]; destruct (cycle_path Hc) as (x & Hx & Hp); exists x.
      * destruct (Hin x Hx). auto.
      * apply in_rev in Hx. destruct (Hin x Hx). auto.
Qed.

(** Without any assumption on the source: termination, no repetition, only connected nodes. *)
Lemma order_loop_any s : forall fuel G RG vis hd result,
  graph_ok G -> graph_ok RG -> dkeys RG = dkeys G -> rev_of G RG ->
  NoDup vis -> NoDup result -> (forall x, In x vis <-> In x result) -> (exists l, result = s :: l) ->
  (forall x, In x vis -> node G x) -> (forall x, In x hd -> In x vis) ->
  (forall x, In x vis -> weakly_connected G s x) ->
  1 <= fuel -> (hd <> [] -> length G + 3 <= fuel + length vis) ->
  (exists l, order_loop ord nlt fuel G RG vis hd result = Ok (s :: l) /\ NoDup (s :: l) /\
     (forall x, In x (s :: l) -> weakly_connected G s x))
  \/ (exists c, order_loop ord nlt fuel G RG vis hd result = Err (CycleExn c) /\
       (is_cycle (edge G) c \/ is_cycle (edge RG) c) /\ forall x, In x c -> x <> s /\ weakly_connected G s x).
Proof.
  induction fuel as [|f IH]; intros G RG vis hd result Hok HokR HkR Hr Hvnd Hnd Hvis Hhd Hnode Hsub Hconn Hf1 Hf; [lia|].
  cbn [order_loop]. destruct hd as [|h hd].
  - left. destruct Hhd as (l & ->). exists l. split; auto. split; auto. intros x Hx. apply Hconn, Hvis, Hx.
  - set (hd0 := h :: hd) in *.
    assert (Hlen : length vis <= length G) by (apply graph_ok_size; auto).
    specialize (Hf ltac:(discriminate)).
    assert (Hsv : In s vis). { destruct Hhd as (l & ->). apply Hvis. now left. }
    assert (Hcr : forall x, reachable_avoiding G hd0 vis x -> ~ In x vis /\ node G x /\ weakly_connected G s x).
    { intros x (z & Hz & Hp). destruct (path_last Hp) as (y & [He Hy] & _). split; auto.
      split; [apply (edge_node_r Hok He)|].
      eapply rt_trans; [apply Hconn, Hsub, Hz|].
      apply path0_cases. right. revert Hp. apply path_mono. intros a b [? _]. now left. }
    destruct (@toposort_reachable_spec N _ nlt ord G hd0 vis ord_perm Hok) as [(l & E & Hnl & Hre & _ & _)|(c & E & Hcy & Hc)]; auto.
    + rewrite E. cbn [bind].
      assert (Hsu : forall x, In x (set_update vis l) <-> In x vis \/ In x l) by (intros; apply set_update_In).
      assert (Hnew : forall x, In x l -> ~ In x vis) by (intros x Hx; apply Hre, Hcr in Hx; tauto).
      destruct (IH RG G (set_update vis l) l (result ++ l)) as [(l' & E' & Hn' & Hc')|(c & E' & Hb & Hc')]; auto.
      * now apply rev_sym.
      * now apply set_update_NoDup.
      * apply NoDup_app_iff. split; [auto|]. split; auto. intros x Hx Hx'. apply Hvis in Hx. eapply Hnew; eauto.
      * intros x. rewrite Hsu, in_app_iff, Hvis. tauto.
      * destruct Hhd as (l0 & ->). exists (l0 ++ l). reflexivity.
      * intros x Hx. unfold node. rewrite HkR. apply Hsu in Hx. destruct Hx as [Hx|Hx]; [now apply Hnode|].
        apply Hre, Hcr in Hx. apply Hx.
      * intros x Hx. apply Hsu. auto.
      * intros x Hx. apply weak_flip with (G := G); auto. apply Hsu in Hx. destruct Hx as [Hx|Hx]; auto.
        apply Hre, Hcr in Hx. apply Hx.
      * lia.
      * intros Hl. rewrite set_update_disjoint; auto. rewrite app_length. destruct l; [congruence|]. cbn [length].
        assert (length RG = length G). { rewrite <- (map_length fst RG), <- (map_length fst G). unfold dkeys in HkR. now rewrite HkR. }
        lia.
      * left. exists l'. split; auto. split; auto. intros x Hx.
        eapply weak_flip; [apply rev_sym; exact Hr|auto].
      * right. exists c. split; auto. split; [tauto|]. intros x Hx. destruct (Hc' x Hx). split; auto.
        eapply weak_flip; [apply rev_sym; exact Hr|auto].
    + right. exists c. rewrite E. split; auto. split.
      * left. revert Hcy. apply is_cycle_mono. intros a b [? _]. auto.
      * intros x Hx. apply Hc, Hcr in Hx. split; [|tauto]. intros ->. tauto.
Qed.
Lemma order_any G s : graph_ok G -> node G s ->
  (exists l, order_graph ord nlt G s = Ok (s :: l) /\ NoDup (s :: l) /\
     (forall x, In x (s :: l) -> weakly_connected G s x))
  \/ (exists c, order_graph ord nlt G s = Err (CycleExn c) /\
       (is_cycle (edge G) c \/ is_cycle (edge G) (rev c)) /\
       forall x, In x c -> x <> s /\ weakly_connected G s x).
Proof.
  intros Hok Hs. unfold order_graph.
  destruct (@reverse_graph_false N _ ord ord_perm G Hok) as (RG & HR & HkR & HokR & HeR).
  rewrite HR. cbn [bind]. rewrite (proj2 (dfind_Ok _ _ _ _) (adj_dget' Hs)). cbn [bind].
  assert (Hlen : length RG = length G).
  { rewrite <- (map_length fst RG), <- (map_length fst G). unfold dkeys in HkR. now rewrite HkR. }
  assert (HeR' : rev_of RG G) by (now apply rev_sym).
  assert (Hcyc : forall c, is_cycle (edge RG) c -> is_cycle (edge G) (rev c)).
  { intros c. now apply is_cycle_flip. }
  destruct (is_nil (adj G s)).
  - destruct (@order_loop_any s (S (S (length G))) RG G [s] [s] [s]) as [(l & E & Hn & Hc)|(c & E & Hc & Hin)]; auto;
      try (repeat constructor; auto; fail); try tauto; try lia.
    + exists []. reflexivity.
    + intros x [<-|[]]. unfold node. now rewrite HkR.
    + intros x [<-|[]]. apply rt_refl.
    + intros _. cbn. lia.
    + left. exists l. split; auto. split; auto. intros x Hx. eapply weak_flip; [exact HeR'|auto].
    + right. exists c. split; auto. split; [destruct Hc; auto|].
      intros x Hx. destruct (Hin x Hx). split; auto. eapply weak_flip; [exact HeR'|auto].
  - destruct (@order_loop_any s (S (S (length G))) G RG [s] [s] [s]) as [(l & E & Hn & Hc)|(c & E & Hc & Hin)]; auto;
      try (repeat constructor; auto; fail); try tauto; try lia.
    + exists []. reflexivity.
    + intros x [<-|[]]. auto.
    + intros x [<-|[]]. apply rt_refl.
    + intros _. cbn. lia.
    + left. exists l. auto.
    + right. exists c. split; auto. split; auto. destruct Hc; auto.
Qed.
End Main.
