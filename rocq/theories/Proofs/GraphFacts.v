(** Facts about graphs, paths and positions (no algorithms). *)
From Verif Require Export Proofs.BaseFacts Spec.GraphSpec.

Set Implicit Arguments.
Unset Strict Implicit.

Section GraphFacts.
Context {N : Type} `{EqDec N}.
Implicit Types (G : dict N (list N)) (u v x y : N).

Definition adj G u : list N := dget_or G u [].

Lemma adj_In G u es : NoDup (dkeys G) -> In (u, es) G -> adj G u = es.
Proof. intros Hn Hi. unfold adj, dget_or. now rewrite (In_dget Hn Hi). Qed.
Lemma adj_dget G u es : dget G u = Some es -> adj G u = es.
Proof. intros E. unfold adj, dget_or. now rewrite E. Qed.
Lemma edge_adj G u v : NoDup (dkeys G) -> edge G u v <-> In v (adj G u).
Proof.
  intros Hn. split.
  - intros (es & Hi & Hv). now rewrite (adj_In Hn Hi).
  - unfold adj, dget_or. destruct (dget G u) eqn:E; [|intros []].
    intros Hv. exists l. split; auto. now apply dget_In.
Qed.
Lemma edge_node_l G u v : edge G u v -> node G u.
Proof. intros (es & Hi & _). change u with (fst (u, es)). now apply in_map. Qed.
Lemma edge_node_r G u v : graph_ok G -> edge G u v -> node G v.
Proof. intros (_ & _ & Hc). apply Hc. Qed.
Lemma adj_NoDup G u : graph_ok G -> NoDup (adj G u).
Proof.
  intros (Hn & Hs & _). unfold adj, dget_or. destruct (dget G u) eqn:E; [|constructor].
  apply dget_In in E. eauto.
Qed.
Lemma adj_dget' G u : node G u -> dget G u = Some (adj G u).
Proof. intros Hi. apply key_dget in Hi. destruct Hi as (es & E). now rewrite (adj_dget E). Qed.

(** Paths. *)
Lemma path_impl (R S : N -> N -> Prop) x y :
  (forall a b, R a b -> path S a b) -> path R x y -> path S x y.
Proof.
  intros Hi Hp. induction Hp; [auto|]. eapply t_trans; eauto.
Qed.
Lemma path_mono (R S : N -> N -> Prop) x y : (forall a b, R a b -> S a b) -> path R x y -> path S x y.
Proof. intros Hi. apply path_impl. intros. apply t_step. auto. Qed.
Lemma path_flip (R : N -> N -> Prop) x y : path R x y -> path (fun a b => R b a) y x.
Proof. intros Hp. induction Hp; [now apply t_step | eapply t_trans; eauto]. Qed.
Lemma path_last (R : N -> N -> Prop) x y : path R x y -> exists z, R z y /\ (z = x \/ path R x z).
Proof.
  intros Hp. apply Operators_Properties.clos_trans_tn1 in Hp. destruct Hp as [z Hz|y z Hyz Hp].
  - eauto.
  - exists y. split; auto. right. now apply Operators_Properties.clos_tn1_trans.
Qed.
Lemma path_first (R : N -> N -> Prop) x y : path R x y -> exists z, R x z /\ (z = y \/ path R z y).
Proof.
  intros Hp. apply Operators_Properties.clos_trans_t1n in Hp. destruct Hp as [z Hz|y z Hyz Hp].
  - eauto.
  - exists y. split; auto. right. now apply Operators_Properties.clos_t1n_trans.
Qed.
Lemma path_ind_r (R : N -> N -> Prop) (P : N -> Prop) x :
  (forall y, R x y -> P y) -> (forall y z, path R x y -> P y -> R y z -> P z) ->
  forall y, path R x y -> P y.
Proof.
  intros H1 H2 y Hp. apply Operators_Properties.clos_trans_tn1 in Hp.
  induction Hp as [y Hy|y z Hyz Hp IH]; auto.
  eapply H2; eauto. now apply Operators_Properties.clos_tn1_trans.
Qed.
Lemma path_ind_l (R : N -> N -> Prop) (P : N -> Prop) y :
  (forall x, R x y -> P x) -> (forall x z, R x z -> path R z y -> P z -> P x) ->
  forall x, path R x y -> P x.
Proof.
  intros H1 H2 x Hp. apply Operators_Properties.clos_trans_t1n in Hp.
  induction Hp as [x y Hy|x y z Hxy Hp IH]; auto.
  eapply H2; eauto. now apply Operators_Properties.clos_t1n_trans.
Qed.
(** A set closed under successors contains everything reachable from it. *)
Lemma path_closed (R : N -> N -> Prop) (P : N -> Prop) x y :
  (forall a b, P a -> R a b -> P b) -> P x -> path R x y -> P y.
Proof.
  intros Hc Hx Hp. induction Hp; eauto.
Qed.
Lemma path_restrict (R : N -> N -> Prop) (P : N -> Prop) x y :
  (forall a b, P a -> R a b -> P b) -> P x -> path R x y -> path (fun a b => R a b /\ P a /\ P b) x y.
Proof.
  intros Hc Hx Hp. induction Hp.
  - apply t_step. eauto.
  - eapply t_trans; [now apply IHHp1|]. apply IHHp2. eapply path_closed; eauto.
Qed.
Lemma path0_cases (R : N -> N -> Prop) x y : path0 R x y <-> x = y \/ path R x y.
Proof.
  split.
  - intros Hp. induction Hp as [| |x y z ? [->|IH1] ? [->|IH2]]; auto.
    + right. now apply t_step.
    + right. eapply t_trans; eauto.
  - intros [->|Hp]; [apply rt_refl|]. induction Hp; [now apply rt_step | eapply rt_trans; eauto].
Qed.
Lemma path0_closed (R : N -> N -> Prop) (P : N -> Prop) x y :
  (forall a b, P a -> R a b -> P b) -> P x -> path0 R x y -> P y.
Proof.
  intros Hc Hx Hp. apply path0_cases in Hp. destruct Hp as [->|Hp]; auto. eapply path_closed; eauto.
Qed.
Lemma rank_acyclic (R : N -> N -> Prop) (f : N -> Z) x y :
  (forall a b, R a b -> (f b < f a)%Z) -> path R x y -> (f y < f x)%Z.
Proof.
  intros Hf Hp. induction Hp; [auto|lia].
Qed.

Lemma chain_app_one (Q : N -> N -> Prop) l x y z :
  chain Q x (l ++ [y]) -> Q y z -> chain Q x ((l ++ [y]) ++ [z]).
Proof.
  revert x. induction l as [|a l IH]; intros x; cbn.
  - tauto.
  - intros [? ?] ?. split; auto.
Qed.
Lemma chain_path (R : N -> N -> Prop) x l : forall a, chain R a (l ++ [x]) -> path R a x.
Proof.
  induction l as [|b l IH]; intros a; cbn.
  - intros [? _]. now apply t_step.
  - intros [? ?]. eapply t_trans; [apply t_step; eauto|]. now apply IH.
Qed.
Lemma cycle_path (R : N -> N -> Prop) c : is_cycle R c -> exists x, In x c /\ path R x x.
Proof.
  destruct c as [|x l]; [intros []|]. intros [_ Hch]. exists x. split; [now left|]. now apply chain_path in Hch.
Qed.

(** A finite non-empty set in which everything has a successor contains a cycle. *)
Lemma finite_cycle (n : nat) : forall (R : N -> N -> Prop) (l : list N),
  length l = n -> l <> [] -> (forall x, In x l -> exists y, In y l /\ R x y) ->
  exists x, In x l /\ path R x x.
Proof.
  induction n as [|n IH]; intros R l Hlen Hne Hsucc.
  - destruct l; [congruence|discriminate].
  - destruct l as [|x l]; [congruence|]. cbn in Hlen. injection Hlen as Hlen.
    destruct (Hsucc x (or_introl eq_refl)) as (y & Hy & Hxy).
    destruct (eq_dec y x) as [->|Hyx].
    { exists x. split; [now left|]. now apply t_step. }
    destruct Hy as [->|Hy]; [congruence|].
    set (R' := fun a b => R a b \/ (R a x /\ R x b)).
    destruct (IH R' l Hlen) as (z & Hz & Hp).
    + intros ->. inv Hy.
    + intros u Hu. destruct (Hsucc u (or_intror Hu)) as (v & [->|Hv] & Huv).
      * exists y. split; auto. right. auto.
      * exists v. split; auto. now left.
    + exists z. split; [now right|]. eapply path_impl; [|exact Hp].
      intros a b [Hab|[Hax Hxb]]; [now apply t_step|]. eapply t_trans; apply t_step; eauto.
Qed.

(** Positions. *)
Lemma before_app_r (l l' : list N) x y : before l x y -> before (l ++ l') x y.
Proof.
  intros (l1 & l2 & l3 & ->). exists l1, l2, (l3 ++ l'). now rewrite <- !app_assoc, <- app_comm_cons, <- app_assoc.
Qed.
Lemma before_app_l (l l' : list N) x y : before l' x y -> before (l ++ l') x y.
Proof.
  intros (l1 & l2 & l3 & ->). exists (l ++ l1), l2, l3. now rewrite <- app_assoc.
Qed.
Lemma before_cross (l l' : list N) x y : In x l -> In y l' -> before (l ++ l') x y.
Proof.
  intros Hx Hy. apply in_split in Hx. destruct Hx as (a & b & ->).
  apply in_split in Hy. destruct Hy as (c & d & ->).
  exists a, (b ++ c), d. now rewrite <- !app_assoc, <- app_comm_cons.
Qed.
Lemma before_In_l (l : list N) x y : before l x y -> In x l.
Proof. intros (l1 & l2 & l3 & ->). rewrite in_app_iff. right. now left. Qed.
Lemma before_In_r (l : list N) x y : before l x y -> In y l.
Proof. intros (l1 & l2 & l3 & ->). rewrite in_app_iff. right. right. rewrite in_app_iff. right. now left. Qed.
Lemma before_cons_inv (l : list N) a x y : before (a :: l) x y -> (a = x /\ In y l) \/ before l x y.
Proof.
  intros (l1 & l2 & l3 & E). destruct l1 as [|b l1]; inversion E; subst.
  - left. split; auto. rewrite in_app_iff. right. now left.
  - right. now exists l1, l2, l3.
Qed.
Lemma before_cons_hd (l : list N) a y : In y l -> before (a :: l) a y.
Proof. intros Hy. apply (before_cross (l := [a]) (l' := l)); cbn; auto. Qed.
Lemma before_cons_tl (l : list N) a x y : before l x y -> before (a :: l) x y.
Proof. apply (before_app_l [a]). Qed.
Lemma before_app_inv (l l' : list N) x y :
  before (l ++ l') x y -> before l x y \/ (In x l /\ In y l') \/ before l' x y.
Proof.
  induction l as [|a l IH]; cbn; [tauto|]. intros Hb. apply before_cons_inv in Hb.
  destruct Hb as [[-> Hy]|Hb].
  - apply in_app_iff in Hy. destruct Hy as [Hy|Hy].
    + left. now apply before_cons_hd.
    + right. left. auto.
  - destruct (IH Hb) as [Hb'|[[Hx Hy]|Hb']]; auto.
    left. now apply before_cons_tl.
Qed.
Lemma before_antisym (l : list N) x y : NoDup l -> before l x y -> before l y x -> False.
Proof.
  induction l as [|a l IH]; intros Hn H1 H2.
  - apply before_In_l in H1. inv H1.
  - inv Hn. apply before_cons_inv in H1, H2.
    destruct H1 as [[-> H1]|H1], H2 as [[-> H2]|H2]; auto.
    + apply before_In_r in H2. auto.
    + apply before_In_r in H1. auto.
Qed.
Lemma before_irrefl (l : list N) x : NoDup l -> before l x x -> False.
Proof. intros Hn Hb. eapply before_antisym; eauto. Qed.
Lemma before_trans (l : list N) x y z : NoDup l -> before l x y -> before l y z -> before l x z.
Proof.
  induction l as [|a l IH]; intros Hn H1 H2.
  - apply before_In_l in H1. inv H1.
  - inv Hn. apply before_cons_inv in H1, H2.
    destruct H1 as [[-> H1]|H1], H2 as [[-> H2]|H2].
    + contradiction.
    + apply before_cons_hd. eapply before_In_r; eauto.
    + apply before_In_r in H1. contradiction.
    + apply before_cons_tl. auto.
Qed.
Lemma before_total (l : list N) x y : In x l -> In y l -> x <> y -> before l x y \/ before l y x.
Proof.
  induction l as [|a l IH]; cbn; [tauto|]. intros [->|Hx] [->|Hy] Hne.
  - congruence.
  - left. now apply before_cons_hd.
  - right. now apply before_cons_hd.
  - destruct (IH Hx Hy Hne); [left|right]; now apply before_cons_tl.
Qed.
Lemma order_acyclic (R : N -> N -> Prop) (l : list N) x y : NoDup l ->
  (forall a b, R a b -> before l a b) -> path R x y -> before l x y.
Proof.
  intros Hn Hr Hp. induction Hp; auto. eapply before_trans; eauto.
Qed.

Lemma graph_ok_size G (l : list N) : NoDup l -> (forall x, In x l -> node G x) -> length l <= length G.
Proof.
  intros Hn Hi. replace (length G) with (length (dkeys G)) by (unfold dkeys; apply map_length).
  apply NoDup_incl_length; auto.
Qed.

Lemma same_graph_refl G : same_graph G G.
Proof. split; tauto. Qed.
Lemma same_graph_sym G G' : same_graph G G' -> same_graph G' G.
Proof. intros [H1 H2]. split; intros; [rewrite H1 | rewrite H2]; tauto. Qed.
End GraphFacts.
