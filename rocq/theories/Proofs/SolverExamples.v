(** Decision procedures for graph hypotheses of concrete graphs, and witness computations. *)
From Verif Require Import Model.Solver Proofs.GraphFacts Proofs.SolverTopo Proofs.SolverDfs Proofs.SolverOrder.

Section Dec.
Context {N : Type} `{EqDec N}.
Fixpoint nodupb (l : list N) : bool :=
  match l with [] => true | x :: l' => negb (memb x l') && nodupb l' end.
Lemma nodupb_ok l : nodupb l = true -> NoDup l.
Proof.
  induction l as [|x l IH]; cbn; [constructor|]. rewrite andb_true_iff, negb_true_iff. intros [H1 H2].
  constructor; auto. now apply memb_false.
Qed.
Definition graph_okb (G : dict N (list N)) : bool :=
  nodupb (dkeys G) && forallb (fun ue => nodupb (snd ue) && forallb (fun v => memb v (dkeys G)) (snd ue)) G.
Lemma graph_okb_ok G : graph_okb G = true -> graph_ok G.
Proof.
  unfold graph_okb. rewrite andb_true_iff, forallb_forall. intros [H1 H2]. split; [now apply nodupb_ok|]. split.
  - intros u es Hi. specialize (H2 _ Hi). cbn in H2. apply andb_true_iff in H2. now apply nodupb_ok.
  - intros u v (es & Hi & Hv). specialize (H2 _ Hi). cbn in H2. apply andb_true_iff in H2. destruct H2 as [_ H2].
    rewrite forallb_forall in H2. apply memb_true. auto.
Qed.
Definition one_sidedb (G : dict N (list N)) (s : N) : bool :=
  forallb (fun ue => negb (memb s (snd ue)) || eqb (fst ue) s) G.
Lemma one_sidedb_ok G s : one_sidedb G s = true -> one_sided G s.
Proof.
  unfold one_sidedb. rewrite forallb_forall. intros Hf. left. intros v (es & Hi & Hs).
  specialize (Hf _ Hi). cbn [fst snd] in Hf. rewrite (proj2 (memb_true s es) Hs) in Hf. now apply eqb_true.
Qed.
Definition edgeb (G : dict N (list N)) (u v : N) : bool :=
  existsb (fun ue => eqb (fst ue) u && memb v (snd ue)) G.
Lemma edgeb_ok G u v : edgeb G u v = true -> edge G u v.
Proof.
  unfold edgeb. rewrite existsb_exists. intros ([a es] & Hi & Hb). cbn [fst snd] in Hb.
  apply andb_true_iff in Hb. destruct Hb as [H1 H2]. rewrite eqb_true in H1. rewrite memb_true in H2. subst. exists es. split; assumption.
Qed.
Lemma path2 G u v : edgeb G u v = true -> edgeb G v u = true -> path (edge G) u u.
Proof. intros H1 H2. eapply t_trans; apply t_step; apply edgeb_ok; eauto. Qed.
End Dec.

Open Scope string_scope.
Open Scope list_scope.

Lemma c10_component_witness : exists (G : graph string) (s x : string) l,
  graph_ok G /\ node G s /\ order_graph (fun l => l) String.ltb G s = Ok l /\
  weakly_connected G s x /\ ~ In x l.
Proof.
  exists [("a", ["b"]); ("b", []); ("c", ["a"])], "a", "c", ["a"; "b"].
  split; [now apply graph_okb_ok|]. split; [now left|]. split; [reflexivity|]. split.
  - apply rt_step. right. now apply edgeb_ok.
  - cbn. intuition discriminate.
Qed.
Lemma c10_direction_witness : exists (G : graph string) (s : string) l,
  graph_ok G /\ node G s /\ order_graph (fun l => l) String.ltb G s = Ok l /\
  ~ exactly_one_direction G s l.
Proof.
  exists [("a", ["b"]); ("b", ["a"])], "a", ["a"; "b"].
  split; [now apply graph_okb_ok|]. split; [now left|]. split; [reflexivity|].
  intros He. specialize (He "b"). destruct He as [[_ Hn]|[Hn _]]; [cbn; auto|discriminate| |].
  - apply Hn. exists "a". split; [now apply edgeb_ok|]. now exists [], [], [].
  - apply Hn. exists "a". split; [now apply edgeb_ok|]. now exists [], [], [].
Qed.
