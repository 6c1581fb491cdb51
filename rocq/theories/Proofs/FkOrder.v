(** metadata.py:19: foreign keys are totally ordered; sorting them forgets the order of the input. *)
From Verif Require Import Model.Base Model.Value Model.Names Model.Metadata Model.Planner.
From Verif Require Import Spec.GraphSpec Spec.SchemaSpec.
From Verif Require Import Proofs.BaseFacts Proofs.SolverOrder Proofs.StrOrder.
Set Implicit Arguments.
Unset Strict Implicit.

Lemma lex_irrefl a : lex_ltb a a = false.
Proof.
  induction a as [|x a IH]; [reflexivity|]. cbn [lex_ltb]. destruct string_ltb_total as (Hi & _). rewrite Hi, IH, andb_false_r. reflexivity.
Qed.
Lemma lex_total a : forall b, a <> b -> lex_ltb a b = true \/ lex_ltb b a = true.
Proof.
  induction a as [|x a IH]; intros [|y b] Hne; cbn [lex_ltb]; [congruence|left; reflexivity|right; reflexivity|].
  destruct string_ltb_total as (_ & _ & Ht). destruct (eq_dec x y) as [->|Hxy].
  - assert (Hab : a <> b) by congruence. destruct (IH b Hab) as [H|H]; rewrite H, eqb_refl; [left|right]; rewrite orb_true_r; reflexivity.
  - destruct (Ht x y Hxy) as [H|H]; rewrite H; tauto.
Qed.
Lemma lex_trans a : forall b c, lex_ltb a b = true -> lex_ltb b c = true -> lex_ltb a c = true.
Proof.
  induction a as [|x a IH]; intros [|y b] [|z c]; cbn [lex_ltb]; try discriminate; try reflexivity.
  destruct string_ltb_total as (_ & Ht & _). rewrite !orb_true_iff, !andb_true_iff, !eqb_true.
  intros [H1|[-> H1]] [H2|[-> H2]].
  - left. eapply Ht; eassumption.
  - left. exact H1.
  - left. exact H2.
  - right. split; [reflexivity|]. eapply IH; eassumption.
Qed.

(** Strict total orders on pairs. *)
Section Pair.
Variables (A B : Type) (EA : EqDec A) (lta : A -> A -> bool) (ltb : B -> B -> bool).
Hypothesis Ha : (forall x, lta x x = false) /\ (forall x y z, lta x y = true -> lta y z = true -> lta x z = true) /\ (forall x y, x <> y -> lta x y = true \/ lta y x = true).
Hypothesis Hb : (forall x, ltb x x = false) /\ (forall x y z, ltb x y = true -> ltb y z = true -> ltb x z = true) /\ (forall x y, x <> y -> ltb x y = true \/ ltb y x = true).
Definition pair_lt (p q : A * B) : bool := lta (fst p) (fst q) || (eqb (fst p) (fst q) && ltb (snd p) (snd q)).
Lemma pair_total : (forall x, pair_lt x x = false) /\ (forall x y z, pair_lt x y = true -> pair_lt y z = true -> pair_lt x z = true) /\
  (forall x y, x <> y -> pair_lt x y = true \/ pair_lt y x = true).
Proof.
  destruct Ha as (A1 & A2 & A3), Hb as (B1 & B2 & B3). unfold pair_lt. split; [|split].
  - intros [x y]. cbn [fst snd]. rewrite A1, B1, andb_false_r. reflexivity.
  - intros [x1 y1] [x2 y2] [x3 y3]. cbn [fst snd]. rewrite !orb_true_iff, !andb_true_iff, !eqb_true.
    intros [H1|[-> H1]] [H2|[-> H2]]; [left; eapply A2; eassumption|left; exact H1|left; exact H2|right; split; [reflexivity|eapply B2; eassumption]].
  - intros [x1 y1] [x2 y2] Hne. cbn [fst snd]. destruct (eq_dec x1 x2) as [->|Hx].
    + assert (Hy : y1 <> y2) by congruence. rewrite eqb_refl. destruct (B3 _ _ Hy) as [H|H]; rewrite H, orb_true_r; tauto.
    + destruct (A3 _ _ Hx) as [H|H]; rewrite H; tauto.
Qed.
End Pair.

Lemma fk_total : (forall x, fk_ltb x x = false) /\ (forall x y z, fk_ltb x y = true -> fk_ltb y z = true -> fk_ltb x z = true) /\
  (forall x y, x <> y -> fk_ltb x y = true \/ fk_ltb y x = true).
Proof.
  assert (Hl : (forall x, lex_ltb x x = false) /\ (forall x y z, lex_ltb x y = true -> lex_ltb y z = true -> lex_ltb x z = true) /\ (forall x y, x <> y -> lex_ltb x y = true \/ lex_ltb y x = true)).
  { split; [exact lex_irrefl|]. split; [intros x y z; apply lex_trans|intros x y; apply lex_total]. }
  pose proof string_ltb_total as Hs.
  pose proof (pair_total _ Hl (pair_total _ Hs (pair_total _ Hs Hl))) as (H1 & H2 & H3).
  set (tup := fun f : fkey => (fk_cols f, (fst (fk_dst f), (snd (fk_dst f), fk_dst_cols f)))).
  split; [|split].
  - intros x. exact (H1 (tup x)).
  - intros x y z. exact (H2 (tup x) (tup y) (tup z)).
  - intros x y Hne. apply (H3 (tup x) (tup y)). intros He. apply Hne. destruct x as [a [b c] d], y as [a' [b' c'] d']. cbv [tup fk_cols fk_dst fk_dst_cols fst snd] in He. congruence.
Qed.

Lemma fk_insert_comm a b l : fk_insert a (fk_insert b l) = fk_insert b (fk_insert a l).
Proof.
  destruct fk_total as (Hi & Ht & Hto).
  assert (Hasym : forall x y, fk_ltb x y = true -> fk_ltb y x = true -> False).
  { intros x y H1 H2. specialize (Ht _ _ _ H1 H2). rewrite Hi in Ht. discriminate. }
  assert (Hle : forall g b a, fk_ltb g b = false -> fk_ltb g a = true -> fk_ltb b a = true).
  { intros g x y H1 H2. destruct (eq_dec x g) as [->|Hne]; [exact H2|]. destruct (Hto x g Hne) as [H|H]; [eapply Ht; eassumption|congruence]. }
  assert (Hend : forall l, (forall x, In x l -> True) -> (if fk_ltb b a then b :: a :: l else a :: b :: l) = (if fk_ltb a b then a :: b :: l else b :: a :: l)).
  { intros l0 _. destruct (fk_ltb b a) eqn:E1, (fk_ltb a b) eqn:E2; try reflexivity; [exfalso; eapply Hasym; eassumption|].
    destruct (eq_dec a b) as [->|Hne]; [reflexivity|]. destruct (Hto a b Hne); congruence. }
  induction l as [|g l IH]; cbn [fk_insert].
  - apply (Hend []). tauto.
  - destruct (fk_ltb g b) eqn:Eb, (fk_ltb g a) eqn:Ea; cbn [fk_insert]; rewrite ?Ea, ?Eb.
    + f_equal. exact IH.
    + rewrite (Hle g a b Ea Eb). reflexivity.
    + rewrite (Hle g b a Eb Ea). reflexivity.
    + apply (Hend (g :: l)). tauto.
Qed.
Lemma fk_sort_perm l l' : Permutation l l' -> fk_sort l = fk_sort l'.
Proof.
  unfold fk_sort. intros Hp. induction Hp as [|x l l' Hp IH|x y l|l1 l2 l3 H1 IH1 H2 IH2]; cbn [fold_right].
  - reflexivity.
  - rewrite IH. reflexivity.
  - apply fk_insert_comm.
  - congruence.
Qed.
