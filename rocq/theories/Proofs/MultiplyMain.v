(** Row-level consequences of the multiplied columns. *)
From Coq Require Import Lia Permutation.
From Verif Require Import Model.Base Model.Value Model.Names Model.PlanModel Model.Metadata Model.Multiply.
From Verif Require Import Spec.MultiplySpec Proofs.BaseFacts Proofs.MultiplyFacts.
Set Implicit Arguments. Unset Strict Implicit.

Lemma multiply_inj m v1 i1 v2 i2 : (0 <= i1 < m)%Z -> (0 <= i2 < m)%Z ->
  multiply_column (Some v1) m i1 = multiply_column (Some v2) m i2 -> v1 = v2 /\ i1 = i2.
Proof.
  cbn. intros H1 H2 [= E].
  assert (v1 = v2) as ->; [|split; [auto|lia]].
  assert ((v1 - v2) * m = i2 - i1)%Z as E' by lia.
  destruct (Z.eq_dec v1 v2) as [|Hne]; [auto|].
  exfalso. assert (Z.abs ((v1 - v2) * m) < m)%Z by (rewrite E'; lia).
  rewrite Z.abs_mul in H. rewrite (Z.abs_eq m) in H by lia. nia.
Qed.

Lemma rget_copy m i cols r c :
  rget (copy_row m i cols r) c = if memb c cols then copy_value m i (rget r c) else rget r c.
Proof.
  unfold rget, copy_row, dget_or. induction r as [|[k v] r IH]; cbn.
  - destruct (memb c cols); auto.
  - destruct (eq_dec c k) as [->|]; [destruct (memb k cols); auto|exact IH].
Qed.

Lemma combine_same {A} (l : list A) x y : In (x, y) (combine l l) -> x = y.
Proof. induction l as [|a l IH]; cbn; [tauto|]. intros [[= -> ->]|H]; auto. Qed.

(** Copies of a reference. *)
Lemma copies_refer m i fk colsc colsp rc rp :
  (forall c d, In (c, d) (combine (fk_cols fk) (fk_dst_cols fk)) -> (In c colsc <-> In d colsp)) ->
  refers_to fk rc rp -> refers_to fk (copy_row m i colsc rc) (copy_row m i colsp rp).
Proof.
  intros Hiff H c d Hin. rewrite !rget_copy. specialize (H _ _ Hin). specialize (Hiff _ _ Hin).
  destruct (memb c colsc) eqn:E1, (memb d colsp) eqn:E2; rewrite H; auto.
  - apply memb_true, Hiff, memb_true in E1. congruence.
  - apply memb_true, Hiff, memb_true in E2. congruence.
Qed.

Section R.
Variables (cfg : mult_config) (ms : meta) (is_int : tname -> string -> bool)
          (ord : list string -> list string) (p : plan) (r : dict string (list string)).
Hypothesis any_ord : forall l, Permutation (ord l) l.
Hypothesis wf : multiplicity_wf ms cfg p.
Hypothesis many : (1 < mc_multiplier cfg)%Z.
Hypothesis run : get_multiplied_columns cfg ms is_int ord p = Ok r.

Lemma result_iff t c : In c (dget_or r t []) <-> multiplied ms cfg p t c.
Proof.
  pose proof (multiplied_spec is_int any_ord wf many) as S. rewrite run in S.
  destruct S as (_ & _ & K & C). unfold dget_or. destruct (dget r t) as [cs|] eqn:E.
  - apply (C _ _ E).
  - split; [intros []|]. intros H. assert (dmem r t = true) as X.
    { apply K. destruct H; auto. }
    unfold dmem in X. rewrite E in X. discriminate.
Qed.

Theorem same_named_followed t m fk :
  planned p t -> source_table ms t m -> In fk (tm_fks m) -> fk_cols fk = fk_dst_cols fk ->
  forall c d, In (c, d) (combine (fk_cols fk) (fk_dst_cols fk)) ->
  In d (dget_or r (render (fk_dst fk)) []) -> In c (dget_or r t []).
Proof.
  intros Hp Hs Hf Heq c d Hin Hd. rewrite Heq in Hin.
  pose proof (combine_same Hin) as ->. apply result_iff. apply result_iff in Hd.
  assert (In d (fk_cols fk)) as Hc by (rewrite Heq; eapply in_combine_l; eauto).
  pose proof (multiplied_spec is_int any_ord wf many) as S. rewrite run in S.
  destruct S as (Hne & _).
  destruct (In_dec' t (ignore_tables cfg (p_passthrough p))) as [X|X]; rewrite ign_iff in X.
  - exfalso. apply Hne. exists t, m, fk, d. auto 8.
  - eapply mul_fk; eauto.
Qed.

Theorem copies_keep_fk t m fk :
  planned p t -> source_table ms t m -> In fk (tm_fks m) -> fk_cols fk = fk_dst_cols fk ->
  (forall c, In c (fk_cols fk) -> In c (dget_or r t []) -> In c (dget_or r (render (fk_dst fk)) [])) ->
  forall i rc rp, refers_to fk rc rp ->
  refers_to fk (copy_row (mc_multiplier cfg) i (dget_or r t []) rc)
               (copy_row (mc_multiplier cfg) i (dget_or r (render (fk_dst fk)) []) rp).
Proof.
  intros Hp Hs Hf Heq Hback i rc rp Href. apply copies_refer; [|auto].
  intros c d Hin. split.
  - intros Hc. rewrite Heq in Hin. pose proof (combine_same Hin) as <-. apply Hback; auto.
    rewrite Heq. eapply in_combine_l; eauto.
  - eapply same_named_followed; eauto.
Qed.
End R.
