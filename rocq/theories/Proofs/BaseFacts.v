(** Facts about the Python built-ins of Model/Base.v. *)
From Coq Require Export Lia Permutation.
From Verif Require Export Model.Base.
From Coq Require Import Sorting.Sorted.

Set Implicit Arguments.
Unset Strict Implicit.

Ltac inv H := inversion H; subst; clear H.

Section Facts.
Context {A : Type} `{EqDec A}.

Lemma eqb_true (x y : A) : eqb x y = true <-> x = y.
Proof. unfold eqb. destruct (eq_dec x y); split; congruence. Qed.
Lemma eqb_false (x y : A) : eqb x y = false <-> x <> y.
Proof. unfold eqb. destruct (eq_dec x y); split; congruence. Qed.
Lemma eqb_refl (x : A) : eqb x x = true.
Proof. apply eqb_true; reflexivity. Qed.

Lemma memb_true (x : A) l : memb x l = true <-> In x l.
Proof.
  unfold memb. rewrite existsb_exists. split.
  - intros (y & Hy & He). apply eqb_true in He. now subst.
  - intros Hi. exists x. now rewrite eqb_refl.
Qed.
Lemma memb_false (x : A) l : memb x l = false <-> ~ In x l.
Proof. rewrite <- memb_true. destruct (memb x l); split; congruence. Qed.

Lemma memb_cons (x y : A) l : memb x (y :: l) = eqb x y || memb x l.
Proof. reflexivity. Qed.

Lemma In_dec' (x : A) l : {In x l} + {~ In x l}.
Proof. apply in_dec, eq_dec. Qed.

Lemma set_add_In (x y : A) s : In y (set_add x s) <-> y = x \/ In y s.
Proof.
  unfold set_add. destruct (memb x s) eqn:E.
  - apply memb_true in E. split; [tauto|]. intros [->|?]; auto.
  - rewrite in_app_iff. cbn. intuition congruence.
Qed.
Lemma NoDup_app_one (x : A) s : NoDup s -> ~ In x s -> NoDup (s ++ [x]).
Proof.
  intros Hs Hx. apply NoDup_Add with (a := x) (l := s).
  - rewrite <- (app_nil_r s) at 1. apply Add_app.
  - auto.
Qed.
Lemma set_add_NoDup (x : A) s : NoDup s -> NoDup (set_add x s).
Proof.
  intros Hs. unfold set_add. destruct (memb x s) eqn:E; auto.
  apply NoDup_app_one; auto. now apply memb_false.
Qed.
Lemma set_remove_In (x y : A) s : In y (set_remove x s) <-> In y s /\ y <> x.
Proof.
  unfold set_remove. rewrite filter_In.
  destruct (eqb x y) eqn:E; cbn.
  - apply eqb_true in E. subst. intuition congruence.
  - apply eqb_false in E. intuition congruence.
Qed.
Lemma set_remove_NoDup (x : A) s : NoDup s -> NoDup (set_remove x s).
Proof. apply NoDup_filter. Qed.
Lemma set_update_In (s l : list A) y : In y (set_update s l) <-> In y s \/ In y l.
Proof.
  unfold set_update. revert s. induction l as [|x l IH]; intros s; cbn; [tauto|].
  rewrite IH, set_add_In. intuition congruence.
Qed.
Lemma set_update_NoDup (s l : list A) : NoDup s -> NoDup (set_update s l).
Proof.
  unfold set_update. revert s. induction l as [|x l IH]; intros s Hs; cbn; auto.
  apply IH, set_add_NoDup, Hs.
Qed.
Lemma set_of_In (l : list A) y : In y (set_of l) <-> In y l.
Proof. unfold set_of. rewrite set_update_In. cbn. tauto. Qed.
Lemma set_of_NoDup (l : list A) : NoDup (set_of l).
Proof. apply set_update_NoDup. constructor. Qed.
Lemma set_inter_In (s t : list A) y : In y (set_inter s t) <-> In y s /\ In y t.
Proof. unfold set_inter. rewrite filter_In, memb_true. tauto. Qed.
Lemma set_diff_In (s t : list A) y : In y (set_diff s t) <-> In y s /\ ~ In y t.
Proof. unfold set_diff. rewrite filter_In, negb_true_iff, memb_false. tauto. Qed.
Lemma set_union_In (s t : list A) y : In y (set_union s t) <-> In y s \/ In y t.
Proof. apply set_update_In. Qed.
Lemma subsetb_true (s t : list A) : subsetb s t = true <-> incl s t.
Proof.
  unfold subsetb. rewrite forallb_forall. unfold incl.
  split; intros Hs x Hx; apply memb_true, Hs, Hx.
Qed.

Lemma set_update_disjoint (s l : list A) :
  NoDup l -> (forall x, In x l -> ~ In x s) -> set_update s l = s ++ l.
Proof.
  unfold set_update. revert s. induction l as [|x l IH]; intros s Hl Hd; cbn.
  - now rewrite app_nil_r.
  - inv Hl. replace (set_add x s) with (s ++ [x])
      by (unfold set_add; now rewrite (proj2 (memb_false x s)) by (apply Hd; now left)).
    rewrite IH; auto.
    + now rewrite <- app_assoc.
    + intros y Hy Hi. apply in_app_iff in Hi. destruct Hi as [Hi|[->|[]]]; auto.
      eapply Hd; [right; eauto | eauto].
Qed.
End Facts.

Section DictFacts.
Context {K V : Type} `{EqDec K}.
Implicit Types (d : dict K V) (k : K) (v : V).

Lemma dget_In d k v : dget d k = Some v -> In (k, v) d.
Proof.
  induction d as [|[k' v'] d IH]; cbn; [discriminate|].
  destruct (eq_dec k k'); [|auto]. intros E; inv E. now left.
Qed.
Lemma In_dget d k v : NoDup (dkeys d) -> In (k, v) d -> dget d k = Some v.
Proof.
  induction d as [|[k' v'] d IH]; cbn; [tauto|]. intros Hn Hi. inv Hn.
  destruct (eq_dec k k') as [->|Hne].
  - destruct Hi as [E|Hi]; [congruence|]. exfalso. apply H2.
    change k' with (fst (k', v)). now apply in_map.
  - destruct Hi as [E|Hi]; [congruence|]. auto.
Qed.
Lemma dget_iff d k v : NoDup (dkeys d) -> dget d k = Some v <-> In (k, v) d.
Proof. split; [apply dget_In | now apply In_dget]. Qed.
Lemma dget_None d k : dget d k = None <-> ~ In k (dkeys d).
Proof.
  induction d as [|[k' v'] d IH]; cbn; [tauto|].
  destruct (eq_dec k k') as [->|Hne].
  - split; [discriminate | intros Hx; exfalso; auto].
  - rewrite IH. intuition congruence.
Qed.
Lemma dget_Some_key d k v : dget d k = Some v -> In k (dkeys d).
Proof. intros E. apply dget_In in E. change k with (fst (k, v)). now apply in_map. Qed.
Lemma key_dget d k : In k (dkeys d) -> exists v, dget d k = Some v.
Proof.
  intros Hi. destruct (dget d k) eqn:E; [eauto|]. apply dget_None in E. contradiction.
Qed.
Lemma dmem_true d k : dmem d k = true <-> In k (dkeys d).
Proof.
  unfold dmem. destruct (dget d k) eqn:E; split; try congruence; auto.
  - intros _. eapply dget_Some_key; eauto.
  - apply dget_None in E. tauto.
Qed.
Lemma dmem_false d k : dmem d k = false <-> ~ In k (dkeys d).
Proof. rewrite <- dmem_true. destruct (dmem d k); split; congruence. Qed.

Lemma dget_dset d k k' v :
  dget (dset d k v) k' = if eq_dec k' k then Some v else dget d k'.
Proof.
  induction d as [|[k0 v0] d IH]; cbn.
  - destruct (eq_dec k' k); auto.
  - destruct (eq_dec k k0) as [->|Hne]; cbn.
    + destruct (eq_dec k' k0); auto.
    + rewrite IH. destruct (eq_dec k' k0), (eq_dec k' k); auto; congruence.
Qed.
Lemma dget_dset_eq d k v : dget (dset d k v) k = Some v.
Proof. rewrite dget_dset. destruct (eq_dec k k); congruence. Qed.
Lemma dget_dset_ne d k k' v : k' <> k -> dget (dset d k v) k' = dget d k'.
Proof. intros. rewrite dget_dset. destruct (eq_dec k' k); congruence. Qed.
Lemma dkeys_dset d k v : dkeys (dset d k v) = set_add k (dkeys d).
Proof.
  induction d as [|[k0 v0] d IH]; cbn; auto.
  destruct (eq_dec k k0) as [->|Hne].
  - cbn. unfold set_add. cbn. now rewrite eqb_refl.
  - cbn. unfold dkeys in IH. rewrite IH. unfold set_add. cbn.
    rewrite (proj2 (eqb_false k k0)) by auto. cbn. fold (memb k (map fst d)).
    destruct (memb k (map fst d)); reflexivity.
Qed.
Lemma dkeys_dset_old d k v : In k (dkeys d) -> dkeys (dset d k v) = dkeys d.
Proof. intros Hi. rewrite dkeys_dset. unfold set_add. now rewrite (proj2 (memb_true _ _) Hi). Qed.
Lemma dkeys_dset_new d k v : ~ In k (dkeys d) -> dkeys (dset d k v) = dkeys d ++ [k].
Proof. intros Hi. rewrite dkeys_dset. unfold set_add. now rewrite (proj2 (memb_false _ _) Hi). Qed.
Lemma dset_new d k v : ~ In k (dkeys d) -> dset d k v = d ++ [(k, v)].
Proof.
  induction d as [|[k0 v0] d IH]; cbn; auto. intros Hn.
  destruct (eq_dec k k0) as [->|]; [tauto|]. now rewrite IH by tauto.
Qed.
Lemma dset_NoDup d k v : NoDup (dkeys d) -> NoDup (dkeys (dset d k v)).
Proof. intros. rewrite dkeys_dset. now apply set_add_NoDup. Qed.
Lemma dset_In_key d k v x : In x (dkeys (dset d k v)) <-> x = k \/ In x (dkeys d).
Proof. rewrite dkeys_dset. apply set_add_In. Qed.
End DictFacts.

Lemma dkeys_map_snd {K V W} (f : K * V -> W) (d : dict K V) :
  dkeys (map (fun kv => (fst kv, f kv)) d) = dkeys d.
Proof. unfold dkeys. rewrite map_map. now apply map_ext. Qed.
Lemma dget_map_snd {K V W} `{EqDec K} (f : K * V -> W) (d : dict K V) k :
  NoDup (dkeys d) ->
  dget (map (fun kv => (fst kv, f kv)) d) k
  = match dget d k with Some v => Some (f (k, v)) | None => None end.
Proof.
  induction d as [|[k0 v0] d IH]; cbn; auto. intros Hn. inv Hn.
  destruct (eq_dec k k0) as [->|]; auto.
Qed.

Section ResFacts.
Context {E S A : Type}.
Lemma bind_Ok {B C} (m : res E B) (k : B -> res E C) c :
  bind m k = Ok c <-> exists b, m = Ok b /\ k b = Ok c.
Proof. destruct m; cbn; split; [eauto| |discriminate|]; intros (b & Hb & Hk); congruence. Qed.
Lemma bind_Err {B C} (m : res E B) (k : B -> res E C) e :
  bind m k = Err e <-> m = Err e \/ exists b, m = Ok b /\ k b = Err e.
Proof.
  destruct m; cbn; split; intros Hx.
  - eauto.
  - destruct Hx as [?|(b & Hb & Hk)]; congruence.
  - left; congruence.
  - destruct Hx as [?|(b & Hb & Hk)]; congruence.
Qed.
Lemma dfind_Ok {K V} `{EqDec K} (e : E) (d : dict K V) k v :
  dfind e d k = Ok v <-> dget d k = Some v.
Proof. unfold dfind. destruct (dget d k); split; congruence. Qed.
Lemma dfind_Err {K V} `{EqDec K} (e e' : E) (d : dict K V) k :
  dfind e d k = Err e' <-> e' = e /\ dget d k = None.
Proof. unfold dfind. destruct (dget d k); split; intuition congruence. Qed.

(** Invariant rule for [forM]. *)
Lemma forM_inv (P : list A -> S -> Prop) (f : S -> A -> res E S) l s :
  P [] s ->
  (forall done a rest s0 s1, l = done ++ a :: rest -> P done s0 -> f s0 a = Ok s1 -> P (done ++ [a]) s1) ->
  forall s', forM f l s = Ok s' -> P l s'.
Proof.
  intros H0 Hstep.
  assert (Hg : forall rest done s0, l = done ++ rest -> P done s0 ->
            forall s', forM f rest s0 = Ok s' -> P l s').
  { induction rest as [|a rest IH]; intros done s0 Hl Hp s' Hf; cbn in Hf.
    - inv Hf. now rewrite app_nil_r.
    - apply bind_Ok in Hf. destruct Hf as (s1 & H1 & H2).
      eapply IH with (done := done ++ [a]).
      + now rewrite <- app_assoc.
      + eapply Hstep; eauto.
      + exact H2. }
  intros s' Hf. eapply Hg with (done := []); eauto. reflexivity.
Qed.
(** Rule for [forM] that also excludes failure. *)
Lemma forM_total (P : list A -> S -> Prop) (f : S -> A -> res E S) l s :
  P [] s ->
  (forall done a rest s0, l = done ++ a :: rest -> P done s0 ->
     exists s1, f s0 a = Ok s1 /\ P (done ++ [a]) s1) ->
  exists s', forM f l s = Ok s' /\ P l s'.
Proof.
  intros H0 Hstep.
  assert (Hg : forall rest done s0, l = done ++ rest -> P done s0 ->
            exists s', forM f rest s0 = Ok s' /\ P l s').
  { induction rest as [|a rest IH]; intros done s0 Hl Hp; cbn.
    - exists s0. split; auto. subst. now rewrite app_nil_r.
    - destruct (Hstep done a rest s0 Hl Hp) as (s1 & H1 & H2). rewrite H1. cbn.
      apply IH with (done := done ++ [a]); auto. now rewrite <- app_assoc. }
  apply (Hg l [] s eq_refl H0).
Qed.
Lemma forM_app (f : S -> A -> res E S) l1 l2 s :
  forM f (l1 ++ l2) s = bind (forM f l1 s) (forM f l2).
Proof.
  revert s. induction l1 as [|a l1 IH]; intros s; cbn; auto.
  destruct (f s a); cbn; auto.
Qed.
End ResFacts.

Lemma mapM_Ok {E A B} (f : A -> res E B) l bs :
  mapM f l = Ok bs <-> Forall2 (fun a b => f a = Ok b) l bs.
Proof.
  revert bs. induction l as [|a l IH]; intros bs; cbn.
  - split; intros Hx; inv Hx; constructor.
  - rewrite bind_Ok. split.
    + intros (b & Hb & Hr). apply bind_Ok in Hr. destruct Hr as (bs' & Hbs & He). inv He.
      constructor; auto. now apply IH.
    + intros Hx. inv Hx. exists y. split; auto. apply bind_Ok. exists l'. split; auto. now apply IH.
Qed.

Section ListFacts.
Context {A : Type}.
Lemma NoDup_app_iff (l1 l2 : list A) :
  NoDup (l1 ++ l2) <-> NoDup l1 /\ NoDup l2 /\ (forall x, In x l1 -> ~ In x l2).
Proof.
  induction l1 as [|a l1 IH]; cbn.
  - split; [intros Hn; repeat split; auto; constructor | tauto].
  - rewrite !NoDup_cons_iff, IH, in_app_iff. split.
    + intros (H1 & H2 & H3 & H4). repeat split; auto.
      intros x [->|Hx]; auto.
    + intros ((H1 & H2) & H3 & H4). repeat split; auto.
      * intros [Hx|Hx]; [auto|]. eapply H4; eauto.
Qed.
Lemma In_split_NoDup (x : A) l1 l2 : NoDup (l1 ++ x :: l2) -> ~ In x l1 /\ ~ In x l2.
Proof.
  intros Hn. apply NoDup_remove_2 in Hn. rewrite in_app_iff in Hn. tauto.
Qed.
Lemma Forall2_In_l {B} (P : A -> B -> Prop) l l' a :
  Forall2 P l l' -> In a l -> exists b, In b l' /\ P a b.
Proof.
  induction 1; cbn; [tauto|]. intros [->|Hi]; [eauto|]. destruct (IHForall2 Hi) as (b & ? & ?); eauto.
Qed.
Lemma Forall2_In_r {B} (P : A -> B -> Prop) l l' b :
  Forall2 P l l' -> In b l' -> exists a, In a l /\ P a b.
Proof.
  induction 1; cbn; [tauto|]. intros [->|Hi]; [eauto|]. destruct (IHForall2 Hi) as (a & ? & ?); eauto.
Qed.
End ListFacts.
