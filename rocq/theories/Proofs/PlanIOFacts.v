(** Proofs about writing and reading plans (C30). *)
From Coq Require Import Lia Permutation.
From Verif Require Import Model.Base Model.Value Model.PlanModel Model.Config Model.PlanIO Spec.PlanIOSpec Proofs.BaseFacts Proofs.Scalars Proofs.BuildFacts.
Set Implicit Arguments. Unset Strict Implicit.
Open Scope string_scope.
Open Scope list_scope.

(** ** Mappings *)
Lemma dget_app : forall (A : Type) (a b : dict string A) k, dget (a ++ b) k = match dget a k with Some x => Some x | None => dget b k end.
Proof. intros A a b k. induction a as [|(k', x) a IH]; cbn; auto. destruct (eq_dec k k'); auto. Qed.
Lemma dget_permutation : forall (A : Type) (m m' : dict string A) k, Permutation m m' -> NoDup (dkeys m') -> dget m k = dget m' k.
Proof.
  intros A m m' k P N. assert (N0 : NoDup (dkeys m)).
  { apply (Permutation_NoDup (l := dkeys m')); auto. symmetry. now apply Permutation_map. }
  destruct (dget m' k) as [x|] eqn:E.
  - apply dget_In in E. apply (Permutation_in _ (Permutation_sym P)) in E. now apply In_dget.
  - apply dget_None. apply dget_None in E. intros H. apply E. apply (Permutation_in (l := dkeys m)); auto. now apply Permutation_map.
Qed.
Lemma like_dget : forall m m', like (DMap m) (DMap m') -> NoDup (dkeys m') -> forall k,
  match dget m' k with Some d' => exists d, dget m k = Some d /\ like d d' | None => dget m k = None end.
Proof.
  intros m m' H N k. inversion H as [d E1 E2| |m0 m1 m'' P F E1 E2]; subst.
  - destruct (dget m' k); auto. eexists; split; eauto. constructor.
  - assert (K : dkeys m1 = dkeys m'). { clear - F. induction F as [|a b l l' (E & _) _ IH]; unfold dkeys in *; cbn; congruence. }
    rewrite (dget_permutation k P) by now rewrite K. clear - F. induction F as [|(a, x) (b, y) l l' (E & L) _ IH]; cbn; auto.
    cbn in E. subst b. destruct (eq_dec k a); eauto.
Qed.
Lemma like_map_inv : forall d m', like d (DMap m') -> exists m, d = DMap m /\ like (DMap m) (DMap m').
Proof. intros d m' H. inversion H; subst; eauto. Qed.
Lemma like_list_inv : forall d l', like d (DList l') -> exists l, d = DList l /\ Forall2 like l l'.
Proof. intros d l' H. inversion H; subst; eauto. eexists. split; eauto. clear. induction l'; constructor; auto. constructor. Qed.
Lemma like_scalar : forall d d', like d d' -> match d' with DList _ | DMap _ => False | _ => True end -> d = d'.
Proof. intros d d' H S. inversion H; subst; auto; contradiction. Qed.

Definition written (set : path -> bool) (name : string) (default : bool) : bool := negb (default && negb (set [inl name])).
Lemma field_cases : forall set name default d, field set name default d = if written set name default then [(name, d)] else [].
Proof. intros. unfold field, written. destruct (default && negb (set [inl name])); reflexivity. Qed.
Lemma written_other : forall set name, written set name false = true.
Proof. reflexivity. Qed.

(** ** Combinators: reading what was written. *)
Definition reads {A} (f : data -> lres A) (d' : data) (P : A -> Prop) : Prop := forall d, like d d' -> exists a, f d = Ok a /\ P a.
Lemma reads_str : forall s, reads as_str (DStr s) (eq s).
Proof. intros s d H. apply like_scalar in H; [subst|exact I]. eexists; split; reflexivity. Qed.
Arguments reads_str : clear implicits.
Lemma reads_bool : forall s, reads as_bool (DBool s) (eq s).
Proof. intros s d H. apply like_scalar in H; [subst|exact I]. eexists; split; reflexivity. Qed.
Arguments reads_bool : clear implicits.
Lemma reads_int : forall s, reads as_int (DInt s) (eq s).
Proof. intros s d H. apply like_scalar in H; [subst|exact I]. eexists; split; reflexivity. Qed.
Arguments reads_int : clear implicits.
Lemma reads_float : forall s, reads as_float (DFloat s) (eq s).
Proof. intros s d H. apply like_scalar in H; [subst|exact I]. eexists; split; reflexivity. Qed.
Arguments reads_float : clear implicits.
Lemma reads_lit : forall l, reads as_lit (dump_lit l) (eq l).
Proof. intros l d H. apply like_scalar in H; [subst|now destruct l]. destruct l; eexists; split; reflexivity. Qed.
Arguments reads_lit : clear implicits.
Lemma reads_op : forall op, reads as_op (DStr (op_text op)) (eq op).
Proof. intros op d H. apply like_scalar in H; [subst|exact I]. exists op. split; [now destruct op|reflexivity]. Qed.
Arguments reads_op : clear implicits.
Lemma reads_list : forall (A : Type) (f : data -> lres A) l' (R : list A -> Prop),
  (forall l, Forall2 like l l' -> exists r, mapM f l = Ok r /\ R r) -> reads (as_list f) (DList l') R.
Proof. intros A f l' R H d L. apply like_list_inv in L. destruct L as (l & -> & F). exact (H l F). Qed.
Lemma reads_all : forall (A B : Type) (f : data -> lres B) (dump : A -> data) (R : A -> B -> Prop) (l : list A),
  Forall (fun a => reads f (dump a) (R a)) l -> forall ds, Forall2 like ds (map dump l) -> exists r, mapM f ds = Ok r /\ Forall2 R l r.
Proof.
  intros A B f dump R. induction l as [|a l IH]; intros F ds L; inversion L as [|x y l1 l2 Hx Hl E1 E2]; subst.
  - exists []. split; [reflexivity|constructor].
  - inversion F as [|? ? Fa Fl]; subst. destruct (Fa _ Hx) as (b & E & Rb). destruct (IH Fl _ Hl) as (r & Er & Rr).
    exists (b :: r). cbn. rewrite E. cbn. rewrite Er. split; [reflexivity|now constructor].
Qed.
Lemma Forall2_eq : forall (A : Type) (l l' : list A), Forall2 eq l l' -> l = l'.
Proof. induction 1; congruence. Qed.
Lemma reads_strs : forall l, reads (as_list as_str) (dump_strs l) (eq l).
Proof.
  intros l. apply reads_list. intros ds L. destruct (reads_all (f := as_str) (R := eq) (dump := DStr) (l := l)) with (ds := ds) as (r & E & F); auto.
  - apply Forall_forall. intros s _. apply reads_str.
  - apply Forall2_eq in F. eauto.
Qed.
Arguments reads_strs : clear implicits.
Lemma reads_weaken : forall (A : Type) (f : data -> lres A) d (P Q : A -> Prop), reads f d P -> (forall a, P a -> Q a) -> reads f d Q.
Proof. intros A f d P Q H W x L. destruct (H x L) as (a & E & Ha). eauto. Qed.

Section Record.
Variables (m m' : dict string data).
Hypothesis L : like (DMap m) (DMap m').
Hypothesis N : NoDup (dkeys m').
Lemma reads_required : forall (A : Type) (f : data -> lres A) k k2 d' P, dget m' k = Some d' -> reads f d' P -> exists a, required f m k k2 = Ok a /\ P a.
Proof.
  intros A f k k2 d' P E R. pose proof (like_dget L N k) as H. rewrite E in H. destruct H as (d & Ed & Ld).
  unfold required, lookup. rewrite Ed. exact (R d Ld).
Qed.
Lemma reads_optional : forall (A : Type) (f : data -> lres A) default k (w : bool) d' (P : A -> Prop),
  dget m' k = (if w then Some d' else None) -> reads f d' P -> (w = false -> P default) -> exists a, optional f default m k = Ok a /\ P a.
Proof.
  intros A f default k w d' P E R D. pose proof (like_dget L N k) as H. rewrite E in H. unfold optional. destruct w.
  - destruct H as (d & Ed & Ld). rewrite Ed. exact (R d Ld).
  - rewrite H. eauto.
Qed.
End Record.
Lemma reads_nullable : forall (A B : Type) (f : data -> lres A) (o : option B) dump (R : B -> A -> Prop),
  (forall b, o = Some b -> dump b <> DNull /\ reads f (dump b) (R b)) ->
  reads (nullable f) (match o with None => DNull | Some b => dump b end) (fun r => match o, r with Some b, Some a => R b a | None, None => True | _, _ => False end).
Proof.
  intros A B f o dump R H d L. destruct o as [b|].
  - destruct (H b eq_refl) as (NN & Rb). destruct (Rb d L) as (a & E & Ra).
    exists (Some a). split; auto. unfold nullable. rewrite E. destruct d; auto. exfalso. inversion L; subst. congruence.
  - apply like_scalar in L; [subst|exact I]. exists None. auto.
Qed.

Ltac keys := rewrite ?field_cases; repeat match goal with |- context [if written ?s ?n ?d then _ else _] => destruct (written s n d) end;
  cbn; repeat constructor; cbn; intuition discriminate.
Ltac look := rewrite ?field_cases; repeat (rewrite dget_app || cbn [dget app]);
  repeat match goal with |- context [if written ?s ?n ?d then _ else _] => destruct (written s n d) eqn:? end; reflexivity.

(** ** Identifiers and joins *)
Lemma reads_ident : forall set t, reads load_ident (dump_ident set t) (eq t).
Proof.
  intros set t d L. unfold dump_ident in L. destruct (like_map_inv L) as (m & -> & L').
  match type of L' with like _ (DMap ?m0) => assert (N : NoDup (dkeys m0)) by keys end.
  unfold load_ident. cbn [as_map bind].
  destruct (reads_required L' N "table_schema" (k := "schema") eq_refl (reads_str (i_schema t))) as (a & -> & <-). cbn [bind].
  destruct (reads_required L' N "table_name" (k := "table") eq_refl (reads_str (i_table t))) as (a & -> & <-). cbn [bind].
  destruct (reads_optional (default := false) (k := "sampled") (w := written set "sampled" (negb (i_sampled t))) L' N (d' := DBool (i_sampled t)) (P := eq (i_sampled t)) (f := as_bool)) as (a & -> & <-).
  - look.
  - apply reads_bool.
  - destruct t as [a b []]; cbn; auto; discriminate.
  - cbn [bind]. exists t. destruct t; auto.
Qed.
Arguments reads_ident : clear implicits.
Lemma reads_join : forall set j, reads load_join (dump_join set j) (eq j).
Proof.
  intros set j d L. unfold dump_join in L. destruct (like_map_inv L) as (m & -> & L').
  match type of L' with like _ (DMap ?m0) => assert (N : NoDup (dkeys m0)) by keys end.
  unfold load_join. cbn [as_map bind].
  destruct (reads_required L' N "right" (k := "right") eq_refl (reads_ident _ (j_right j))) as (a & -> & <-). cbn [bind].
  destruct (reads_required L' N "left_columns" (k := "left_columns") eq_refl (reads_strs (j_left_cols j))) as (a & -> & <-). cbn [bind].
  destruct (reads_required L' N "right_columns" (k := "right_columns") eq_refl (reads_strs (j_right_cols j))) as (a & -> & <-). cbn [bind].
  destruct (reads_optional (default := true) (k := "half_unique") (w := written set "half_unique" (j_half_unique j)) L' N (d' := DBool (j_half_unique j)) (P := eq (j_half_unique j)) (f := as_bool)) as (a & -> & <-).
  - look.
  - apply reads_bool.
  - destruct j as [a b c []]; cbn; auto; discriminate.
  - cbn [bind]. exists j. destruct j; auto.
Qed.
Arguments reads_join : clear implicits.
(** Lists whose elements are written one by one. *)
Lemma reads_elems : forall (A B : Type) (f : data -> lres B) (dump : (path -> bool) -> A -> data) (R : A -> B -> Prop) l set,
  Forall (fun a => forall set, reads f (dump set a) (R a)) l -> reads (as_list f) (DList (dump_list dump set l 0)) (Forall2 R l).
Proof.
  intros A B f dump R l set F. apply reads_list. generalize 0. induction l as [|a l IH]; intros i ds L; cbn in L; inversion L as [|x y l1 l2 Hx Hl E1 E2]; subst.
  - exists []. split; [reflexivity|constructor].
  - inversion F as [|? ? Fa Fl]; subst. destruct (Fa _ _ Hx) as (b & E & Rb). destruct (IH Fl _ _ Hl) as (r & Er & Rr).
    exists (b :: r). cbn. rewrite E. cbn. rewrite Er. split; [reflexivity|now constructor].
Qed.
Lemma reads_joins : forall set l, reads (as_list load_join) (DList (dump_list dump_join set l 0)) (eq l).
Proof.
  intros set l. eapply reads_weaken; [apply reads_elems with (R := eq)|].
  - apply Forall_forall. intros j _ s. apply reads_join.
  - intros r F. now apply Forall2_eq.
Qed.
Arguments reads_joins : clear implicits.
Lemma reads_dict : forall (A B : Type) (f : data -> lres B) (dump : string -> A -> data) (R : A -> B -> Prop) (q : dict string A),
  (forall k a, In (k, a) q -> reads f (dump k a) (R a)) ->
  reads (as_dict f) (DMap (map (fun kv => (fst kv, dump (fst kv) (snd kv))) q))
    (fun r => exists qs, Permutation q qs /\ Forall2 (fun a b => fst a = fst b /\ R (snd a) (snd b)) qs r).
Proof.
  intros A B f dump R q H d L. destruct (like_map_inv L) as (m & -> & L').
  assert (P : exists m1 qs, Permutation q qs /\ Permutation m m1 /\ m = m1 /\ Forall2 (fun a b => fst a = fst b /\ like (snd a) (dump (fst b) (snd b))) m1 qs).
  { assert (X : exists m1, Permutation m m1 /\ Forall2 (fun a b => fst a = fst b /\ like (snd a) (dump (fst b) (snd b))) m1 q).
    { inversion L' as [d E1 E2| |m0 m1 m'' P F E1 E2]; subst.
      - exists (map (fun kv => (fst kv, dump (fst kv) (snd kv))) q). split; auto. clear. induction q as [|(k, a) q IH]; cbn; constructor; auto. cbn. split; auto. constructor.
      - exists m1. split; auto. clear - F. remember (map (fun kv : string * A => (fst kv, dump (fst kv) (snd kv))) q) as q'. revert q Heqq'.
        induction F as [|x y l l' (E1 & E2) _ IH]; intros q Hq; destruct q as [|(k, a) q]; cbn in Hq; try discriminate; constructor.
        + inv Hq. auto. + inv Hq. auto. }
    destruct X as (m1 & P & F).
    assert (Y : exists qs, Permutation q qs /\ Forall2 (fun a b => fst a = fst b /\ like (snd a) (dump (fst b) (snd b))) m qs).
    { apply Permutation_sym in P. clear - P F. revert q F. induction P as [|x l l' P IH|x y l|l1 l2 l3 P1 IH1 P2 IH2]; intros q F.
      - inv F. exists []. split; constructor.
      - inversion F as [|? b ? q' Hb Hq]; subst. destruct (IH q' Hq) as (qs & Pq & Fq). exists (b :: qs). split; constructor; auto.
      - inversion F as [|? b ? q' Hb Hq]; subst. inversion Hq as [|? b' ? q'' Hb' Hq']; subst. exists (b' :: b :: q''). split; [constructor|]. repeat constructor; tauto.
      - destruct (IH1 q F) as (qs & Pq & Fq). destruct (IH2 qs Fq) as (qs' & Pq' & Fq'). exists qs'. split; auto. now transitivity qs. }
    destruct Y as (qs & Pq & Fq). exists m, qs. auto. }
  destruct P as (m1 & qs & Pq & _ & -> & F).
  assert (H' : forall k a, In (k, a) qs -> reads f (dump k a) (R a)) by (intros k a Ha; apply H; apply (Permutation_in _ (Permutation_sym Pq)); auto).
  cbn [as_dict]. enough (X : exists r, mapM (fun kv => let* a := f (snd kv) in Ok (fst kv, a)) m1 = Ok r /\ Forall2 (fun a b => fst a = fst b /\ R (snd a) (snd b)) qs r).
  { destruct X as (r & E & Fr). exists r. split; auto. exists qs. auto. }
  clear - F H'. induction F as [|(k, d) (k', a) l l' (E & Ld) _ IH]; [exists []; split; [reflexivity|constructor]|].
  cbn in E. subst k'. destruct (H' k a (or_introl eq_refl) d Ld) as (b & Eb & Rb). destruct IH as (r & Er & Fr); [intros; apply H'; now right|].
  exists ((k, b) :: r). cbn. rewrite Eb. cbn. rewrite Er. split; [reflexivity|]. constructor; auto.
Qed.
Lemma reads_params : forall p, reads (nullable (as_dict as_lit)) (dump_params p) (same_params p).
Proof.
  intros p. eapply reads_weaken.
  - unfold dump_params. apply reads_nullable with (R := fun m r => exists qs, Permutation m qs /\ Forall2 (fun a b => fst a = fst b /\ snd a = snd b) qs r) (dump := fun m => DMap (map (fun kv => (fst kv, dump_lit (snd kv))) m)).
    intros m _. split; [discriminate|]. apply reads_dict with (dump := fun _ => dump_lit) (R := eq). intros k a _. apply reads_lit.
  - intros r H. destruct p as [m|], r as [r|]; cbn; try contradiction; auto. destruct H as (qs & P & F).
    enough (qs = r) by congruence. clear - F. induction F as [|(k, a) (k', b) l l' (E1 & E2) _ IH]; cbn in *; congruence.
Qed.
Arguments reads_params : clear implicits.

(** ** Statements *)
Fixpoint need (c : wc) : nat :=
  match c with
  | WInStmt _ s _ => S (need_stmt s)
  | WAnd l | WOr l => S (list_max (map need l))
  | _ => 1
  end
with need_sel (s : sel) : nat := match s with Sel _ _ (Some w) _ _ _ => need w | Sel _ _ None _ _ _ => 0 end
with need_stmt (s : stmt) : nat := match s with SSelect x => need_sel x | SUnion l => list_max (map need_sel l) end.

Definition reads_wc (c : wc) : Prop := forall f set, need c <= f -> reads (load_wc f) (dump_wc set c) (same_wc c).
Definition reads_sel (s : sel) : Prop := forall f set, need_sel s <= f -> reads (load_sel_with (load_wc f)) (dump_sel set s) (same_sel s) /\
  reads (tagged "select" (load_sel_with (load_wc f))) (dump_sel set s) (same_sel s).
Definition reads_stmt (s : stmt) : Prop := forall f set, need_stmt s <= f -> reads (load_stmt_with (load_wc f)) (dump_stmt set s) (same_stmt s).

Lemma need_list : forall (A : Type) (n : A -> nat) l f, list_max (map n l) <= f -> Forall (fun a => n a <= f) l.
Proof. intros A n l f H. apply list_max_le in H. now rewrite Forall_map in H. Qed.
Lemma dump_wc_map : forall set c, exists m, dump_wc set c = DMap m.
Proof. intros set c. destruct c; cbn [dump_wc]; try (eexists; reflexivity). Qed.
Lemma dump_stmt_map : forall set s, exists m, dump_stmt set s = DMap m.
Proof. intros set s. destruct s as [[]|]; cbn [dump_stmt dump_sel]; eexists; reflexivity. Qed.

Ltac open_wc L L' Nk := destruct (like_map_inv L) as (m & -> & L'); match type of L' with like _ (DMap ?m0) => assert (Nk : NoDup (dkeys m0)) by keys end;
  cbn [load_wc as_map bind]; destruct (reads_required L' Nk "type_" (k := "type") eq_refl (reads_str _)) as (tag & -> & <-); cbn [bind String.eqb Ascii.eqb Bool.eqb].

Lemma reads_everything : (forall c, reads_wc c) /\ (forall s, reads_sel s) /\ (forall s, reads_stmt s).
Proof.
  assert (HF : reads_wc WFalse). { intros [|f] set Hf d L; [cbn in Hf; lia|]. cbn [dump_wc] in L. open_wc L L' Nk. exists WFalse. split; [reflexivity|constructor]. }
  assert (HT : reads_wc WTrue). { intros [|f] set Hf d L; [cbn in Hf; lia|]. cbn [dump_wc] in L. open_wc L L' Nk. exists WTrue. split; [reflexivity|constructor]. }
  assert (HOp : forall op c v, reads_wc (WOp op c v)).
  { intros op c v [|f] set Hf d L; [cbn in Hf; lia|]. cbn [dump_wc] in L. open_wc L L' Nk.
    destruct (reads_optional (default := OpEq) (k := "operator") (w := written set "operator" (String.eqb (op_text op) "=")) L' Nk (d' := DStr (op_text op)) (P := eq op) (f := as_op)) as (a & -> & <-).
    { look. } { apply reads_op. } { intros W. destruct op; cbn in W; try discriminate. reflexivity. }
    cbn [bind].
    destruct (reads_required L' Nk "column" (k := "column") (d' := DStr c) ltac:(look) (reads_str c)) as (a & -> & <-). cbn [bind].
    destruct (reads_required L' Nk "value" (k := "value") (d' := dump_lit v) ltac:(look) (reads_lit v)) as (a & -> & <-). cbn [bind].
    eexists. split; [reflexivity|constructor]. }
  assert (HIV : forall cs vs n, reads_wc (WInVals cs vs n)).
  { intros cs vs n [|f] set Hf d L; [cbn in Hf; lia|]. cbn [dump_wc] in L. open_wc L L' Nk.
    destruct (reads_required L' Nk "columns" (k := "columns") (d' := dump_strs cs) eq_refl (reads_strs cs)) as (a & -> & <-). cbn [bind].
    destruct (reads_optional (default := false) (k := "negated") (w := written set "negated" (negb n)) L' Nk (d' := DBool n) (P := eq n) (f := as_bool)) as (a & -> & <-).
    { look. } { apply reads_bool. } { destruct n; [discriminate|reflexivity]. }
    cbn [bind]. pose proof (like_dget L' Nk "values") as H. cbn [dget app] in H. destruct H as (dv & -> & Lv).
    destruct (like_list_inv Lv) as (l & -> & Fl).
    destruct (reads_all (f := as_list as_lit) (R := eq) (dump := fun l => DList (map dump_lit l)) (l := vs)) with (ds := l) as (r & -> & Fr); auto.
    { apply Forall_forall. intros x _. apply reads_list. intros ds Lx. destruct (reads_all (f := as_lit) (R := eq) (dump := dump_lit) (l := x)) with (ds := ds) as (r & E & F); auto.
      - apply Forall_forall. intros y _. apply reads_lit. - apply Forall2_eq in F. eauto. }
    apply Forall2_eq in Fr. subst r. cbn [bind]. eexists. split; [reflexivity|constructor]. }
  assert (HIS : forall cs s n, reads_stmt s -> reads_wc (WInStmt cs s n)).
  { intros cs s n IH [|f] set Hf d L; [cbn in Hf; lia|]. cbn [need] in Hf. cbn [dump_wc] in L. open_wc L L' Nk.
    destruct (reads_required L' Nk "columns" (k := "columns") (d' := dump_strs cs) eq_refl (reads_strs cs)) as (a & -> & <-). cbn [bind].
    destruct (reads_optional (default := false) (k := "negated") (w := written set "negated" (negb n)) L' Nk (d' := DBool n) (P := eq n) (f := as_bool)) as (a & -> & <-).
    { look. } { apply reads_bool. } { destruct n; [discriminate|reflexivity]. }
    cbn [bind]. pose proof (like_dget L' Nk "values") as H. cbn [dget app] in H. destruct H as (dv & -> & Lv).
    destruct (IH f (below set [inl "values"]) ltac:(lia) dv Lv) as (s' & E & Ss).
    destruct (dump_stmt_map (below set [inl "values"]) s) as (ms & Ems). rewrite Ems in Lv. destruct (like_map_inv Lv) as (mv & -> & _).
    rewrite E. cbn [bind]. eexists. split; [reflexivity|now constructor]. }
  assert (HA : forall l, Forall reads_wc l -> reads_wc (WAnd l)).
  { intros l IH [|f] set Hf d L; [cbn in Hf; lia|]. cbn [need] in Hf. cbn [dump_wc] in L. open_wc L L' Nk.
    destruct (reads_required (f := as_list (load_wc f)) (P := Forall2 same_wc l) L' Nk "conditions" (k := "conditions") eq_refl) as (a & -> & Sa).
    { apply reads_elems. assert (Hl : list_max (map need l) <= f) by lia. apply need_list in Hl. apply Forall_forall. intros c Hc s. rewrite Forall_forall in IH, Hl. apply IH; auto. }
    cbn [bind]. eexists. split; [reflexivity|now constructor]. }
  assert (HO : forall l, Forall reads_wc l -> reads_wc (WOr l)).
  { intros l IH [|f] set Hf d L; [cbn in Hf; lia|]. cbn [need] in Hf. cbn [dump_wc] in L. open_wc L L' Nk.
    destruct (reads_required (f := as_list (load_wc f)) (P := Forall2 same_wc l) L' Nk "conditions" (k := "conditions") eq_refl) as (a & -> & Sa).
    { apply reads_elems. assert (Hl : list_max (map need l) <= f) by lia. apply need_list in Hl. apply Forall_forall. intros c Hc s. rewrite Forall_forall in IH, Hl. apply IH; auto. }
    cbn [bind]. eexists. split; [reflexivity|now constructor]. }
  assert (HR : forall q, reads_wc (WRandom q)).
  { intros q [|f] set Hf d L; [cbn in Hf; lia|]. cbn [dump_wc] in L. open_wc L L' Nk.
    destruct (reads_required L' Nk "threshold" (k := "threshold") eq_refl (reads_float q)) as (a & -> & <-). cbn [bind]. eexists. split; [reflexivity|constructor]. }
  assert (HS : forall s ps, reads_wc (WSQL s ps)).
  { intros sql ps [|f] set Hf d L; [cbn in Hf; lia|]. cbn [dump_wc] in L. open_wc L L' Nk.
    destruct (reads_required L' Nk "sql" (k := "sql") eq_refl (reads_str sql)) as (a & -> & <-). cbn [bind].
    destruct (reads_optional (default := None) (k := "sql_params") (w := written set "sql_params" (is_none ps)) L' Nk (d' := dump_params ps) (P := same_params ps) (f := nullable (as_dict as_lit))) as (a & -> & Sa).
    { look. } { apply reads_params. } { destruct ps; [discriminate|]. intros _. exact I. }
    cbn [bind]. eexists. split; [reflexivity|now constructor]. }
  assert (HSel : forall cs fr w lim js o, opt_P reads_wc w -> reads_sel (Sel cs fr w lim js o)).
  { intros cs fr w lim js o IH f set Hf. cbn [dump_sel].
    match goal with |- reads _ ?d _ /\ _ => remember d as d0 eqn:Ed end.
    assert (G : reads (load_sel_with (load_wc f)) d0 (same_sel (Sel cs fr w lim js o))).
    { subst d0. intros d L. destruct (like_map_inv L) as (m & -> & L').
      match type of L' with like _ (DMap ?m0) => assert (Nk : NoDup (dkeys m0)) by keys end.
      unfold load_sel_with. cbn [as_map bind].
      destruct (reads_optional (default := None) (k := "columns") (w := written set "columns" (is_none cs)) L' Nk
        (d' := match cs with None => DNull | Some l => dump_strs l end) (P := eq cs) (f := nullable (as_list as_str))) as (a & -> & <-).
      { look. }
      { eapply reads_weaken; [apply reads_nullable with (R := eq) (dump := dump_strs); intros b _; split; [discriminate|apply reads_strs]|]. intros [r|] Hr; destruct cs; try contradiction; congruence. }
      { destruct cs; [discriminate|reflexivity]. }
      cbn [bind].
      destruct (reads_required L' Nk "from_" (k := "from") (d' := dump_ident (below set [inl "from"]) fr) ltac:(look) (reads_ident _ fr)) as (a & -> & <-). cbn [bind].
      destruct (reads_optional (default := None) (k := "where") (w := written set "where" (is_none w)) L' Nk
        (d' := match w with None => DNull | Some w => dump_wc (below set [inl "where"]) w end)
        (P := fun r => match w, r with Some b, Some a => same_wc b a | None, None => True | _, _ => False end) (f := nullable (load_wc f))) as (w' & -> & Sw).
      { look. }
      { apply reads_nullable with (R := same_wc). intros b ->. split; [destruct (dump_wc_map (below set [inl "where"]) b) as (? & ->); discriminate|]. apply IH. exact Hf. }
      { destruct w; [discriminate|]. intros _. exact I. }
      cbn [bind].
      destruct (reads_optional (default := None) (k := "limit") (w := written set "limit" (is_none lim)) L' Nk
        (d' := match lim with None => DNull | Some l => DInt l end) (P := eq lim) (f := nullable as_int)) as (a & -> & <-).
      { look. }
      { eapply reads_weaken; [apply reads_nullable with (R := eq) (dump := DInt); intros b _; split; [discriminate|apply reads_int]|]. intros [r|] Hr; destruct lim; try contradiction; congruence. }
      { destruct lim; [discriminate|reflexivity]. }
      cbn [bind].
      destruct (reads_optional (default := None) (k := "joins") (w := written set "joins" (is_none js)) L' Nk
        (d' := match js with None => DNull | Some l => DList (dump_list dump_join (below set [inl "joins"]) l 0) end) (P := eq js) (f := nullable (as_list load_join))) as (a & -> & <-).
      { look. }
      { eapply reads_weaken; [apply reads_nullable with (R := eq) (dump := fun l => DList (dump_list dump_join (below set [inl "joins"]) l 0)); intros b _; split; [discriminate|apply reads_joins]|]. intros [r|] Hr; destruct js; try contradiction; congruence. }
      { destruct js; [discriminate|reflexivity]. }
      cbn [bind].
      destruct (reads_optional (default := false) (k := "joins_outer") (w := written set "joins_outer" (negb o)) L' Nk (d' := DBool o) (P := eq o) (f := as_bool)) as (a & -> & <-).
      { look. } { apply reads_bool. } { destruct o; [discriminate|reflexivity]. }
      cbn [bind]. eexists. split; [reflexivity|]. destruct w, w'; try contradiction; now constructor. }
    split; auto. intros d L. pose proof (G d L) as Gd. subst d0. destruct (like_map_inv L) as (m & -> & L').
    match type of L' with like _ (DMap ?m0) => assert (Nk : NoDup (dkeys m0)) by keys end.
    unfold tagged. cbn [as_map bind]. destruct (reads_required L' Nk "type_" (k := "type") (d' := DStr "select") eq_refl (reads_str "select")) as (a & -> & <-).
    cbn [bind]. rewrite String.eqb_refl. exact Gd. }
  assert (HSS : forall x, reads_sel x -> reads_stmt (SSelect x)).
  { intros x IH f set Hf d L. cbn [dump_stmt] in L. cbn [need_stmt] in Hf. destruct (proj1 (IH f set Hf) d L) as (s' & E & Ss).
    destruct x as [cs fr w lim js o]. cbn [dump_sel] in L. destruct (like_map_inv L) as (m & -> & L').
    match type of L' with like _ (DMap ?m0) => assert (Nk : NoDup (dkeys m0)) by keys end.
    unfold load_stmt_with. cbn [as_map bind]. destruct (reads_required L' Nk "type_" (k := "type") (d' := DStr "select") eq_refl (reads_str "select")) as (a & -> & <-).
    cbn [bind]. rewrite String.eqb_refl, E. cbn [bind]. eexists. split; [reflexivity|now constructor]. }
  assert (HSU : forall l, Forall reads_sel l -> reads_stmt (SUnion l)).
  { intros l IH f set Hf d L. cbn [need_stmt] in Hf. cbn [dump_stmt] in L. destruct (like_map_inv L) as (m & -> & L').
    match type of L' with like _ (DMap ?m0) => assert (Nk : NoDup (dkeys m0)) by keys end.
    unfold load_stmt_with. cbn [as_map bind]. destruct (reads_required L' Nk "type_" (k := "type") (d' := DStr "union") eq_refl (reads_str "union")) as (a & -> & <-).
    cbn [bind String.eqb Ascii.eqb Bool.eqb].
    destruct (reads_required (f := as_list (tagged "select" (load_sel_with (load_wc f)))) (P := Forall2 same_sel l) L' Nk "statements" (k := "statements") eq_refl) as (a & -> & Sa).
    { apply reads_elems. apply need_list in Hf. apply Forall_forall. intros c Hc s. rewrite Forall_forall in IH, Hf. apply IH; auto. }
    cbn [bind]. eexists. split; [reflexivity|now constructor]. }
  split; [|split].
  - exact (wc_i HF HT HOp HIV HIS HA HO HR HS HSel HSS HSU).
  - exact (sel_i HF HT HOp HIV HIS HA HO HR HS HSel HSS HSU).
  - exact (stmt_i HF HT HOp HIV HIS HA HO HR HS HSel HSS HSU).
Qed.

(** ** Fuel *)
Definition safe {A} (n : nat) (f : data -> lres A) : Prop := forall d, depth d <= n -> f d <> Err LxFuel.
Lemma bind_safe : forall (A B : Type) (r : lres A) (k : A -> lres B), r <> Err LxFuel -> (forall a, r = Ok a -> k a <> Err LxFuel) -> bind r k <> Err LxFuel.
Proof. intros A B [a|e] k H K; cbn; auto. intros E. apply H. inversion E. reflexivity. Qed.
Lemma dget_depth : forall m k d, dget m k = Some d -> depth d < depth (DMap m).
Proof.
  intros m k d H. apply dget_In in H. cbn [depth]. apply Nat.lt_succ_r.
  assert (L : list_max (map (fun kv => depth (snd kv)) m) <= list_max (map (fun kv => depth (snd kv)) m)) by lia.
  apply list_max_le in L. rewrite Forall_map, Forall_forall in L. exact (L (k, d) H).
Qed.
Lemma mapM_safe : forall (A B : Type) (f : A -> lres B) l, (forall a, In a l -> f a <> Err LxFuel) -> mapM f l <> Err LxFuel.
Proof.
  induction l as [|a l IH]; intros H; cbn; [discriminate|]. apply bind_safe; [apply H; now left|]. intros b _.
  apply bind_safe; [apply IH; intros x Hx; apply H; now right|]. intros bs _. discriminate.
Qed.
Lemma as_list_safe : forall (A : Type) (f : data -> lres A) n, safe n f -> safe (S n) (as_list f).
Proof.
  intros A f n H d Hd. destruct d; try discriminate. cbn [as_list depth] in *. apply mapM_safe. intros a Ha. apply H.
  apply le_S_n in Hd. apply list_max_le in Hd. rewrite Forall_map, Forall_forall in Hd. auto.
Qed.
Lemma as_dict_safe : forall (A : Type) (f : data -> lres A) n, safe n f -> safe (S n) (as_dict f).
Proof.
  intros A f n H d Hd. destruct d; try discriminate. cbn [as_dict depth] in *. apply mapM_safe. intros a Ha. apply bind_safe; [|discriminate]. apply H.
  apply le_S_n in Hd. apply list_max_le in Hd. rewrite Forall_map, Forall_forall in Hd. auto.
Qed.
Lemma safe_mono : forall (A : Type) (f : data -> lres A) n n', safe n f -> n' <= n -> safe n' f.
Proof. intros A f n n' H L d Hd. apply H. lia. Qed.
Lemma nullable_safe : forall (A : Type) (f : data -> lres A) n, safe n f -> safe n (nullable f).
Proof. intros A f n H d Hd. unfold nullable. destruct d; try discriminate; (apply bind_safe; [apply H; exact Hd|discriminate]). Qed.
Lemma required_safe : forall (A : Type) (f : data -> lres A) m k k2 n, safe n f -> depth (DMap m) <= S n -> required f m k k2 <> Err LxFuel.
Proof.
  intros A f m k k2 n H L. unfold required, lookup. destruct (dget m k) as [d|] eqn:E; [apply H; apply dget_depth in E; lia|].
  destruct (dget m k2) as [d|] eqn:E2; [apply H; apply dget_depth in E2; lia|discriminate].
Qed.
Lemma optional_safe : forall (A : Type) (f : data -> lres A) a m k n, safe n f -> depth (DMap m) <= S n -> optional f a m k <> Err LxFuel.
Proof.
  intros A f a m k n H L. unfold optional. destruct (dget m k) as [d|] eqn:E; [apply H; apply dget_depth in E; lia|discriminate].
Qed.
Lemma str_safe : forall n, safe n as_str. Proof. intros n [] _; discriminate. Qed.
Lemma bool_safe : forall n, safe n as_bool. Proof. intros n d _. exact (proj1 (scalars_no_fuel d)). Qed.
Lemma int_safe : forall n, safe n as_int. Proof. intros n d _. exact (proj1 (proj2 (scalars_no_fuel d))). Qed.
Lemma float_safe : forall n, safe n as_float. Proof. intros n d _. exact (proj2 (proj2 (scalars_no_fuel d))). Qed.
Lemma lit_safe : forall n, safe n as_lit. Proof. intros n [] _; discriminate. Qed.
Lemma op_safe : forall n, safe n as_op.
Proof. intros n d _. unfold as_op. apply bind_safe; [now destruct d|]. intros s _. destruct (find _ _); discriminate. Qed.
Lemma list_any_safe : forall (A : Type) (f : data -> lres A), (forall n, safe n f) -> forall n, safe n (as_list f).
Proof. intros A f H n d Hd. destruct n as [|n]; [destruct d; cbn in Hd; lia|]. exact (as_list_safe (H n) Hd). Qed.
Lemma dict_any_safe : forall (A : Type) (f : data -> lres A), (forall n, safe n f) -> forall n, safe n (as_dict f).
Proof. intros A f H n d Hd. destruct n as [|n]; [destruct d; cbn in Hd; lia|]. exact (as_dict_safe (H n) Hd). Qed.

Ltac sf := lazymatch goal with
  | |- bind _ _ <> _ => apply bind_safe; [sf|intros; sf]
  | |- required _ _ _ _ <> _ => eapply required_safe; [sf|cbn [depth] in *; eassumption || lia]
  | |- optional _ _ _ _ <> _ => eapply optional_safe; [sf|cbn [depth] in *; eassumption || lia]
  | |- safe _ as_str => apply str_safe | |- safe _ as_bool => apply bool_safe | |- safe _ as_int => apply int_safe
  | |- safe _ as_float => apply float_safe | |- safe _ as_lit => apply lit_safe | |- safe _ as_op => apply op_safe
  | |- safe _ (nullable _) => apply nullable_safe; sf
  | |- Ok _ <> _ => discriminate
  | |- Err LxInvalid <> _ => discriminate
  | |- _ => idtac end.
Lemma strs_safe : forall n, safe n (as_list as_str). Proof. exact (list_any_safe str_safe). Qed.
Lemma lits_safe : forall n, safe n (as_dict as_lit). Proof. exact (dict_any_safe lit_safe). Qed.
Lemma as_map_ok : forall d m, as_map d = Ok m -> d = DMap m.
Proof. intros d m H. destruct d; cbn in H; inversion H; reflexivity. Qed.
Lemma as_map_nofuel : forall d, as_map d <> Err LxFuel. Proof. intros []; discriminate. Qed.
Lemma ident_safe : forall n, safe n load_ident.
Proof.
  intros n d _. unfold load_ident. apply bind_safe; [apply as_map_nofuel|]. intros m _.
  pose proof (Nat.le_succ_diag_r (depth (DMap m))) as L. sf.
Qed.
Lemma join_safe : forall n, safe n load_join.
Proof.
  intros n d _. unfold load_join. apply bind_safe; [apply as_map_nofuel|]. intros m _.
  pose proof (Nat.le_succ_diag_r (depth (DMap m))) as L. sf; try apply ident_safe; try apply strs_safe.
Qed.
Lemma sel_safe : forall lw n, safe n lw -> safe (S n) (load_sel_with lw).
Proof.
  intros lw n H d Hd. unfold load_sel_with. apply bind_safe; [apply as_map_nofuel|]. intros m Hm. apply as_map_ok in Hm. subst d.
  sf; try apply ident_safe; try apply strs_safe; try apply (list_any_safe join_safe); auto.
Qed.
Lemma tagged_safe : forall (A : Type) tag (f : data -> lres A) n, safe n f -> safe n (tagged tag f).
Proof.
  intros A tag f n H d Hd. unfold tagged. apply bind_safe; [apply as_map_nofuel|]. intros m Hm. apply as_map_ok in Hm. subst d.
  apply bind_safe; [eapply required_safe; [apply str_safe|apply Nat.le_succ_diag_r]|]. intros t _. destruct (String.eqb t tag); [auto|discriminate].
Qed.
Lemma stmt_safe : forall lw n, safe n lw -> safe (S n) (load_stmt_with lw).
Proof.
  intros lw n H d Hd. unfold load_stmt_with. apply bind_safe; [apply as_map_nofuel|]. intros m Hm. apply as_map_ok in Hm. subst d.
  apply bind_safe; [sf|]. intros t _.
  destruct (String.eqb t "select"); [apply bind_safe; [apply (sel_safe H Hd)|discriminate]|].
  destruct (String.eqb t "union"); [|discriminate]. apply bind_safe; [|discriminate].
  eapply required_safe; [|exact Hd]. intros d' Hd'. destruct n as [|n]; [destruct d'; cbn in Hd'; lia|].
  apply (as_list_safe (n := n)); auto. apply tagged_safe. destruct n as [|n].
  - intros d'' Hd''. destruct d''; cbn in Hd''; lia.
  - apply sel_safe. apply (safe_mono H). lia.
Qed.
Lemma wc_safe : forall f, safe f (load_wc f).
Proof.
  induction f as [|f IH]; intros d Hd; [destruct d; cbn in Hd; lia|]. cbn [load_wc].
  apply bind_safe; [apply as_map_nofuel|]. intros m Hm. apply as_map_ok in Hm. subst d. apply bind_safe; [sf|]. intros t _.
  repeat (match goal with |- context [String.eqb t ?s] => destruct (String.eqb t s) end; [try discriminate|]); try discriminate.
  - sf.
  - apply bind_safe; [eapply required_safe; [apply strs_safe|exact Hd]|]. intros cs _. apply bind_safe; [sf|]. intros n _.
    destruct (dget m "values") as [d'|] eqn:E; [|discriminate]. apply dget_depth in E.
    destruct f as [|f]; [destruct d'; cbn [depth] in E, Hd; lia|].
    assert (S1 : load_stmt_with (load_wc (S f)) d' <> Err LxFuel). { apply (@stmt_safe _ (S f) IH). lia. }
    destruct d'; try (apply bind_safe; [exact S1|discriminate]). apply bind_safe; [|discriminate].
    apply mapM_safe. intros x _. apply (list_any_safe lit_safe (n := depth x)). lia.
  - apply bind_safe; [|discriminate]. eapply required_safe; [|exact Hd]. intros d' Hd'. destruct f as [|f]; [destruct d'; cbn in Hd'; lia|].
    apply (as_list_safe (n := f)); auto. apply (safe_mono IH). lia.
  - apply bind_safe; [|discriminate]. eapply required_safe; [|exact Hd]. intros d' Hd'. destruct f as [|f]; [destruct d'; cbn in Hd'; lia|].
    apply (as_list_safe (n := f)); auto. apply (safe_mono IH). lia.
  - sf.
  - apply bind_safe; [sf|]. intros sql _. apply bind_safe; [eapply optional_safe; [apply nullable_safe, lits_safe|exact Hd]|]. discriminate.
Qed.
Lemma query_safe : forall n, safe (S (S n)) (load_query n).
Proof.
  intros n d Hd. unfold load_query. apply bind_safe; [apply as_map_nofuel|]. intros m Hm. apply as_map_ok in Hm. subst d.
  sf; try apply lits_safe. apply stmt_safe, wc_safe.
Qed.
Theorem load_plan_fuel : forall d, load_plan d <> Err LxFuel.
Proof.
  intros d. unfold load_plan. apply bind_safe; [apply as_map_nofuel|]. intros m Hm. apply as_map_ok in Hm. subst d.
  apply bind_safe; [|intros; apply bind_safe; [eapply optional_safe; [apply strs_safe|apply Nat.le_succ_diag_r]|discriminate]].
  set (D := depth (DMap m)). assert (HD : exists k, D = S k) by (exists (list_max (map (fun kv => depth (snd kv)) m)); reflexivity). destruct HD as (k & HD).
  apply required_safe with (n := S (S (S D))); [|fold D; lia]. apply as_dict_safe. apply query_safe.
Qed.

(** More fuel does not change an answer. *)
Definition agrees {A} (f g : data -> lres A) : Prop := forall d, f d <> Err LxFuel -> g d = f d.
Lemma bind_agrees : forall (A B : Type) (r r' : lres A) (k k' : A -> lres B), (r <> Err LxFuel -> r' = r) ->
  (forall a, k a <> Err LxFuel -> k' a = k a) -> bind r k <> Err LxFuel -> bind r' k' = bind r k.
Proof.
  intros A B r r' k k' H K N. destruct r as [a|e]; cbn in N; rewrite H; cbn; auto; try discriminate. intros E. apply N. inversion E. reflexivity.
Qed.
Lemma mapM_agrees : forall (A : Type) (f g : data -> lres A) l, agrees f g -> mapM f l <> Err LxFuel -> mapM g l = mapM f l.
Proof.
  intros A f g l H. induction l as [|a l IH]; intros N; [reflexivity|]. cbn in *. revert N. apply bind_agrees; [apply H|].
  intros b. apply bind_agrees; [exact IH|]. auto.
Qed.
Lemma list_agrees : forall (A : Type) (f g : data -> lres A), agrees f g -> agrees (as_list f) (as_list g).
Proof. intros A f g H d N. destruct d; try reflexivity. cbn in *. now apply mapM_agrees. Qed.
Lemma nullable_agrees : forall (A : Type) (f g : data -> lres A), agrees f g -> agrees (nullable f) (nullable g).
Proof. intros A f g H d. unfold nullable. destruct d; try reflexivity; (apply bind_agrees; [apply H|reflexivity]). Qed.
Lemma dict_agrees : forall (A : Type) (f g : data -> lres A), agrees f g -> agrees (as_dict f) (as_dict g).
Proof.
  intros A f g H d. destruct d; try reflexivity. cbn. induction m as [|(k, d) m IH]; [reflexivity|]. cbn. apply bind_agrees.
  - apply bind_agrees; [apply H|reflexivity].
  - intros b. apply bind_agrees; [exact IH|reflexivity].
Qed.
Lemma required_agrees : forall (A : Type) (f g : data -> lres A) m k k2, agrees f g -> required f m k k2 <> Err LxFuel -> required g m k k2 = required f m k k2.
Proof. intros A f g m k k2 H. unfold required. destruct (lookup m k k2); auto. Qed.
Lemma optional_agrees : forall (A : Type) (f g : data -> lres A) a m k, agrees f g -> optional f a m k <> Err LxFuel -> optional g a m k = optional f a m k.
Proof. intros A f g a m k H. unfold optional. destruct (dget m k); auto. Qed.
Lemma agrees_refl : forall (A : Type) (f : data -> lres A), agrees f f. Proof. intros A f d _. reflexivity. Qed.
Lemma sel_agrees : forall f g, agrees f g -> agrees (load_sel_with f) (load_sel_with g).
Proof.
  intros f g H d. unfold load_sel_with. apply bind_agrees; [reflexivity|]. intros m. apply bind_agrees; [reflexivity|]. intros cs. apply bind_agrees; [reflexivity|]. intros fr.
  apply bind_agrees; [apply optional_agrees, nullable_agrees, H|]. reflexivity.
Qed.
Lemma tagged_agrees : forall (A : Type) tag (f g : data -> lres A), agrees f g -> agrees (tagged tag f) (tagged tag g).
Proof. intros A tag f g H d. unfold tagged. apply bind_agrees; [reflexivity|]. intros m. apply bind_agrees; [reflexivity|]. intros t. destruct (String.eqb t tag); auto. Qed.
Lemma stmt_agrees : forall f g, agrees f g -> agrees (load_stmt_with f) (load_stmt_with g).
Proof.
  intros f g H d. unfold load_stmt_with. apply bind_agrees; [reflexivity|]. intros m. apply bind_agrees; [reflexivity|]. intros t.
  destruct (String.eqb t "select"); [apply bind_agrees; [apply (sel_agrees H)|reflexivity]|]. destruct (String.eqb t "union"); auto.
  apply bind_agrees; [apply required_agrees, list_agrees, tagged_agrees, sel_agrees, H|reflexivity].
Qed.
Lemma wc_agrees : forall f, agrees (load_wc f) (load_wc (S f)).
Proof.
  induction f as [|f IH]; intros d; [intros N; exfalso; apply N; reflexivity|]. set (g := S f) in *. change (load_wc (S f) d) with (load_wc g d). unfold g at 1 3. cbn [load_wc]. fold g.
  apply bind_agrees; [reflexivity|]. intros m. apply bind_agrees; [reflexivity|]. intros t.
  destruct (String.eqb t "false"); [reflexivity|]. destruct (String.eqb t "true"); [reflexivity|]. destruct (String.eqb t "operator"); [reflexivity|].
  destruct (String.eqb t "in").
  { apply bind_agrees; [reflexivity|]. intros cs. apply bind_agrees; [reflexivity|]. intros n. destruct (dget m "values") as [[]|]; try reflexivity; (apply bind_agrees; [apply (stmt_agrees IH)|reflexivity]). }
  destruct (String.eqb t "and"); [apply bind_agrees; [apply required_agrees, list_agrees, IH|reflexivity]|].
  destruct (String.eqb t "or"); [apply bind_agrees; [apply required_agrees, list_agrees, IH|reflexivity]|]. reflexivity.
Qed.
Lemma wc_agrees_le : forall f f', f <= f' -> agrees (load_wc f) (load_wc f').
Proof.
  intros f f' L. induction L as [|f' L IH]; [apply agrees_refl|]. intros d N. rewrite <- (IH d N). apply wc_agrees. now rewrite (IH d N).
Qed.
Lemma query_agrees : forall f f', f <= f' -> agrees (load_query f) (load_query f').
Proof.
  intros f f' L d. unfold load_query. apply bind_agrees; [reflexivity|]. intros m. apply bind_agrees; [reflexivity|]. intros sql. apply bind_agrees; [reflexivity|]. intros ps.
  apply bind_agrees; [apply optional_agrees, nullable_agrees, stmt_agrees, wc_agrees_le, L|reflexivity].
Qed.

(** ** Queries and plans *)
Definition need_query (q : table_query) : nat := match q_stmt q with Some s => need_stmt s | None => 0 end.
Lemma reads_query : forall q f set, need_query q <= f -> reads (load_query f) (dump_query set q) (same_query q).
Proof.
  intros q f set Hf d L. unfold dump_query in L. destruct (like_map_inv L) as (m & -> & L').
  match type of L' with like _ (DMap ?m0) => assert (Nk : NoDup (dkeys m0)) by keys end.
  unfold load_query. cbn [as_map bind].
  destruct (reads_optional (default := None) (k := "sql") (w := written set "sql" (is_none (q_sql q))) L' Nk
    (d' := match q_sql q with None => DNull | Some s => DStr s end) (P := eq (q_sql q)) (f := nullable as_str)) as (a & -> & E1).
  { look. }
  { eapply reads_weaken; [apply reads_nullable with (R := eq) (dump := DStr); intros b _; split; [discriminate|apply reads_str]|]. intros [r|] Hr; destruct (q_sql q); try contradiction; congruence. }
  { destruct (q_sql q); [discriminate|reflexivity]. }
  cbn [bind].
  destruct (reads_optional (default := None) (k := "sql_params") (w := written set "sql_params" (is_none (q_params q))) L' Nk (d' := dump_params (q_params q)) (P := same_params (q_params q)) (f := nullable (as_dict as_lit))) as (ps & -> & E2).
  { look. } { apply reads_params. } { destruct (q_params q); [discriminate|]. intros _. exact I. }
  cbn [bind].
  destruct (reads_optional (default := None) (k := "statement") (w := written set "statement" (is_none (q_stmt q))) L' Nk
    (d' := match q_stmt q with None => DNull | Some s => dump_stmt (below set [inl "statement"]) s end)
    (P := fun r => match q_stmt q, r with Some b, Some a => same_stmt b a | None, None => True | _, _ => False end) (f := nullable (load_stmt_with (load_wc f)))) as (s' & -> & E3).
  { look. }
  { apply reads_nullable with (R := same_stmt). intros b Hb. split; [destruct (dump_stmt_map (below set [inl "statement"]) b) as (? & ->); discriminate|].
    apply reads_everything. unfold need_query in Hf. now rewrite Hb in Hf. }
  { destruct (q_stmt q); [discriminate|]. intros _. exact I. }
  cbn [bind]. eexists. split; [reflexivity|]. split; auto.
Qed.
Theorem load_dump : forall p set file, like file (dump_plan set p) -> exists p', load_plan file = Ok p' /\ same_plan p p'.
Proof.
  intros p set file L. unfold dump_plan in L.
  match type of L with like _ (DMap ?m0) => assert (Nk : NoDup (dkeys m0)) by keys end.
  assert (NF : load_plan file <> Err LxFuel) by apply load_plan_fuel.
  destruct (like_map_inv L) as (m & -> & L'). unfold load_plan in *. cbn [as_map bind] in *.
  set (F := Nat.max (depth (DMap m)) (list_max (map (fun kq => need_query (snd kq)) (p_queries p)))).
  destruct (reads_required (f := as_dict (load_query F)) (P := fun r => exists qs, Permutation (p_queries p) qs /\ Forall2 (fun a b => fst a = fst b /\ same_query (snd a) (snd b)) qs r)
    L' Nk "queries" (k := "queries") eq_refl) as (qs & Eq & Hq).
  { apply reads_dict with (dump := fun k q => dump_query (below set [inl "queries"; inl k]) q) (R := same_query). intros k q Hin. apply reads_query.
    assert (X : list_max (map (fun kq => need_query (snd kq)) (p_queries p)) <= F) by (unfold F; lia).
    apply need_list in X. rewrite Forall_forall in X. exact (X _ Hin). }
  assert (Eq' : required (as_dict (load_query (depth (DMap m)))) m "queries" "queries" = Ok qs).
  { rewrite <- Eq. symmetry. apply required_agrees; [apply dict_agrees, query_agrees; unfold F; lia|]. intros E. apply NF. rewrite E. reflexivity. }
  rewrite Eq'. cbn [bind].
  destruct (reads_optional (default := []) (k := "passthrough") (w := written set "passthrough" (is_nil (p_passthrough p))) L' Nk
    (d' := dump_strs (p_passthrough p)) (P := eq (p_passthrough p)) (f := as_list as_str)) as (a & -> & E1).
  { look. } { apply reads_strs. } { destruct (p_passthrough p); [reflexivity|discriminate]. }
  cbn [bind]. eexists. split; [reflexivity|]. split; auto.
Qed.

(** ** Sorting keys *)
Lemma insert_perm : forall (A : Type) k (a : A) m, Permutation (insert_key k a m) ((k, a) :: m).
Proof.
  induction m as [|(k', a') m IH]; cbn; auto. destruct (String.leb k k'); auto. rewrite IH. constructor.
Qed.
Lemma sort_perm : forall (A : Type) (m : dict string A), Permutation (fold_right (fun kv acc => insert_key (fst kv) (snd kv) acc) [] m) m.
Proof. induction m as [|(k, a) m IH]; cbn; auto. rewrite insert_perm. now constructor. Qed.
Lemma data_ind' (P : data -> Prop) :
  P DNull -> (forall b, P (DBool b)) -> (forall z, P (DInt z)) -> (forall q, P (DFloat q)) -> (forall s, P (DStr s)) ->
  (forall l, Forall P l -> P (DList l)) -> (forall m, Forall (fun kv => P (snd kv)) m -> P (DMap m)) -> forall d, P d.
Proof.
  intros H1 H2 H3 H4 H5 HL HM. fix IH 1. intros d. destruct d as [|b|z|q|s|l|m]; [exact H1|exact (H2 b)|exact (H3 z)|exact (H4 q)|exact (H5 s)| |].
  - apply HL. induction l as [|d l IHl]; constructor; [apply IH|exact IHl].
  - apply HM. induction m as [|(k, d) m IHm]; constructor; [apply IH|exact IHm].
Qed.
Theorem sort_keys_like : forall d, like (sort_keys d) d.
Proof.
  induction d as [| | | | |l IH|m IH] using data_ind'; cbn [sort_keys]; try apply like_refl.
  - apply like_list. induction IH; cbn; constructor; auto.
  - eapply like_map; [apply sort_perm|]. induction IH as [|(k, d) m H _ IHm]; cbn; constructor; auto.
Qed.

(** ** Plans without parameters are read back exactly. *)
Lemma plain_everything : (forall c, forall c', same_wc c c' -> plain_wc c -> c = c') /\ (forall s, forall s', same_sel s s' -> plain_sel s -> s = s') /\
  (forall s, forall s', same_stmt s s' -> plain_stmt s -> s = s').
Proof.
  assert (HL : forall (A : Type) (same : A -> A -> Prop) (plain : A -> Prop) l, Forall (fun c => forall c', same c c' -> plain c -> c = c') l ->
    forall l', Forall2 same l l' -> Forall plain l -> l = l').
  { intros A same plain l F l' S. induction S as [|x y l l' Hxy _ IH]; intros Pl; auto. inversion F; inversion Pl; subst. f_equal; auto. }
  assert (HF : forall c', same_wc WFalse c' -> plain_wc WFalse -> WFalse = c') by (intros c' S _; inversion S; auto).
  assert (HT : forall c', same_wc WTrue c' -> plain_wc WTrue -> WTrue = c') by (intros c' S _; inversion S; auto).
  assert (HOp : forall op c v c', same_wc (WOp op c v) c' -> plain_wc (WOp op c v) -> WOp op c v = c') by (intros op c v c' S _; inversion S; auto).
  assert (HIV : forall cs vs n c', same_wc (WInVals cs vs n) c' -> plain_wc (WInVals cs vs n) -> WInVals cs vs n = c') by (intros cs vs n c' S _; inversion S; auto).
  assert (HR : forall q c', same_wc (WRandom q) c' -> plain_wc (WRandom q) -> WRandom q = c') by (intros q c' S _; inversion S; auto).
  assert (HS : forall s ps c', same_wc (WSQL s ps) c' -> plain_wc (WSQL s ps) -> WSQL s ps = c').
  { intros s ps c' S Pl. inversion S; subst; auto. inversion Pl; subst; [contradiction|]. destruct p'; [contradiction|reflexivity]. }
  assert (HIS : forall cs s n, (forall s', same_stmt s s' -> plain_stmt s -> s = s') -> forall c', same_wc (WInStmt cs s n) c' -> plain_wc (WInStmt cs s n) -> WInStmt cs s n = c').
  { intros cs s n IH c' S Pl. inversion S; subst; auto. inversion Pl; subst; [contradiction|]. f_equal; auto. }
  assert (HA : forall l, Forall (fun c => forall c', same_wc c c' -> plain_wc c -> c = c') l -> forall c', same_wc (WAnd l) c' -> plain_wc (WAnd l) -> WAnd l = c').
  { intros l IH c' S Pl. inversion S; subst; auto. inversion Pl; subst; [contradiction|]. f_equal. eapply HL; eauto. }
  assert (HO : forall l, Forall (fun c => forall c', same_wc c c' -> plain_wc c -> c = c') l -> forall c', same_wc (WOr l) c' -> plain_wc (WOr l) -> WOr l = c').
  { intros l IH c' S Pl. inversion S; subst; auto. inversion Pl; subst; [contradiction|]. f_equal. eapply HL; eauto. }
  assert (HSel : forall cs f w lim js o, opt_P (fun c => forall c', same_wc c c' -> plain_wc c -> c = c') w ->
    forall s', same_sel (Sel cs f w lim js o) s' -> plain_sel (Sel cs f w lim js o) -> Sel cs f w lim js o = s').
  { intros cs f w lim js o IH s' S Pl. inversion S; subst; auto. inversion Pl; subst. cbn in IH. do 2 f_equal. auto. }
  assert (HSS : forall x, (forall s', same_sel x s' -> plain_sel x -> x = s') -> forall s', same_stmt (SSelect x) s' -> plain_stmt (SSelect x) -> SSelect x = s').
  { intros x IH s' S Pl. inversion S; subst. inversion Pl; subst. f_equal. auto. }
  assert (HSU : forall l, Forall (fun x => forall s', same_sel x s' -> plain_sel x -> x = s') l -> forall s', same_stmt (SUnion l) s' -> plain_stmt (SUnion l) -> SUnion l = s').
  { intros l IH s' S Pl. inversion S; subst. inversion Pl; subst. f_equal. eapply HL; eauto. }
  split; [|split].
  - exact (wc_i HF HT HOp HIV HIS HA HO HR HS HSel HSS HSU).
  - exact (sel_i HF HT HOp HIV HIS HA HO HR HS HSel HSS HSU).
  - exact (stmt_i HF HT HOp HIV HIS HA HO HR HS HSel HSS HSU).
Qed.
Lemma plain_query_eq : forall q q', same_query q q' -> plain_query q -> q = q'.
Proof.
  intros [sql ps st] [sql' ps' st'] (E1 & E2 & E3) (P1 & P2). cbn in *. subst. destruct ps'; [contradiction|]. f_equal.
  destruct st as [s|], st' as [s'|]; try contradiction; auto. f_equal. apply plain_everything; auto.
Qed.
Theorem plain_plan_eq : forall p p', same_plan p p' -> (forall k q, In (k, q) (p_queries p) -> plain_query q) ->
  Permutation (p_queries p) (p_queries p') /\ p_passthrough p = p_passthrough p'.
Proof.
  intros p p' (E & qs & P & F) Pl. split; auto. enough (qs = p_queries p') by congruence.
  assert (Pl' : forall k q, In (k, q) qs -> plain_query q) by (intros k q H; apply (Pl k q); apply (Permutation_in _ (Permutation_sym P)); auto).
  clear - F Pl'. induction F as [|(k, q) (k', q') l l' (E1 & E2) _ IH]; auto. cbn in *. subst k'. f_equal; [f_equal|].
  - apply plain_query_eq; auto. apply (Pl' k). now left.
  - apply IH. intros k0 q0 H. apply (Pl' k0). now right.
Qed.
