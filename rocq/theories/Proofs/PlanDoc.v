(** The reader of plan files accepts exactly the format. *)
From Coq Require Import Permutation.
From Verif Require Import Model.Base Model.Value Model.PlanModel Model.Config Model.Metadata Model.Planner Model.PlanIO.
From Verif Require Import Spec.PlanIOSpec Spec.PlanDocSpec Proofs.BaseFacts Proofs.Scalars Proofs.PlanIOFacts Proofs.PlanIOPlanner.
Set Implicit Arguments.
Unset Strict Implicit.
Open Scope string_scope.
Open Scope list_scope.

(** The results [r] can have are those of [P]; if there is one, nothing but lack of fuel prevents it. *)
Definition m2 {A} (r : lres A) (P : A -> Prop) : Prop := forall a, (r = Ok a -> P a) /\ (P a -> r = Ok a \/ r = Err LxFuel).
Definition means {A} (f : data -> lres A) (F : data -> A -> Prop) : Prop := forall d, m2 (f d) (F d).

Lemma m2_iff {A} (r : lres A) (P Q : A -> Prop) : m2 r P -> (forall a, P a <-> Q a) -> m2 r Q.
Proof. intros H HPQ a. rewrite <- (HPQ a). apply H. Qed.
Lemma m2_bind {A B} (r : lres A) (k : A -> lres B) P Q : m2 r P -> (forall a, P a -> m2 (k a) (Q a)) -> m2 (bind r k) (fun b => exists a, P a /\ Q a b).
Proof.
  intros H HK b. split.
  - intros E. apply bind_Ok in E. destruct E as (a & Ea & Eb). exists a. apply H in Ea. split; [exact Ea|]. apply (HK a Ea). exact Eb.
  - intros (a & Pa & Qab). destruct (proj2 (H a) Pa) as [->| ->]; [|right; reflexivity]. cbn. apply (HK a Pa). exact Qab.
Qed.
Lemma m2_ok {A} (x : A) : m2 (Ok x) (fun a => a = x).
Proof. intros a. split; [intros E; injection E as <-; reflexivity|intros ->; left; reflexivity]. Qed.
Lemma m2_err {A} (P : A -> Prop) : (forall a, ~ P a) -> m2 (Err LxInvalid) P.
Proof. intros H a. split; [discriminate|intros Ha; elim (H a Ha)]. Qed.

#[local] Ltac leaf := intros d a; split; [destruct d; try discriminate; intros E; injection E as <-; reflexivity|intros ->; left; reflexivity].
Lemma means_str : means as_str text. Proof. leaf. Qed.
Lemma means_scalar {A} (f : data -> lres A) F : (forall d a, f d = Ok a <-> F d a) -> means f F.
Proof. intros H d a. split; [apply H|]. intros E. left. now apply H. Qed.
Lemma means_bool : means as_bool flag. Proof. exact (means_scalar as_bool_ok). Qed.
Lemma means_int : means as_int number. Proof. exact (means_scalar as_int_ok). Qed.
Lemma means_float : means as_float decimal. Proof. exact (means_scalar as_float_ok). Qed.
Lemma means_lit : means as_lit literal.
Proof.
  intros d a. split; [destruct d as [|[|]| | | | |]; try discriminate; intros E; injection E as <-; cbn; eauto; right; solve [exists true; auto|exists false; auto]|].
  destruct a; cbn; [intros ->; left; reflexivity|intros [->|([|] & -> & ->)]; left; reflexivity|intros ->; left; reflexivity].
Qed.
Lemma means_op : means as_op operator.
Proof.
  intros d a. split.
  - unfold as_op. destruct d as [| | |s| | |]; try discriminate. cbn [as_str bind]. destruct (find _ _) as [o|] eqn:F; [|discriminate]. intros E. injection E as <-.
    apply find_some in F. destruct F as [_ F]. apply String.eqb_eq in F. rewrite <- F. destruct o; reflexivity.
  - intros ->. left. destruct a; reflexivity.
Qed.
Lemma means_all {A} (f : data -> lres A) F : means f F -> forall l, m2 (mapM f l) (Forall2 F l).
Proof.
  intros H. induction l as [|d l IH]; cbn [mapM].
  - eapply m2_iff; [apply m2_ok|]. intros a. split; [intros ->; constructor|intros E; inversion E; reflexivity].
  - eapply m2_iff; [apply m2_bind; [exact (H d)|intros a _; apply m2_bind; [exact IH|intros b _; apply m2_ok]]|]. cbn. intros l'. split.
    + intros (a & Ha & b & Hb & ->). constructor; assumption.
    + intros E. inversion E; subst. eauto 6.
Qed.
Lemma means_list {A} (f : data -> lres A) F : means f F -> means (as_list f) (items F).
Proof.
  intros H d. destruct d as [| | | | |l|]; try (apply m2_err; intros a (ds & E & _); discriminate E). cbn. eapply m2_iff; [exact (means_all H l)|].
  intros a. split; [intros E; exists l; auto|intros (ds & E & Hf); injection E as <-; exact Hf].
Qed.
Lemma means_dict {A} (f : data -> lres A) F : means f F -> means (as_dict f) (table F).
Proof.
  intros H d. destruct d as [| | | | | |m]; try (apply m2_err; intros a (ds & E & _); discriminate E). cbn.
  assert (G : m2 (mapM (fun kv => let* a := f (snd kv) in Ok (fst kv, a)) m) (Forall2 (fun a b => fst a = fst b /\ F (snd a) (snd b)) m)).
  { clear - H. induction m as [|[k x] m IH]; cbn [mapM].
    - eapply m2_iff; [apply m2_ok|]. intros a. split; [intros ->; constructor|intros E; inversion E; reflexivity].
    - eapply m2_iff; [apply m2_bind; [apply m2_bind; [exact (H x)|intros a _; apply m2_ok]|intros a _; apply m2_bind; [exact IH|intros b _; apply m2_ok]]|]. cbn. intros l'. split.
      + intros (y & (a & Ha & ->) & b & Hb & ->). constructor; [split; [reflexivity|exact Ha]|exact Hb].
      + intros E. inversion E as [|? [k' a] ? l Hka Hl]; subst. cbn in Hka. destruct Hka as [<- Ha]. exists (k, a). split; [exists a; auto|]. exists l. auto. }
  eapply m2_iff; [exact G|]. intros a. split; [intros E; exists m; auto|intros (ds & E & Hf); injection E as <-; exact Hf].
Qed.

Section Entries.
Variable m : dict string data.
Lemma m2_required {A} (f : data -> lres A) F k k2 : means f F -> m2 (required f m k k2) (has_or m k k2 F).
Proof.
  intros H a. unfold required, lookup, has_or, entry, no_entry. destruct (dget m k) as [d|] eqn:E; [|destruct (dget m k2) as [d|] eqn:E2].
  - split; [intros Ea; exists d; split; [auto|apply H; exact Ea]|]. intros (d' & [Ed|[Ed _]] & Hd); [injection Ed as <-; apply H; exact Hd|discriminate].
  - split; [intros Ea; exists d; split; [auto|apply H; exact Ea]|]. intros (d' & [Ed|[_ Ed]] & Hd); [discriminate|injection Ed as <-; apply H; exact Hd].
  - split; [discriminate|]. intros (d' & [Ed|[_ Ed]] & _); discriminate.
Qed.
Lemma has_or_same {A} (F : data -> A -> Prop) k a : has_or m k k F a <-> has m k F a.
Proof. split; intros (d & H & Hd); exists d; (split; [|exact Hd]); [destruct H as [H|[_ H]]; exact H|left; exact H]. Qed.
Lemma m2_needed {A} (f : data -> lres A) F k : means f F -> m2 (required f m k k) (has m k F).
Proof. intros H. eapply m2_iff; [exact (m2_required k k H)|]. intros a. apply has_or_same. Qed.
Lemma m2_optional {A} (f : data -> lres A) F a0 k : means f F -> m2 (optional f a0 m k) (may m k F a0).
Proof.
  intros H a. unfold optional, may, has, entry, no_entry. destruct (dget m k) as [d|] eqn:E.
  - split; [intros Ea; left; exists d; split; [reflexivity|apply H; exact Ea]|]. intros [(d' & Ed & Hd)|[Ed _]]; [injection Ed as <-; apply H; exact Hd|discriminate].
  - split; [intros Ea; injection Ea as <-; right; auto|]. intros [(d' & Ed & _)|[_ ->]]; [discriminate|left; reflexivity].
Qed.
Lemma m2_nullable {A} (f : data -> lres A) F k : means f F -> m2 (optional (nullable f) None m k) (maybe m k F).
Proof.
  intros H o. unfold optional, maybe, entry, no_entry. destruct (dget m k) as [d|] eqn:E.
  - unfold nullable. destruct d as [| | | | | |]; [split; [intros Ea; injection Ea as <-; left; auto|intros [[_ ->]|(a & d' & _ & Ed & Hn & _)]; [left; reflexivity|congruence]]|..];
      (split; [intros Ea; apply bind_Ok in Ea; destruct Ea as (a & Ea & Eo); injection Eo as <-; right; eexists; eexists; split; [reflexivity|]; split; [reflexivity|]; split; [discriminate|apply H; exact Ea]|
               intros [[[Ed|Ed] _]|(a & d' & -> & Ed & _ & Hd)]; try discriminate; injection Ed as <-; destruct (proj2 (H _ a) Hd) as [->| ->]; [left|right]; reflexivity]).
  - split; [intros Ea; injection Ea as <-; left; auto|]. intros [[_ ->]|(a & d' & _ & Ed & _)]; [left; reflexivity|discriminate].
Qed.
End Entries.

Lemma m2_map {A} (k : dict string data -> lres A) (P : data -> A -> Prop) d : (forall m, d = DMap m -> m2 (k m) (P d)) -> (forall a, P d a -> exists m, d = DMap m) -> m2 (let* m := as_map d in k m) (P d).
Proof.
  intros H Hm. destruct d as [| | | | | |m]; try (apply m2_err; intros a Ha; destruct (Hm a Ha) as (m & E); discriminate E). cbn. apply H. reflexivity.
Qed.

Lemma means_ident : means load_ident says_ident.
Proof.
  intros d. apply m2_map; [|intros a (m & E & _); eauto]. intros m ->.
  eapply m2_iff; [apply m2_bind; [apply m2_required, means_str|intros s _]; apply m2_bind; [apply m2_required, means_str|intros t _]; apply m2_bind; [apply m2_optional, means_bool|intros b _]; apply m2_ok|].
  cbn. intros a. split.
  - intros (s & Hs & t & Ht & b & Hb & ->). exists m. auto.
  - intros (m' & E & Hs & Ht & Hb). injection E as <-. exists (i_schema a). split; [exact Hs|]. exists (i_table a). split; [exact Ht|]. exists (i_sampled a). split; [exact Hb|]. destruct a; reflexivity.
Qed.
Lemma means_join : means load_join says_join.
Proof.
  intros d. apply m2_map; [|intros a (m & E & _); eauto]. intros m ->.
  eapply m2_iff; [apply m2_bind; [apply m2_needed, means_ident|intros s _]; apply m2_bind; [apply m2_needed, (means_list means_str)|intros t _]; apply m2_bind; [apply m2_needed, (means_list means_str)|intros u _]; apply m2_bind; [apply m2_optional, means_bool|intros b _]; apply m2_ok|].
  cbn. intros a. split.
  - intros (s & Hs & t & Ht & u & Hu & b & Hb & ->). exists m. auto 6.
  - intros (m' & E & Hs & Ht & Hu & Hb). injection E as <-. exists (j_right a). split; [exact Hs|]. exists (j_left_cols a). split; [exact Ht|]. exists (j_right_cols a). split; [exact Hu|]. exists (j_half_unique a). split; [exact Hb|]. destruct a; reflexivity.
Qed.

Lemma type_fun m s t : type m s -> type m t -> s = t.
Proof.
  unfold type, has_or, entry, no_entry, text. intros (d & H & ->) (d' & H' & ->). destruct H as [H|[H1 H]], H' as [H'|[H1' H']]; congruence.
Qed.
Lemma m2_type {A} m (k : string -> lres A) (P : A -> Prop) : (forall a, P a -> exists t, type m t) -> (forall t, type m t -> m2 (k t) P) -> m2 (let* t := required as_str m "type" "type_" in k t) P.
Proof.
  intros HP HK. eapply m2_iff; [apply m2_bind; [apply m2_required, means_str|exact HK]|]. intros a. split; [intros (t & _ & H); exact H|].
  intros H. destruct (HP a H) as (t & Ht). exists t. auto.
Qed.

Lemma says_sel_type d s : says_sel d s -> exists m, d = DMap m /\ type m "select".
Proof. intros H. inversion H; subst. eauto. Qed.
Lemma says_wc_map d c : says_wc d c -> exists m t, d = DMap m /\ type m t.
Proof. intros H. inversion H; subst; eauto. Qed.
Lemma says_stmt_map d c : says_stmt d c -> exists m t, d = DMap m /\ type m t.
Proof. intros H. inversion H as [d0 s0 H0|]; subst; [destruct (says_sel_type H0) as (m & -> & Ht)|]; eauto. Qed.

Section With.
Variable lw : data -> lres wc.
Hypothesis HW : means lw says_wc.
Lemma m2_where m : m2 (optional (nullable lw) None m "where") (says_where m).
Proof.
  eapply m2_iff; [exact (m2_nullable m "where" HW)|]. intros o. split.
  - intros [[H ->]|(a & d & -> & E & _ & H)]; [apply says_everything; exact H|exact (says_condition _ _ _ E H)].
  - intros H. inversion H as [m' Hm|m' d w E Hw]; subst; [left; auto|]. right. exists w, d. repeat split; auto. intros ->. inversion Hw.
Qed.
Lemma means_sel_tag m : type m "select" -> m2 (load_sel_with lw (DMap m)) (says_sel (DMap m)).
Proof.
  intros Ht. cbn [load_sel_with as_map bind].
  eapply m2_iff; [apply m2_bind; [apply m2_nullable, (means_list means_str)|intros cs _]; apply m2_bind; [apply m2_required, means_ident|intros f _]; apply m2_bind; [exact (m2_where m)|intros w _];
    apply m2_bind; [apply m2_nullable, means_int|intros l _]; apply m2_bind; [apply m2_nullable, (means_list means_join)|intros js _]; apply m2_bind; [apply m2_optional, means_bool|intros o _]; apply m2_ok|].
  cbn. intros a. split.
  - intros (cs & H1 & f & H2 & w & H3 & l & H4 & js & H5 & o & H6 & ->). constructor; assumption.
  - intros H. inversion H; subst. eauto 15.
Qed.
Lemma means_tagged : means (tagged "select" (load_sel_with lw)) says_sel.
Proof.
  intros d. apply m2_map; [|intros a H; destruct (says_sel_type H) as (m & E & _); eauto]. intros m ->.
  apply m2_type; [intros a H; destruct (says_sel_type H) as (m' & E & Ht); injection E as <-; eauto|]. intros t Ht.
  destruct (String.eqb_spec t "select") as [->|N]; [apply means_sel_tag; exact Ht|]. apply m2_err. intros a H.
  destruct (says_sel_type H) as (m' & E & Ht'). injection E as <-. exact (N (type_fun Ht Ht')).
Qed.
Lemma means_stmt : means (load_stmt_with lw) says_stmt.
Proof.
  intros d. apply m2_map; [|intros a H; destruct (says_stmt_map H) as (m & _ & E & _); eauto]. intros m ->.
  apply m2_type; [intros a H; destruct (says_stmt_map H) as (m' & t & E & Ht); injection E as <-; eauto|]. intros t Ht.
  destruct (String.eqb_spec t "select") as [->|N].
  - eapply m2_iff; [apply m2_bind; [apply (means_sel_tag Ht)|intros s _; apply m2_ok]|]. intros a. split.
    + intros (s & Hs & ->). constructor. exact Hs.
    + intros H. inversion H as [d0 s0 H0|m' ds l Ht']; subst; [eauto|]. discriminate (type_fun Ht Ht').
  - destruct (String.eqb_spec t "union") as [->|N2].
    + eapply m2_iff; [apply m2_bind; [apply m2_needed, (means_list means_tagged)|intros s _; apply m2_ok]|]. intros a. split.
      * intros (l & (d & E & ds & -> & F) & ->). exact (says_union _ _ _ Ht E F).
      * intros H. inversion H as [d0 s0 H0|m' ds l Ht' E F]; subst.
        -- destruct (says_sel_type H0) as (m' & E & Ht'). injection E as <-. discriminate (type_fun Ht Ht').
        -- exists l. split; [|reflexivity]. exists (DList ds). split; [exact E|]. exists ds. auto.
    + apply m2_err. intros a H. inversion H as [d0 s0 H0|m' ds l Ht' E F]; subst.
      * destruct (says_sel_type H0) as (m' & E & Ht'). injection E as <-. exact (N (type_fun Ht Ht')).
      * exact (N2 (type_fun Ht Ht')).
Qed.
End With.

Lemma m2_values f m cs neg : means (load_wc f) says_wc ->
  m2 (match dget m "values" with
      | Some (DList l) => let* vals := mapM (as_list as_lit) l in Ok (WInVals cs vals neg)
      | Some d' => let* s := load_stmt_with (load_wc f) d' in Ok (WInStmt cs s neg)
      | None => Err LxInvalid
      end)
     (fun a => (exists rows, has m "values" (items (items literal)) rows /\ a = WInVals cs rows neg) \/ (exists d s, entry m "values" d /\ says_stmt d s /\ a = WInStmt cs s neg)).
Proof.
  intros IH. unfold has, entry. destruct (dget m "values") as [d|]; [|apply m2_err; intros a [(r & (d & E & _) & _)|(d & s & E & _)]; discriminate].
  assert (HL : forall l, d = DList l -> m2 (let* vals := mapM (as_list as_lit) l in Ok (WInVals cs vals neg))
    (fun a => (exists rows, (exists d', Some d = Some d' /\ items (items literal) d' rows) /\ a = WInVals cs rows neg) \/ (exists d' s, Some d = Some d' /\ says_stmt d' s /\ a = WInStmt cs s neg))).
  { intros l ->. eapply m2_iff; [apply m2_bind; [exact (means_all (means_list means_lit) l)|intros r _; apply m2_ok]|]. cbn. intros a. split.
    - intros (r & H & ->). left. exists r. split; [|reflexivity]. exists (DList l). split; [reflexivity|]. exists l. auto.
    - intros [(r & (d' & E & ds & -> & F) & ->)|(d' & s & E & H & ->)].
      + injection E as <-. eauto.
      + injection E as <-. destruct (says_stmt_map H) as (m' & t & E & _). discriminate E. }
  assert (HS : (forall l, d <> DList l) -> m2 (let* s := load_stmt_with (load_wc f) d in Ok (WInStmt cs s neg))
    (fun a => (exists rows, (exists d', Some d = Some d' /\ items (items literal) d' rows) /\ a = WInVals cs rows neg) \/ (exists d' s, Some d = Some d' /\ says_stmt d' s /\ a = WInStmt cs s neg))).
  { intros N. eapply m2_iff; [apply m2_bind; [exact (means_stmt IH d)|intros r _; apply m2_ok]|]. cbn. intros a. split.
    - intros (r & H & ->). right. eauto.
    - intros [(r & (d' & E & ds & -> & F) & ->)|(d' & s & E & H & ->)]; [injection E as ->; elim (N ds eq_refl)|]. injection E as <-. eauto. }
  destruct d as [| | | | |l|]; try (apply HS; discriminate). apply HL. reflexivity.
Qed.

#[local] Ltac other := match goal with H1 : type ?m ?s, H2 : type ?m ?t |- _ => discriminate (type_fun H1 H2) end.
Lemma means_wc_next f : means (load_wc f) says_wc -> means (load_wc (S f)) says_wc.
Proof.
  intros IH d. cbn [load_wc]. apply m2_map; [|intros a H; destruct (says_wc_map H) as (m & _ & E & _); eauto]. intros m ->.
  apply m2_type; [intros a H; destruct (says_wc_map H) as (m' & t & E & Ht); injection E as <-; eauto|]. intros t Ht.
  destruct (String.eqb_spec t "false") as [->|N1].
  { eapply m2_iff; [apply m2_ok|]. intros a. split; [intros ->; constructor; exact Ht|]. intros H. inversion H; subst; try reflexivity; other. }
  destruct (String.eqb_spec t "true") as [->|N2].
  { eapply m2_iff; [apply m2_ok|]. intros a. split; [intros ->; constructor; exact Ht|]. intros H. inversion H; subst; try reflexivity; other. }
  destruct (String.eqb_spec t "operator") as [->|N3].
  { eapply m2_iff; [apply m2_bind; [apply m2_optional, means_op|intros o _]; apply m2_bind; [apply m2_needed, means_str|intros c _]; apply m2_bind; [apply m2_needed, means_lit|intros v _]; apply m2_ok|].
    cbn. intros a. split; [intros (o & H1 & c & H2 & v & H3 & ->); constructor; assumption|]. intros H. inversion H; subst; try other. eauto 8. }
  destruct (String.eqb_spec t "in") as [->|N4].
  { eapply m2_iff; [apply m2_bind; [apply m2_needed, (means_list means_str)|intros cs _]; apply m2_bind; [apply m2_optional, means_bool|intros neg _]; exact (m2_values m cs neg IH)|].
    cbn. intros a. split.
    - intros (cs & H1 & neg & H2 & [(rows & H3 & ->)|(d' & s & H3 & H4 & ->)]); [exact (says_in _ _ _ _ Ht H1 H2 H3)|exact (says_in_statement _ _ _ _ _ Ht H1 H2 H3 H4)].
    - intros H. inversion H; subst; try other; (eexists; split; [eassumption|]; eexists; split; [eassumption|]); [left|right]; eauto 6. }
  destruct (String.eqb_spec t "and") as [->|N5].
  { eapply m2_iff; [apply m2_bind; [apply m2_needed, (means_list IH)|intros s _; apply m2_ok]|]. intros a. split.
    - intros (l & (d' & E & ds & -> & F) & ->). exact (says_and _ _ _ Ht E F).
    - intros H. inversion H as [| | | | |? ds l Ht' E F| | |]; subst; try other. exists l. split; [|reflexivity]. exists (DList ds). split; [exact E|]. exists ds. auto. }
  destruct (String.eqb_spec t "or") as [->|N6].
  { eapply m2_iff; [apply m2_bind; [apply m2_needed, (means_list IH)|intros s _; apply m2_ok]|]. intros a. split.
    - intros (l & (d' & E & ds & -> & F) & ->). exact (says_or _ _ _ Ht E F).
    - intros H. inversion H as [| | | | | |? ds l Ht' E F| |]; subst; try other. exists l. split; [|reflexivity]. exists (DList ds). split; [exact E|]. exists ds. auto. }
  destruct (String.eqb_spec t "random") as [->|N7].
  { eapply m2_iff; [apply m2_bind; [apply m2_needed, means_float|intros s _; apply m2_ok]|]. intros a. split.
    - intros (q & H1 & ->). constructor; assumption.
    - intros H. inversion H; subst; try other. eauto. }
  destruct (String.eqb_spec t "sql") as [->|N8].
  { eapply m2_iff; [apply m2_bind; [apply m2_needed, means_str|intros s _]; apply m2_bind; [apply m2_nullable, (means_dict means_lit)|intros ps _]; apply m2_ok|]. cbn. intros a. split.
    - intros (s & H1 & ps & H2 & ->). constructor; assumption.
    - intros H. inversion H; subst; try other. eauto 6. }
  apply m2_err. intros a H. inversion H; subst; match goal with H2 : type m ?s |- _ => pose proof (type_fun Ht H2); contradiction end.
Qed.
Theorem means_wc f : means (load_wc f) says_wc.
Proof.
  induction f as [|f IH]; [|apply means_wc_next; exact IH]. intros d a. split; [discriminate|]. intros _. right. reflexivity.
Qed.
Lemma means_query f : means (load_query f) says_query.
Proof.
  intros d. apply m2_map; [|intros a (m & E & _); eauto]. intros m ->.
  eapply m2_iff; [apply m2_bind; [apply m2_nullable, means_str|intros s _]; apply m2_bind; [apply m2_nullable, (means_dict means_lit)|intros t _]; apply m2_bind; [apply m2_nullable, (means_stmt (@means_wc f))|intros u _]; apply m2_ok|].
  cbn. intros a. split.
  - intros (s & Hs & t & Ht & u & Hu & ->). exists m. auto.
  - intros (m' & E & Hs & Ht & Hu). injection E as <-. exists (q_sql a). split; [exact Hs|]. exists (q_params a). split; [exact Ht|]. exists (q_stmt a). split; [exact Hu|]. destruct a; reflexivity.
Qed.
Lemma means_plan : means load_plan says_plan.
Proof.
  intros d. unfold load_plan. generalize (depth d). intros n. apply m2_map; [|intros a (m & E & _); eauto]. intros m ->.
  eapply m2_iff; [apply m2_bind; [apply m2_needed, (means_dict (@means_query n))|intros s _]; apply m2_bind; [apply m2_optional, (means_list means_str)|intros u _]; apply m2_ok|].
  cbn. intros a. split.
  - intros (s & Hs & u & Hu & ->). exists m. auto.
  - intros (m' & E & Hs & Hu). injection E as <-. exists (p_queries a). split; [exact Hs|]. exists (p_passthrough a). split; [exact Hu|]. destruct a; reflexivity.
Qed.
Theorem load_plan_says d p : load_plan d = Ok p <-> says_plan d p.
Proof.
  split; [apply means_plan|]. intros H. destruct (proj2 (means_plan d p) H) as [E|E]; [exact E|]. elim (load_plan_fuel E).
Qed.
Theorem load_plan_rejects d : load_plan d = Err LxInvalid <-> ~ exists p, says_plan d p.
Proof.
  split.
  - intros E (p & H). apply load_plan_says in H. congruence.
  - intros N. destruct (load_plan d) as [p|[]] eqn:E; [elim N; exists p; apply load_plan_says; exact E|reflexivity|elim (load_plan_fuel E)].
Qed.
Theorem says_plan_fun d p p' : says_plan d p -> says_plan d p' -> p = p'.
Proof. intros H H'. apply load_plan_says in H, H'. congruence. Qed.
Theorem planned_says ord ordp fnm cfg db p set : plan_db ord ordp fnm cfg db = Ok p ->
  exists p', says_plan (sort_keys (dump_plan set p)) p' /\ Permutation (p_queries p) (p_queries p') /\ NoDup (dkeys (p_queries p')) /\
    p_passthrough p = p_passthrough p'.
Proof.
  intros E. destruct (plan_file set E) as (p' & El & R). exists p'. split; [apply load_plan_says; exact El|exact R].
Qed.
Theorem dumped_says p set file : like file (dump_plan set p) -> exists p', says_plan file p' /\ same_plan p p'.
Proof. intros H. destruct (load_dump H) as (p' & El & R). exists p'. split; [apply load_plan_says; exact El|exact R]. Qed.
