(** Proofs about _get_multiplied_columns. *)
From Coq Require Import Lia Permutation.
From Verif Require Import Model.Base Model.Value Model.Names Model.PlanModel Model.Metadata Model.Multiply.
From Verif Require Import Spec.MultiplySpec Proofs.BaseFacts.
Set Implicit Arguments. Unset Strict Implicit.

Lemma dset_same {K V} `{EqDec K} (d : dict K V) k v : dget d k = Some v -> dset d k v = d.
Proof.
  induction d as [|[k' v'] d IH]; cbn; [discriminate|].
  destruct (eq_dec k k') as [->|]; [intros [= ->]; auto|]. intros E. rewrite IH; auto.
Qed.

Lemma set_update_app {A} `{EqDec A} (l s : list A) : exists x, set_update s l = s ++ x.
Proof.
  unfold set_update. revert s. induction l as [|a l IH]; intros s; cbn.
  - exists []. rewrite app_nil_r. auto.
  - destruct (IH (set_add a s)) as [x ->]. unfold set_add. destruct (memb a s); [eauto|].
    exists ([a] ++ x). rewrite app_assoc. auto.
Qed.

Lemma set_update_length {A} `{EqDec A} (l s : list A) :
  length (set_update s l) = length s -> set_update s l = s.
Proof.
  destruct (set_update_app l s) as [x ->]. rewrite app_length. intros E.
  destruct x; [apply app_nil_r|cbn in E; lia].
Qed.

Section M.
Variable cfg : mult_config.
Variable ms : meta.
Variable is_int : tname -> string -> bool.
Variable ord : list string -> list string.
Variable p : plan.
Hypothesis any_ord : forall l, Permutation (ord l) l.

Notation queries := (dkeys (p_queries p)).
Notation ign := (ignore_tables cfg (p_passthrough p)).
Notation multiplied := (multiplied ms cfg p).
Notation colmap := (dict string (list string)).

Lemma ign_iff t : In t ign <-> excluded cfg p t.
Proof.
  unfold ignore_tables, excluded, set_union. rewrite set_update_In, !set_of_In. tauto.
Qed.

Lemma lookup_Ok t m : lookup_table ms t = Ok m <-> source_table ms t m.
Proof.
  unfold lookup_table, source_table. destruct (parse_table_name t) as [n|].
  - rewrite dfind_Ok. split; [intros; exists n; auto|]. intros (n' & [= <-] & E). auto.
  - split; [discriminate|]. intros (n' & E & _). discriminate.
Qed.

Lemma lookup_fuel t e : lookup_table ms t = Err e -> e <> MuOutOfFuel.
Proof.
  unfold lookup_table, dfind. destruct (parse_table_name t) as [n|]; [destruct (dget ms n)|]; congruence.
Qed.

(** One table's foreign keys. *)
Definition fk_step (t : string) (rcols : colmap * list string) (fk : fkey) : colmap * list string :=
  let '(result, cols) := rcols in
  let dst_mapped := dget_or result (render (fk_dst fk)) [] in
  let cols' := set_update cols (set_inter (set_of (fk_cols fk)) dst_mapped) in
  (if dmem result t then dset result t cols' else result, cols').

Definition consistent (t : string) (r : colmap) (cols : list string) : Prop :=
  dget_or r t [] = cols \/ dmem r t = false.

(** [cols]: columns reached so far, consistent with [result]. *)
Lemma fk_step_spec t fk r cols r' cols' :
  fk_step t (r, cols) fk = (r', cols') ->
  (dmem r t = true -> dget r t = Some cols) ->
  (dmem r t = true -> dget r' t = Some cols') /\
  (dmem r t = false -> r' = r) /\
  dkeys r' = dkeys r /\
  (forall t', t' <> t -> dget r' t' = dget r t') /\
  (exists x, cols' = cols ++ x) /\
  (NoDup cols -> NoDup cols') /\
  (forall c, In c cols' <-> In c cols \/ (In c (fk_cols fk) /\ In c (dget_or r (render (fk_dst fk)) []))) /\
  (length cols' = length cols -> r' = r /\ cols' = cols).
Proof.
  intros E Hc. cbn [fk_step] in E. inversion E as [[E1 E2]]. clear E.
  assert (dmem r t = true -> In t (dkeys r)) as Hk by (intros X; apply dmem_true; auto).
  split; [|split; [|split; [|split; [|split; [|split; [|split]]]]]].
  - intros Hm. rewrite Hm. rewrite dget_dset_eq. auto.
  - intros Hm. rewrite Hm. auto.
  - destruct (dmem r t) eqn:Hm; [|auto]. apply dkeys_dset_old. auto.
  - intros t' Ht. destruct (dmem r t); [|auto]. apply dget_dset_ne; auto.
  - apply set_update_app.
  - apply set_update_NoDup.
  - intros c. rewrite set_update_In. unfold set_inter. rewrite filter_In, set_of_In, memb_true. tauto.
  - intros El. apply set_update_length in El. rewrite El. split; [|auto].
    destruct (dmem r t) eqn:Hm; [|auto]. apply dset_same. auto.
Qed.

Lemma fk_fold_spec t : forall fks r cols r' cols',
  fold_left (fk_step t) fks (r, cols) = (r', cols') ->
  (dmem r t = true -> dget r t = Some cols) ->
  (dmem r t = true -> dget r' t = Some cols') /\
  (dmem r t = false -> r' = r) /\
  dkeys r' = dkeys r /\
  (forall t', t' <> t -> dget r' t' = dget r t') /\
  (exists x, cols' = cols ++ x) /\
  (NoDup cols -> NoDup cols') /\
  (forall c, In c cols' -> In c cols \/
     exists fk, In fk fks /\ In c (fk_cols fk)) /\
  (forall fk c, In fk fks -> In c (fk_cols fk) -> In c (dget_or r (render (fk_dst fk)) []) -> In c cols') /\
  (length cols' = length cols -> r' = r /\ cols' = cols).
Proof.
  induction fks as [|fk fks IH]; intros r cols r' cols' E Hc; cbn [fold_left] in E.
  - inversion E; subst. split; [auto|]. split; [auto|]. split; [auto|]. split; [auto|].
    split; [exists []; rewrite app_nil_r; auto|]. split; [auto|]. split; [auto|]. split; [intros ? ? []|auto].
  - destruct (fk_step t (r, cols) fk) as [r1 cols1] eqn:E1.
    destruct (fk_step_spec E1 Hc) as (A1 & A2 & A3 & A4 & (x1 & A5) & A6 & A7 & A8).
    assert (dmem r1 t = dmem r t) as Hm.
    { destruct (dmem r t) eqn:Hm.
      - rewrite dmem_true, A3, <- dmem_true. auto.
      - rewrite A2; auto. }
    assert (dmem r1 t = true -> dget r1 t = Some cols1) as Hc1 by (rewrite Hm; auto).
    destruct (IH _ _ _ _ E Hc1) as (B1 & B2 & B3 & B4 & (x2 & B5) & B6 & B7 & B8 & B9).
    rewrite Hm in B1, B2.
    split; [auto|]. split; [intros X; rewrite B2; auto|]. split; [congruence|].
    split; [intros t' Ht; rewrite B4; auto|].
    split; [exists (x1 ++ x2); rewrite B5, A5, app_assoc; auto|].
    split; [auto|].
    assert (forall c, In c cols -> In c cols') as Hcc.
    { intros c Hcin. rewrite B5, A5, !in_app_iff. auto. }
    split.
    { intros c Hin. destruct (B7 _ Hin) as [Hin1|(fk' & Hf & Hcf)].
      - apply A7 in Hin1. destruct Hin1 as [?|[? ?]]; [auto|]. right. exists fk. cbn. auto.
      - right. exists fk'. cbn. auto. }
    split.
    { intros fk' c [<-|Hf] Hcf Hd.
      - rewrite B5, in_app_iff. left. apply A7. auto.
      - apply B8 with (fk := fk'); auto.
        unfold dget_or in *. destruct (eq_dec (render (fk_dst fk')) t) as [Et|Et].
        + destruct (dmem r t) eqn:Hrt.
          * rewrite Et in Hd |- *. rewrite (A1 eq_refl). rewrite (Hc eq_refl) in Hd. rewrite A5, in_app_iff. auto.
          * rewrite A2; auto.
        + rewrite A4; auto. }
    { intros El. assert (length cols1 = length cols /\ length cols' = length cols1) as [L1 L2].
      { rewrite B5 in *. rewrite A5 in *. rewrite !app_length in *. lia. }
      destruct (A8 L1) as [-> ->]. destruct (B9 L2) as [-> ->]. auto. }
Qed.

(** Columns of every table of [result] are multiplied ones. *)
Definition sound (r : colmap) : Prop := forall t c, In c (dget_or r t []) -> multiplied t c.
Definition right_keys (r : colmap) : Prop :=
  forall t, dmem r t = true <-> planned p t /\ ~ excluded cfg p t.
Definition grows (r r' : colmap) : Prop := forall t, exists x, dget_or r' t [] = dget_or r t [] ++ x.

Lemma grows_refl r : grows r r. Proof. intros t. exists []. rewrite app_nil_r. auto. Qed.
Lemma grows_trans r1 r2 r3 : grows r1 r2 -> grows r2 r3 -> grows r1 r3.
Proof.
  intros H1 H2 t. destruct (H1 t) as [x Hx], (H2 t) as [y Hy]. exists (x ++ y). rewrite Hy, Hx, app_assoc. auto.
Qed.

(** Soundness of the foreign key fold. *)
Lemma fk_fold_sound t m : source_table ms t m -> planned p t ->
  forall fks r cols r' cols',
  incl fks (tm_fks m) -> sound r ->
  (dmem r t = true -> ~ excluded cfg p t) ->
  (dmem r t = true -> dget r t = Some cols) ->
  (dmem r t = false -> forall c, In c cols -> exists fk, In fk (tm_fks m) /\ In c (fk_cols fk) /\ multiplied (render (fk_dst fk)) c) ->
  fold_left (fk_step t) fks (r, cols) = (r', cols') ->
  sound r' /\
  (dmem r t = false -> forall c, In c cols' -> exists fk, In fk (tm_fks m) /\ In c (fk_cols fk) /\ multiplied (render (fk_dst fk)) c).
Proof.
  intros Hsrc Hpl. induction fks as [|fk fks IH]; intros r cols r' cols' Hincl Hs Hex Hc Hc' E; cbn [fold_left] in E.
  - inversion E; subst. auto.
  - destruct (fk_step t (r, cols) fk) as [r1 cols1] eqn:E1.
    destruct (fk_step_spec E1 Hc) as (A1 & A2 & A3 & A4 & (x1 & A5) & A6 & A7 & A8).
    assert (dmem r1 t = dmem r t) as Hm.
    { destruct (dmem r t) eqn:Hm.
      - rewrite dmem_true, A3, <- dmem_true. auto.
      - rewrite A2; auto. }
    apply IH in E; rewrite ?Hm in *; auto.
    + intros x Hx. apply Hincl. right. auto.
    + intros t' c Hin. unfold dget_or in Hin. destruct (dmem r t) eqn:Hrt.
      * destruct (eq_dec t' t) as [->|Ht].
        -- rewrite (A1 eq_refl) in Hin. apply A7 in Hin. destruct Hin as [Hin|[Hin1 Hin2]].
           ++ apply Hs. unfold dget_or. rewrite (Hc eq_refl). auto.
           ++ apply mul_fk with (m := m) (fk := fk); auto. apply Hincl. left. auto.
        -- rewrite A4 in Hin by auto. apply Hs. auto.
      * rewrite (A2 eq_refl) in Hin. apply Hs. auto.
    + intros Hrt c Hin. apply A7 in Hin. destruct Hin as [Hin|[Hin1 Hin2]]; [auto|].
      exists fk. split; [apply Hincl; left; auto|]. split; auto.
Qed.

(** One pass. *)
Definition pass_step (rc : colmap * bool) (t : string) : res mult_exn (colmap * bool) :=
  let '(result, changes) := rc in
  let* m := lookup_table ms t in
  let cols0 := dget_or result t [] in
  let '(result', cols) := fold_left (fk_step t) (tm_fks m) (result, cols0) in
  if negb (is_nil cols) && memb t ign then Err MuValueError
  else Ok (result', changes || Nat.ltb (length cols0) (length cols)).

Lemma closure_pass_eq qs r : closure_pass ms ign qs r = forM pass_step qs (r, false).
Proof. reflexivity. Qed.

Definition size (r : colmap) : nat := list_sum (map (fun t => length (dget_or r t [])) queries).

Definition fkcols (t : string) : list string :=
  match lookup_table ms t with Ok m => flat_map fk_cols (tm_fks m) | Err _ => [] end.
(** What was added to [base] comes from the table's foreign keys. *)
Definition bounded (base r : colmap) : Prop :=
  forall t, planned p t -> NoDup (dget_or r t []) /\
    exists x, dget_or r t [] = dget_or base t [] ++ x /\ incl x (fkcols t).

Definition closed_at (r : colmap) (t : string) : Prop :=
  forall m fk c, source_table ms t m -> In fk (tm_fks m) -> In c (fk_cols fk) ->
    In c (dget_or r (render (fk_dst fk)) []) -> In c (dget_or r t []).
Definition no_need_at (r : colmap) (t : string) : Prop :=
  excluded cfg p t -> forall m fk c, source_table ms t m -> In fk (tm_fks m) -> In c (fk_cols fk) ->
    ~ In c (dget_or r (render (fk_dst fk)) []).

Definition good (base r : colmap) : Prop := right_keys r /\ sound r /\ bounded base r.

Lemma dget_or_none (r : colmap) t : dmem r t = false -> dget_or r t [] = [].
Proof. unfold dmem, dget_or. destruct (dget r t); [discriminate|auto]. Qed.
Lemma dget_or_some (r : colmap) t : dmem r t = true -> dget r t = Some (dget_or r t []).
Proof. unfold dmem, dget_or. destruct (dget r t); [auto|discriminate]. Qed.

Lemma pass_step_Ok base r ch t r' ch' :
  good base r -> planned p t -> pass_step (r, ch) t = Ok (r', ch') ->
  good base r' /\ grows r r' /\
  (ch' = false -> ch = false /\ r' = r /\ (~ excluded cfg p t -> closed_at r t) /\ no_need_at r t) /\
  (ch' = true -> ch = true \/ length (dget_or r t []) < length (dget_or r' t [])).
Proof.
  intros (Hk & Hs & Hb) Hpl E. unfold pass_step in E.
  apply bind_Ok in E. destruct E as (m & Hm & E).
  destruct (fold_left (fk_step t) (tm_fks m) (r, dget_or r t [])) as [r1 cols] eqn:Ef.
  destruct (negb (is_nil cols) && memb t ign) eqn:Ei; [discriminate|]. inversion E; subst; clear E.
  pose proof (proj1 (lookup_Ok t m) Hm) as Hsrc.
  destruct (fk_fold_spec Ef (@dget_or_some r t)) as (B1 & B2 & B3 & B4 & (x & B5) & B6 & B7 & B8 & B9).
  assert (sound r') as Hs'.
  { eapply fk_fold_sound in Ef; [exact (proj1 Ef)|..]; eauto using incl_refl, dget_or_some.
    - intros X. apply Hk in X. tauto.
    - intros X. rewrite dget_or_none by auto. intros c []. }
  assert (dmem r t = false -> cols = []) as Hcn.
  { intros X. rewrite andb_false_iff, negb_false_iff in Ei.
    assert (In t ign) as Hi.
    { apply ign_iff. destruct (In_dec' t ign) as [Y|Y]; [apply ign_iff; auto|].
      exfalso. assert (dmem r t = true) as Z by (apply Hk; split; [auto|rewrite <- ign_iff; auto]). congruence. }
    apply memb_true in Hi. destruct Ei as [Ei|Ei]; [destruct cols; [auto|discriminate]|congruence]. }
  assert (forall t', dget_or r' t' [] = if eq_dec t' t then cols else dget_or r t' []) as Hget.
  { intros t'. unfold dget_or. destruct (eq_dec t' t) as [->|Ht].
    - destruct (dmem r t) eqn:Hrt.
      + rewrite (B1 eq_refl). auto.
      + rewrite (B2 eq_refl), (Hcn eq_refl). unfold dmem in Hrt. destruct (dget r t); [discriminate|auto].
    - rewrite B4; auto. }
  split; [|split; [|split]].
  - split; [|split; [auto|]].
    + intros t'. rewrite <- (Hk t'). rewrite !dmem_true, B3. tauto.
    + intros t' Hpl'. rewrite Hget. destruct (eq_dec t' t) as [->|Ht]; [|apply Hb; auto].
      destruct (Hb t Hpl) as (N & y & Hy & Hyi). split; [apply B6; auto|].
      exists (y ++ x). split; [rewrite B5, Hy, app_assoc; auto|].
      apply incl_app; auto. intros c Hc.
      unfold fkcols. rewrite Hm. apply in_flat_map.
      assert (In c cols) as Hcc by (rewrite B5, in_app_iff; auto).
      destruct (B7 _ Hcc) as [Hc0|(fk & Hf & Hcf)]; [|eauto].
      exfalso. assert (NoDup cols) as Nc by (apply B6; auto). rewrite B5 in Nc.
      rewrite NoDup_app_iff in Nc. destruct Nc as (_ & _ & Nc). eapply Nc; eauto.
  - intros t'. rewrite Hget. destruct (eq_dec t' t) as [->|Ht]; [exists x; auto|apply grows_refl].
  - intros Hch. apply orb_false_iff in Hch. destruct Hch as [Hch Hlt]. apply Nat.ltb_ge in Hlt.
    assert (length cols = length (dget_or r t [])) as Hlen by (rewrite B5 in *; rewrite app_length in *; lia).
    destruct (B9 Hlen) as [-> Ec]. split; [auto|]. split; [auto|]. split.
    + intros _ m' fk c Hsrc' Hf Hcf Hd.
      assert (m' = m) as ->.
      { apply lookup_Ok in Hsrc'. congruence. }
      rewrite <- Ec. eapply B8; eauto.
    + intros Hex m' fk c Hsrc' Hf Hcf Hd.
      assert (m' = m) as ->.
      { apply lookup_Ok in Hsrc'. congruence. }
      assert (In c cols) as Hin by (eapply B8; eauto).
      assert (dmem r t = false) as Hrt.
      { destruct (dmem r t) eqn:X; [|auto]. apply Hk in X. tauto. }
      rewrite (Hcn Hrt) in Hin. destruct Hin.
  - intros Hch. apply orb_true_iff in Hch. destruct Hch as [|Hlt]; [auto|]. right.
    apply Nat.ltb_lt in Hlt. rewrite (Hget t). destruct (eq_dec t t); [auto|congruence].
Qed.

Lemma pass_step_Err base r ch t e :
  good base r -> planned p t -> pass_step (r, ch) t = Err e ->
  (e = MuValueError /\ excluded_needs_multiplying ms cfg p) \/
  ((~ exists m, source_table ms t m) /\ e <> MuOutOfFuel).
Proof.
  intros (Hk & Hs & Hb) Hpl E. unfold pass_step in E.
  destruct (lookup_table ms t) as [m|e'] eqn:Hm.
  2:{ right. split; [intros [m X]; apply lookup_Ok in X; congruence|].
      cbn [bind] in E. inversion E; subst. eapply lookup_fuel; eauto. }
  cbn [bind] in E.
  destruct (fold_left (fk_step t) (tm_fks m) (r, dget_or r t [])) as [r1 cols] eqn:Ef.
  destruct (negb (is_nil cols) && memb t ign) eqn:Ei; [|discriminate]. inversion E; subst; clear E.
  left. split; [auto|]. apply andb_true_iff in Ei. destruct Ei as [Ec Ei].
  apply memb_true, ign_iff in Ei.
  pose proof (proj1 (lookup_Ok t m) Hm) as Hsrc.
  assert (dmem r t = false) as Hrt.
  { destruct (dmem r t) eqn:X; [|auto]. apply Hk in X. tauto. }
  eapply fk_fold_sound in Ef; eauto using incl_refl, dget_or_some.
  - destruct Ef as [_ Ef]. destruct cols as [|c cols]; [discriminate|].
    destruct (Ef Hrt c (or_introl eq_refl)) as (fk & Hf & Hcf & Hmul).
    exists t, m, fk, c. auto 8.
  - congruence.
  - intros X. rewrite dget_or_none by auto. intros c [].
Qed.

Lemma list_sum_le {A} (f g : A -> nat) l : (forall a, In a l -> f a <= g a) -> list_sum (map f l) <= list_sum (map g l).
Proof.
  induction l as [|a l IH]; cbn; intros H; [lia|]. pose proof (H a (or_introl eq_refl)).
  assert (list_sum (map f l) <= list_sum (map g l)) by (apply IH; intros; apply H; right; auto). unfold list_sum in *. lia.
Qed.
Lemma list_sum_lt {A} (f g : A -> nat) l : (forall a, In a l -> f a <= g a) ->
  (exists a, In a l /\ f a < g a) -> list_sum (map f l) < list_sum (map g l).
Proof.
  induction l as [|a l IH]; cbn; intros H (b & Hb & Hlt); [destruct Hb|].
  pose proof (H a (or_introl eq_refl)).
  assert (list_sum (map f l) <= list_sum (map g l)) by (apply list_sum_le; intros; apply H; right; auto).
  destruct Hb as [->|Hb]; [unfold list_sum in *; lia|].
  assert (list_sum (map f l) < list_sum (map g l)) by (apply IH; [intros; apply H; right; auto|eauto]).
  unfold list_sum in *; lia.
Qed.

Lemma grows_size r r' : grows r r' -> size r <= size r'.
Proof.
  intros H. apply list_sum_le. intros t _. destruct (H t) as [x ->]. rewrite app_length. lia.
Qed.
Lemma grows_size_lt r r' t : grows r r' -> planned p t -> length (dget_or r t []) < length (dget_or r' t []) -> size r < size r'.
Proof.
  intros H Hp Hl. apply list_sum_lt; [|exists t; auto]. intros t' _. destruct (H t') as [x ->]. rewrite app_length. lia.
Qed.

Lemma pass_Ok base : forall qs r ch r' ch',
  incl qs queries -> good base r -> forM pass_step qs (r, ch) = Ok (r', ch') ->
  good base r' /\ grows r r' /\
  (ch' = false -> ch = false /\ r' = r /\ forall t, In t qs -> (~ excluded cfg p t -> closed_at r t) /\ no_need_at r t) /\
  (ch' = true -> ch = true \/ size r < size r').
Proof.
  induction qs as [|t qs IH]; intros r ch r' ch' Hi Hg E; cbn [forM] in E.
  - inversion E; subst. split; [auto|]. split; [apply grows_refl|]. split; [|auto]. intros ->.
    split; [auto|]. split; [auto|]. intros t [].
  - apply bind_Ok in E. destruct E as ([r1 ch1] & E1 & E).
    assert (planned p t) as Hpl by (apply Hi; left; auto).
    assert (incl qs queries) as Hi' by (intros x Hx; apply Hi; right; auto).
    destruct (pass_step_Ok Hg Hpl E1) as (G1 & W1 & F1 & T1).
    destruct (IH _ _ _ _ Hi' G1 E) as (G2 & W2 & F2 & T2).
    split; [auto|]. split; [eapply grows_trans; eauto|]. split.
    + intros Hf. destruct (F2 Hf) as (C1 & -> & C2). destruct (F1 C1) as (D1 & -> & D2 & D3).
      split; [auto|]. split; [auto|]. intros t' [<-|Ht']; auto.
    + intros Ht. destruct (T2 Ht) as [C|C].
      * destruct (T1 C) as [D|D]; [auto|]. right.
        apply Nat.lt_le_trans with (size r1); [|apply grows_size; auto]. eapply grows_size_lt; eauto.
      * right. pose proof (grows_size W1). lia.
Qed.

Lemma pass_Err base : forall qs r ch e,
  incl qs queries -> good base r -> forM pass_step qs (r, ch) = Err e ->
  (e = MuValueError /\ excluded_needs_multiplying ms cfg p) \/
  (exists t, planned p t /\ (~ exists m, source_table ms t m) /\ e <> MuOutOfFuel).
Proof.
  induction qs as [|t qs IH]; intros r ch e Hi Hg E; cbn [forM] in E; [discriminate|].
  assert (planned p t) as Hpl by (apply Hi; left; auto).
  assert (incl qs queries) as Hi' by (intros x Hx; apply Hi; right; auto).
  apply bind_Err in E. destruct E as [E1|([r1 ch1] & E1 & E)].
  - destruct (pass_step_Err Hg Hpl E1) as [?|?]; [auto|]. right. eauto.
  - destruct (pass_step_Ok Hg Hpl E1) as (G1 & _). eauto.
Qed.

Lemma bounded_size base r : bounded base r -> size r <= size base + list_sum (map (fun t => length (fkcols t)) queries).
Proof.
  intros Hb. unfold size.
  assert (forall l, incl l queries ->
    list_sum (map (fun t => length (dget_or r t [])) l) <=
    list_sum (map (fun t => length (dget_or base t [])) l) + list_sum (map (fun t => length (fkcols t)) l)) as H.
  { induction l as [|t l IH]; intros Hi; cbn; [lia|].
    assert (incl l queries) as Hi' by (intros x Hx; apply Hi; right; auto). specialize (IH Hi').
    destruct (Hb t) as (N & x & Hx & Hxi); [apply Hi; left; auto|].
    rewrite Hx in *. rewrite app_length. rewrite NoDup_app_iff in N. destruct N as (_ & N & _).
    pose proof (NoDup_incl_length N Hxi). unfold list_sum in *. lia. }
  apply H, incl_refl.
Qed.

Lemma fuel_eq : closure_fuel ms queries = S (list_sum (map (fun t => length (fkcols t)) queries)).
Proof.
  unfold closure_fuel. f_equal. f_equal. apply map_ext. intros t. unfold fkcols.
  destruct (lookup_table ms t) as [m|]; [|auto]. generalize (tm_fks m) as l. induction l as [|fk l IH]; cbn; [auto|].
  rewrite app_length. unfold list_sum in IH. rewrite IH. auto.
Qed.

Lemma loop_spec base : forall fuel r, good base r ->
  size base + list_sum (map (fun t => length (fkcols t)) queries) < fuel + size r ->
  match closure_loop ms fuel ign queries r with
  | Ok r' => good base r' /\ grows r r' /\ forall t, planned p t -> (~ excluded cfg p t -> closed_at r' t) /\ no_need_at r' t
  | Err e => (e = MuValueError /\ excluded_needs_multiplying ms cfg p) \/
             (exists t, planned p t /\ (~ exists m, source_table ms t m) /\ e <> MuOutOfFuel)
  end.
Proof.
  induction fuel as [|f IH]; intros r Hg Hf.
  - exfalso. pose proof (bounded_size (proj2 (proj2 Hg))). lia.
  - cbn [closure_loop]. rewrite closure_pass_eq.
    destruct (forM pass_step queries (r, false)) as [[r1 ch]|e] eqn:E; cbn [bind].
    + destruct (pass_Ok (incl_refl _) Hg E) as (G1 & W1 & F1 & T1).
      destruct ch.
      * destruct (T1 eq_refl) as [X|X]; [discriminate|].
        assert (size base + list_sum (map (fun t => length (fkcols t)) queries) < f + size r1) as Hf' by lia.
        specialize (IH r1 G1 Hf'). destruct (closure_loop ms f ign queries r1); [|auto].
        destruct IH as (H1 & H2 & H3). split; [auto|]. split; [eapply grows_trans; eauto|auto].
      * destruct (F1 eq_refl) as (_ & -> & H). auto.
    + eapply pass_Err; eauto using incl_refl.
Qed.

(** The initial columns. *)
Definition direct (t : string) (c : string) : Prop :=
  In c (dget_or (mc_extra cfg) t []) \/
  exists m, source_table ms t m /\ In c (tb_pk (tm_table m)) /\ ~ In c (dget_or (mc_ignore_pk cfg) t []).

Definition direct_step (result : colmap) (t : string) : res mult_exn colmap :=
  if memb t ign then Ok result
  else
    let* m := lookup_table ms t in
    let cols := set_of (dget_or (mc_extra cfg) t []) in
    let ignored := set_of (dget_or (mc_ignore_pk cfg) t []) in
    Ok (dset result t (set_update cols (set_diff (set_of (tb_pk (tm_table m))) ignored))).

Lemma direct_spec : forall qs r r',
  forM direct_step qs r = Ok r' ->
  (forall t c, In c (dget_or r t []) -> direct t c) ->
  (forall t, dmem r t = true -> forall c, direct t c -> In c (dget_or r t [])) ->
  (forall t, NoDup (dget_or r t [])) ->
  (forall t, dmem r' t = true <-> dmem r t = true \/ (In t qs /\ ~ excluded cfg p t)) /\
  (forall t c, In c (dget_or r' t []) -> direct t c) /\
  (forall t, dmem r' t = true -> forall c, direct t c -> In c (dget_or r' t [])) /\
  (forall t, NoDup (dget_or r' t [])).
Proof.
  induction qs as [|t qs IH]; intros r r' E H1 H2 H3; cbn [forM] in E.
  - inversion E; subst. split; [|auto]. intros t. cbn. tauto.
  - apply bind_Ok in E. destruct E as (r1 & E1 & E). unfold direct_step in E1.
    destruct (memb t ign) eqn:Hi.
    + inversion E1; subst r1. destruct (IH _ _ E H1 H2 H3) as (A & B). split; [|auto].
      intros t'. rewrite A. apply memb_true, ign_iff in Hi. cbn. split; [tauto|].
      intros [?|[[<-|?] ?]]; tauto.
    + apply bind_Ok in E1. destruct E1 as (m & Hm & E1). inversion E1 as [E1']. clear E1.
      pose proof (proj1 (lookup_Ok t m) Hm) as Hsrc.
      set (cs := set_update (set_of (dget_or (mc_extra cfg) t []))
                  (set_diff (set_of (tb_pk (tm_table m))) (set_of (dget_or (mc_ignore_pk cfg) t [])))) in *.
      assert (forall c, In c cs <-> direct t c) as Hcs.
      { intros c. unfold cs. rewrite set_update_In, set_of_In. unfold set_diff. rewrite filter_In, set_of_In, negb_true_iff, memb_false, set_of_In.
        unfold direct. split.
        - intros [?|[? ?]]; [auto|]. right. exists m. auto.
        - intros [?|(m' & Hs' & ? & ?)]; [auto|]. right.
          apply lookup_Ok in Hs'. assert (m' = m) as -> by congruence. auto. }
      assert (forall t', dget_or r1 t' [] = if eq_dec t' t then cs else dget_or r t' []) as Hget.
      { intros t'. rewrite <- E1'. unfold dget_or. rewrite dget_dset. destruct (eq_dec t' t); auto. }
      destruct (IH r1 r' E) as (A & B & C & D).
      * intros t' c. rewrite Hget. destruct (eq_dec t' t) as [->|]; [apply Hcs|apply H1].
      * intros t' Hm' c Hd. rewrite Hget. destruct (eq_dec t' t) as [->|Ht]; [apply Hcs; auto|].
        apply H2; auto. rewrite <- E1' in Hm'. unfold dmem in *. rewrite dget_dset_ne in Hm' by auto. auto.
      * intros t'. rewrite Hget. destruct (eq_dec t' t) as [->|Ht]; [|auto].
        unfold cs. apply set_update_NoDup, set_of_NoDup.
      * split; [|auto]. intros t'. rewrite A. rewrite <- E1'.
        apply memb_false in Hi. rewrite ign_iff in Hi.
        unfold dmem. rewrite dget_dset. destruct (eq_dec t' t) as [->|Ht].
        -- split; [intros _; right; cbn; auto|auto].
        -- cbn. split; [|intros [?|[[->|?] ?]]; tauto]. intros [?|?]; tauto.
Qed.

Lemma direct_Err : forall qs r e, incl qs queries -> forM direct_step qs r = Err e ->
  exists t, planned p t /\ ~ exists m, source_table ms t m.
Proof.
  induction qs as [|t qs IH]; intros r e Hi E; cbn [forM] in E; [discriminate|].
  assert (incl qs queries) as Hi' by (intros x Hx; apply Hi; right; auto).
  apply bind_Err in E. destruct E as [E|(r1 & E1 & E)]; [|eauto].
  unfold direct_step in E. destruct (memb t ign); [discriminate|].
  apply bind_Err in E. destruct E as [E|(m & _ & E)]; [|discriminate].
  exists t. split; [apply Hi; left; auto|]. intros [m X]. apply lookup_Ok in X. congruence.
Qed.

Lemma direct_fuel : forall qs r, forM direct_step qs r <> Err MuOutOfFuel.
Proof.
  induction qs as [|t qs IH]; intros r E; cbn [forM] in E; [discriminate|].
  apply bind_Err in E. destruct E as [E|(r1 & E1 & E)]; [|eapply IH; eauto].
  unfold direct_step in E. destruct (memb t ign); [discriminate|].
  apply bind_Err in E. destruct E as [E|(m & _ & E)]; [|discriminate]. eapply lookup_fuel; eauto.
Qed.

Lemma direct_good r0 : forM direct_step queries [] = Ok r0 -> good r0 r0 /\
  (forall t, dmem r0 t = true -> forall c, direct t c -> In c (dget_or r0 t [])).
Proof.
  intros E0. destruct (direct_spec E0) as (K0 & S0 & C0 & N0).
  { intros t c []. } { intros t X. discriminate. } { intros t. constructor. }
  split; [|auto].
  split; [|split].
    - intros t. rewrite K0. unfold planned. split; [intros [X|X]; [discriminate|auto]|auto].
    - intros t c Hin. assert (dmem r0 t = true) as X.
      { destruct (dmem r0 t) eqn:X; [auto|]. rewrite dget_or_none in Hin by auto. destruct Hin. }
      apply K0 in X. destruct X as [X|[Hp Hx]]; [discriminate|].
      apply S0 in Hin. destruct Hin as [Hin|(m & Hs & Hin & Hni)].
      + apply mul_extra; auto.
      + eapply mul_pk; eauto.
    - intros t Hp. split; [auto|]. exists []. rewrite app_nil_r. split; [auto|]. intros x [].
Qed.

Lemma closed_complete r : right_keys r ->
  (forall t, dmem r t = true -> forall c, direct t c -> In c (dget_or r t [])) ->
  (forall t, planned p t -> ~ excluded cfg p t -> closed_at r t) ->
  forall t c, multiplied t c -> In c (dget_or r t []).
Proof.
  intros Hk Hd Hc t c H. induction H as [t c Hp Hx Hin|t m c Hp Hx Hs Hin Hni|t m fk c Hp Hx Hs Hf Hcf Hm IH].
  - apply Hd; [apply Hk; auto|left; auto].
  - apply Hd; [apply Hk; auto|right; eauto].
  - eapply Hc; eauto.
Qed.

Lemma verify_cols_spec m : forall l,
  match forM (fun (_ : unit) c => if memb c (tb_cols (tm_table m)) then
        if is_int (tm_name m) c then Ok tt else Err MuValueError else Err MuKeyError) l tt with
  | Ok _ => forall c, In c l -> In c (tb_cols (tm_table m)) /\ is_int (tm_name m) c = true
  | Err e => exists c, In c l /\
      ((e = MuKeyError /\ ~ In c (tb_cols (tm_table m))) \/ (e = MuValueError /\ is_int (tm_name m) c = false))
  end.
Proof.
  induction l as [|c l IH]; cbn [forM]; [intros c []|].
  destruct (memb c (tb_cols (tm_table m))) eqn:Hc.
  - destruct (is_int (tm_name m) c) eqn:Hi; cbn [bind].
    + destruct (forM _ l tt).
      * intros c' [<-|Hin]; [apply memb_true in Hc; auto|auto].
      * destruct IH as (c' & Hin & H). exists c'. cbn. auto.
    + exists c. cbn. auto.
  - cbn [bind]. exists c. apply memb_false in Hc. cbn. auto.
Qed.

Lemma verify_spec r : forall qs, incl qs queries ->
  match forM (fun (_ : unit) t =>
    let* m := lookup_table ms t in
    forM (fun (_ : unit) c =>
      if memb c (tb_cols (tm_table m)) then
        if is_int (tm_name m) c then Ok tt else Err MuValueError
      else Err MuKeyError) (ord (dget_or r t [])) tt) qs tt with
  | Ok _ => forall t, In t qs -> exists m, source_table ms t m /\
      forall c, In c (dget_or r t []) -> In c (tb_cols (tm_table m)) /\ is_int (tm_name m) c = true
  | Err e => (exists t, planned p t /\ ~ exists m, source_table ms t m) \/
      exists t m c, planned p t /\ source_table ms t m /\ In c (dget_or r t []) /\
      ((e = MuKeyError /\ ~ In c (tb_cols (tm_table m))) \/ (e = MuValueError /\ is_int (tm_name m) c = false))
  end.
Proof.
  induction qs as [|t qs IH]; intros Hi; cbn [forM]; [intros t []|].
  assert (incl qs queries) as Hi' by (intros x Hx; apply Hi; right; auto). specialize (IH Hi').
  assert (planned p t) as Hpl by (apply Hi; left; auto).
  destruct (lookup_table ms t) as [m|e'] eqn:Hm; cbn [bind].
  2:{ left. exists t. split; [auto|]. intros [m X]. apply lookup_Ok in X. congruence. }
  pose proof (proj1 (lookup_Ok t m) Hm) as Hsrc.
  pose proof (verify_cols_spec m (ord (dget_or r t []))) as V.
  destruct (forM _ (ord (dget_or r t [])) tt) as [[]|e] eqn:Ev; cbn [bind].
  - destruct (forM _ qs tt).
    + intros t' [<-|Ht']; [|auto]. exists m. split; [auto|]. intros c Hc. apply V.
      eapply Permutation_in; [apply Permutation_sym, any_ord|auto].
    + destruct IH as [?|IH]; [auto|]. right. auto.
  - right. destruct V as (c & Hc & V). exists t, m, c. split; [auto|]. split; [auto|]. split; [|auto].
    eapply Permutation_in; [apply any_ord|auto].
Qed.

(** Extra columns need not exist: the KeyError of sampler.py:1158. *)
Theorem multiplied_reflected :
  (forall t, planned p t -> exists m, source_table ms t m) -> (1 < mc_multiplier cfg)%Z ->
  match get_multiplied_columns cfg ms is_int ord p with
  | Ok r =>
      ~ excluded_needs_multiplying ms cfg p /\ ~ multiplied_non_integer ms cfg p is_int /\
      (forall t, dmem r t = true <-> planned p t /\ ~ excluded cfg p t) /\
      (forall t cs, dget r t = Some cs -> NoDup cs /\ forall c, In c cs <-> multiplied t c)
  | Err e => (e = MuValueError /\
      (excluded_needs_multiplying ms cfg p \/ multiplied_non_integer ms cfg p is_int)) \/
      (e = MuKeyError /\ exists t m c, multiplied t c /\ source_table ms t m /\ ~ In c (tb_cols (tm_table m)))
  end.
Proof.
  intros Wf1 Hm. unfold get_multiplied_columns.
  assert ((mc_multiplier cfg <=? 1)%Z = false) as -> by (apply Z.leb_gt; auto).
  change (direct_columns cfg ms ign queries) with (forM direct_step queries []).
  assert (~ exists t, planned p t /\ ~ exists m, source_table ms t m) as Hno.
  { intros (t & Hp & Hn). apply Hn, Wf1. auto. }
  destruct (forM direct_step queries []) as [r0|e] eqn:E0; cbn [bind].
  2:{ exfalso. apply Hno. eapply direct_Err; eauto using incl_refl. }
  destruct (direct_spec E0) as (K0 & S0 & C0 & N0).
  { intros t c []. } { intros t X. discriminate. } { intros t. constructor. }
  destruct (direct_good E0) as [G0 _].
  assert (size r0 + list_sum (map (fun t => length (fkcols t)) queries) < closure_fuel ms queries + size r0) as Hf
    by (rewrite fuel_eq; lia).
  pose proof (loop_spec G0 Hf) as L.
  destruct (closure_loop ms (closure_fuel ms queries) ign queries r0) as [r|e]; cbn [bind].
  2:{ destruct L as [[-> L]|L]; [auto|destruct L as (t & X & Y & _); exfalso; eauto]. }
  destruct L as ((K & S & B) & W & L).
  assert (forall t c, multiplied t c -> In c (dget_or r t [])) as Hcompl.
  { apply closed_complete; auto.
    - intros t Ht c Hd. destruct (W t) as [x ->]. apply in_app_iff. left. apply C0; auto.
      apply K0. right. apply K in Ht. auto.
    - intros t Hp Hx. apply L; auto. }
  assert (~ excluded_needs_multiplying ms cfg p) as Hne.
  { intros (t & m & fk & c & Hp & Hx & Hs & Hfk & Hc & Hmul).
    destruct (L t Hp) as [_ X]. apply (X Hx m fk c Hs Hfk Hc). apply Hcompl. auto. }
  unfold verify_columns.
  pose proof (@verify_spec r queries (incl_refl _)) as V.
  destruct (forM _ queries tt) as [[]|e]; cbn [bind].
  - split; [auto|]. split; [|split; [auto|]].
    + intros (t & m & c & Hmul & Hs & Hni).
      assert (planned p t) as Hp by (destruct Hmul; auto).
      destruct (V t Hp) as (m' & Hs' & V'). assert (m' = m) as ->.
      { apply lookup_Ok in Hs, Hs'. congruence. }
      apply Hcompl in Hmul. apply V' in Hmul. destruct Hmul. congruence.
    + intros t cs Hg.
      assert (dget_or r t [] = cs) as Hcs by (unfold dget_or; rewrite Hg; auto).
      assert (planned p t) as Hp.
      { apply K. unfold dmem. rewrite Hg. auto. }
      split.
      * rewrite <- Hcs. apply B. auto.
      * intros c. rewrite <- Hcs. split; [apply S|apply Hcompl].
  - destruct V as [V|(t & m & c & Hp & Hs & Hin & [[-> Hc]|[-> Hc]])]; [tauto| |].
    + right. split; [auto|]. exists t, m, c. auto.
    + left. split; [auto|]. right. exists t, m, c. auto.
Qed.

Theorem multiplied_spec :
  multiplicity_wf ms cfg p -> (1 < mc_multiplier cfg)%Z ->
  match get_multiplied_columns cfg ms is_int ord p with
  | Ok r =>
      ~ excluded_needs_multiplying ms cfg p /\ ~ multiplied_non_integer ms cfg p is_int /\
      (forall t, dmem r t = true <-> planned p t /\ ~ excluded cfg p t) /\
      (forall t cs, dget r t = Some cs -> NoDup cs /\ forall c, In c cs <-> multiplied t c)
  | Err e => e = MuValueError /\
      (excluded_needs_multiplying ms cfg p \/ multiplied_non_integer ms cfg p is_int)
  end.
Proof.
  intros (Wf1 & Wf2) Hm. pose proof (multiplied_reflected Wf1 Hm) as H. destruct (get_multiplied_columns cfg ms is_int ord p) as [r|e]; [exact H|].
  destruct H as [H|[_ (t & m & c & Hc & Hs & Hn)]]; [exact H|]. elim Hn. exact (Wf2 _ _ _ Hc Hs).
Qed.

(** Without the hypotheses on names: the fixpoint loop always ends. *)
Theorem multiplied_terminates :
  get_multiplied_columns cfg ms is_int ord p <> Err MuOutOfFuel.
Proof.
  unfold get_multiplied_columns. destruct (mc_multiplier cfg <=? 1)%Z; [discriminate|].
  change (direct_columns cfg ms ign queries) with (forM direct_step queries []).
  destruct (forM direct_step queries []) as [r0|e] eqn:E0; cbn [bind].
  2:{ intros [= ->]. revert E0. apply direct_fuel. }
  destruct (direct_good E0) as [G0 C0].
  assert (size r0 + list_sum (map (fun t => length (fkcols t)) queries) < closure_fuel ms queries + size r0) as Hf
    by (rewrite fuel_eq; lia).
  pose proof (loop_spec G0 Hf) as L.
  destruct (closure_loop ms (closure_fuel ms queries) ign queries r0) as [r|e]; cbn [bind].
  2:{ intros [= ->]. destruct L as [[X _]|(t & _ & _ & X)]; congruence. }
  intros E. apply bind_Err in E. destruct E as [E|(u & _ & E)]; [|discriminate].
  unfold verify_columns in E. revert E. generalize queries as qs. intros qs.
  induction qs as [|t qs IH]; cbn [forM]; [discriminate|]. intros E.
  apply bind_Err in E. destruct E as [E|([] & _ & E)]; [|auto].
  apply bind_Err in E. destruct E as [E|(m & _ & E)]; [eapply lookup_fuel; eauto|].
  pose proof (verify_cols_spec m (ord (dget_or r t []))) as V. rewrite E in V.
  destruct V as (c & _ & [[X _]|[X _]]); congruence.
Qed.
End M.
