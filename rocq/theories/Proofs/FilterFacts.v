(** Proofs about filters. *)
From Coq Require Import Lia ListDec.
From Verif Require Import Model.Base Model.Value Model.Filters Spec.FilterSpec Proofs.BaseFacts.
Set Implicit Arguments. Unset Strict Implicit.

(** ** Indexes *)
Lemma nth_error_seq n a i : i < n -> nth_error (seq a n) i = Some (a + i).
Proof.
  revert a i. induction n as [|n IH]; intros a [|i] H; cbn; try lia.
  - f_equal. lia.
  - rewrite IH by lia. f_equal. lia.
Qed.

Lemma dict_of_app {K V} `{EqDec K} (l l' : list (K * V)) :
  dict_of (l ++ l') = fold_left (fun d kv => dset d (fst kv) (snd kv)) l' (dict_of l).
Proof. unfold dict_of. rewrite fold_left_app. auto. Qed.

Lemma index_map_gen : forall (cols : list string) a d c,
  dget (fold_left (fun d kv => dset d (fst kv) (snd kv)) (combine cols (seq a (length cols))) d) c =
  match dget d c, (existsb (eqb c) cols) with
  | x, false => x
  | _, true => dget (fold_left (fun d kv => dset d (fst kv) (snd kv)) (combine cols (seq a (length cols))) []) c
  end.
Proof.
  induction cols as [|k cols IH]; intros a d c; cbn; [destruct (dget d c); auto|].
  rewrite IH, (IH _ [(k, a)]). cbn [dget].
  unfold eqb at 2. rewrite dget_dset. destruct (eq_dec c k) as [->|Hne]; cbn.
  - destruct (dget d k); destruct (existsb (eqb k) cols); auto.
  - destruct (dget d c); destruct (existsb (eqb c) cols); auto.
Qed.

Lemma index_map_Some cols c i : dget (column_index_map cols) c = Some i -> nth_error cols i = Some c.
Proof.
  unfold column_index_map, dict_of.
  assert (forall a i, dget (fold_left (fun d kv => dset d (fst kv) (snd kv)) (combine cols (seq a (length cols))) []) c = Some i ->
     exists j, i = a + j /\ nth_error cols j = Some c) as H.
  { induction cols as [|k cols IH]; intros a i0; cbn; [discriminate|].
    rewrite index_map_gen. cbn [dget]. destruct (existsb (eqb c) cols) eqn:E.
    - intros H. assert (exists j, i0 = S a + j /\ nth_error cols j = Some c) as (j & -> & Hj).
      { apply IH. destruct (eq_dec c k); auto. }
      exists (S j). split; [lia|exact Hj].
    - destruct (eq_dec c k) as [->|]; [|discriminate]. intros [= <-]. exists 0. split; [lia|reflexivity]. }
  intros E. apply H in E. destruct E as (j & -> & Hj). auto.
Qed.

Lemma index_map_None cols c : dget (column_index_map cols) c = None <-> ~ In c cols.
Proof.
  unfold column_index_map, dict_of.
  assert (forall a, dget (fold_left (fun d kv => dset d (fst kv) (snd kv)) (combine cols (seq a (length cols))) []) c = None <-> ~ In c cols) as H; [|apply H].
  induction cols as [|k cols IH]; intros a; cbn; [tauto|].
  rewrite index_map_gen. cbn [dget]. destruct (existsb (eqb c) cols) eqn:E.
  - assert (In c cols) as Hin by (apply memb_true; exact E).
    specialize (IH (S a)). destruct (eq_dec c k); tauto.
  - assert (~ In c cols) as Hin by (apply memb_false; exact E).
    destruct (eq_dec c k) as [->|Hne]; [split; [discriminate|tauto]|].
    split; [intros _ [X|X]; [congruence|auto]|auto].
Qed.

Lemma index_of_Some c : forall cols a i, index_of c cols a = Some i -> exists j, i = a + j /\ nth_error cols j = Some c.
Proof.
  induction cols as [|d cols IH]; intros a i; cbn; [discriminate|].
  destruct (eqb c d) eqn:E.
  - intros [= <-]. rewrite eqb_true in E. subst. exists 0. split; [lia|reflexivity].
  - intros H. apply IH in H. destruct H as (j & -> & Hj). exists (S j). split; [lia|exact Hj].
Qed.
Lemma index_of_None c : forall cols a, index_of c cols a = None <-> ~ In c cols.
Proof.
  induction cols as [|d cols IH]; intros a; cbn; [tauto|].
  destruct (eqb c d) eqn:E.
  - rewrite eqb_true in E. split; [discriminate|intros H; exfalso; apply H; left; auto].
  - rewrite eqb_false in E. rewrite IH. split; [intros H [X|X]; [congruence|auto]|auto].
Qed.

(** ** Values by column *)
Lemma value_of_nth cols r i c : NoDup cols -> nth_error cols i = Some c -> value_of cols r c = nth_error r i.
Proof.
  unfold value_of. intros N. revert r i. induction N as [|k cols Hk N IH]; intros r i H; [destruct i; discriminate|].
  destruct i as [|i]; cbn in H.
  - injection H as ->. destruct r as [|v r]; cbn; [auto|]. destruct (eq_dec c c); [auto|congruence].
  - destruct r as [|v r]; cbn; [auto|].
    destruct (eq_dec c k) as [->|]; [exfalso; apply Hk; eapply nth_error_In; eauto|]. apply IH. auto.
Qed.

Lemma value_of_None cols r c : length r = length cols -> (value_of cols r c = None <-> ~ In c cols).
Proof.
  intros L. unfold value_of. rewrite dget_None. unfold dkeys.
  assert (map fst (combine cols r) = cols) as ->; [|tauto].
  revert r L. induction cols as [|k cols IH]; intros [|v r] L; cbn in *; try discriminate; [auto|].
  f_equal. apply IH. lia.
Qed.

Lemma list_set_length {A} (l : list A) i x : length (list_set l i x) = length l.
Proof. revert i. induction l as [|y l IH]; intros [|i]; cbn; auto. Qed.

Lemma list_set_nth {A} (l : list A) i x j : nth_error (list_set l i x) j =
  if Nat.eqb i j then match nth_error l j with Some _ => Some x | None => None end else nth_error l j.
Proof.
  revert i j. induction l as [|y l IH]; intros i j; cbn.
  - destruct (Nat.eqb i j); destruct j; auto.
  - destruct i as [|i], j as [|j]; cbn; auto.
Qed.

Lemma NoDup_nth_inj {A} (l : list A) i j x : NoDup l -> nth_error l i = Some x -> nth_error l j = Some x -> i = j.
Proof.
  intros N Hi Hj. rewrite NoDup_nth_error in N. apply N; [|congruence].
  apply nth_error_Some. congruence.
Qed.

Lemma value_of_set cols r i x c c' : NoDup cols -> length r = length cols -> nth_error cols i = Some c ->
  value_of cols (list_set r i x) c' = if eq_dec c' c then Some x else value_of cols r c'.
Proof.
  intros N L Hi. destruct (In_dec' c' cols) as [Hin|Hin].
  - apply In_nth_error in Hin. destruct Hin as [j Hj].
    rewrite !(value_of_nth _ N Hj), list_set_nth.
    destruct (eq_dec c' c) as [->|Hne].
    + rewrite (NoDup_nth_inj N Hi Hj), Nat.eqb_refl.
      destruct (nth_error r j) eqn:E; [auto|]. apply nth_error_None in E.
      assert (j < length cols) by (apply nth_error_Some; congruence). lia.
    + destruct (Nat.eqb_spec i j) as [->|]; [congruence|auto].
  - assert (value_of cols (list_set r i x) c' = None) as -> by (apply value_of_None; rewrite ?list_set_length; auto).
    assert (value_of cols r c' = None) as -> by (apply value_of_None; auto).
    destruct (eq_dec c' c) as [->|]; [|auto]. exfalso. apply Hin. eapply nth_error_In; eauto.
Qed.

Lemma nth_error_ext {A} (l l' : list A) : (forall i, nth_error l i = nth_error l' i) -> l = l'.
Proof.
  revert l'. induction l as [|x l IH]; intros [|y l'] H; [auto|specialize (H 0); discriminate|specialize (H 0); discriminate|].
  pose proof (H 0) as H0. cbn in H0. injection H0 as ->. f_equal. apply IH. intros i. apply (H (S i)).
Qed.

Lemma row_ext cols r r' : NoDup cols -> length r = length cols -> length r' = length cols ->
  (forall c, In c cols -> value_of cols r c = value_of cols r' c) -> r = r'.
Proof.
  intros N L L' H. apply nth_error_ext. intros i.
  destruct (nth_error cols i) as [c|] eqn:E.
  - rewrite <- !(value_of_nth _ N E). apply H. eapply nth_error_In; eauto.
  - apply nth_error_None in E. rewrite !(proj2 (nth_error_None _ _)); auto; lia.
Qed.

(** ** Construction *)
Lemma has_dup_spec : forall cols seen, has_dup seen cols = true <-> ~ (NoDup cols /\ forall c, In c cols -> ~ In c seen).
Proof.
  induction cols as [|c cols IH]; intros seen; cbn.
  - split; [discriminate|]. intros H. exfalso. apply H. split; [constructor|intros c []].
  - rewrite orb_true_iff, IH, memb_true. split.
    + intros H [N Hs]. inversion N as [|? ? Hc N']; subst. destruct H as [H|H].
      * apply (Hs c); auto.
      * apply H. split; [auto|]. intros c' Hc' [<-|X]; [auto|]. apply (Hs c'); auto.
    + intros H. destruct (In_dec' c seen) as [X|X]; [auto|]. right. intros [N Hs]. apply H. split.
      * constructor; auto. intros Y. apply (Hs c); [auto|left; auto].
      * intros c' [<-|Y]; [auto|]. intros Z. apply (Hs c'); [auto|right; auto].
Qed.

Lemma validate_Ok cols acts idx : validate_and_index cols acts = Ok idx ->
  acts <> [] /\ NoDup acts /\ incl acts cols /\
  Forall2 (fun c i => dget (column_index_map cols) c = Some i) acts idx.
Proof.
  unfold validate_and_index. destruct (is_nil acts) eqn:En; [discriminate|].
  destruct (has_dup [] acts) eqn:Ed; [discriminate|]. intros H. apply mapM_Ok in H.
  split; [destruct acts; [discriminate|congruence]|].
  assert (Forall2 (fun c i => dget (column_index_map cols) c = Some i) acts idx) as F.
  { clear -H. induction H as [|c i acts idx Hc H IH]; constructor; auto.
    destruct (dget (column_index_map cols) c); congruence. }
  split; [|split; [|auto]].
  - assert (~ ~ (NoDup acts /\ forall c, In c acts -> ~ In c [])) as X.
    { intros X. apply has_dup_spec in X. congruence. }
    destruct (ListDec.NoDup_dec string_dec acts); [auto|]. exfalso. apply X. tauto.
  - intros c Hc. apply Forall2_In_l with (1 := F) in Hc. destruct Hc as (i & _ & Hi).
    apply index_map_Some in Hi. eapply nth_error_In; eauto.
Qed.

Lemma validate_Err cols acts e : validate_and_index cols acts = Err e ->
  e = FxValueError /\ (acts = [] \/ ~ NoDup acts \/ exists c, In c acts /\ ~ In c cols).
Proof.
  unfold validate_and_index. destruct (is_nil acts) eqn:En.
  { intros [= <-]. destruct acts; [auto|discriminate]. }
  destruct (has_dup [] acts) eqn:Ed.
  { intros [= <-]. split; [auto|]. right. left. apply has_dup_spec in Ed. intros N. apply Ed. split; [auto|]. intros c _ []. }
  intros H. clear -H. split; [|right; right]; revert H.
  - induction acts as [|c acts IH]; cbn; [discriminate|].
    destruct (dget (column_index_map cols) c); cbn; [|congruence].
    destruct (mapM _ acts) eqn:E; cbn; [discriminate|]. intros [= ->]. auto.
  - induction acts as [|c acts IH]; cbn; [discriminate|].
    destruct (dget (column_index_map cols) c) eqn:Ec; cbn.
    + destruct (mapM _ acts) as [l|e'] eqn:E; cbn; [discriminate|]. intros H. injection H as ->.
      destruct (IH eq_refl) as (c' & H1 & H2). exists c'. auto.
    + intros _. exists c. apply index_map_None in Ec. auto.
Qed.

Lemma validate_iff cols acts :
  validate_and_index cols acts = Err FxValueError <->
  acts = [] \/ ~ NoDup acts \/ exists c, In c acts /\ ~ In c cols.
Proof.
  split; [intros H; apply validate_Err in H; tauto|].
  intros H. destruct (validate_and_index cols acts) as [idx|e] eqn:E.
  - exfalso. apply validate_Ok in E. destruct E as (A & B & C & _). destruct H as [H|[H|(c & H1 & H2)]]; auto.
  - apply validate_Err in E. f_equal. tauto.
Qed.

Lemma filter_omit_Ok cols acts v : filter_omit cols acts = Ok v ->
  exists out idx, v = SvOmit cols out idx /\ out = filter (fun c => negb (memb c acts)) cols /\
  Forall2 (fun c i => dget (column_index_map cols) c = Some i) out idx.
Proof.
  unfold filter_omit. intros H. apply bind_Ok in H. destruct H as (idx & H & E). inversion E; subst v; clear E.
  exists (filter (fun c => negb (memb c (set_of acts))) cols), idx. split; [auto|]. split.
  - apply filter_ext. intros c. f_equal.
    destruct (memb c acts) eqn:X.
    + apply memb_true. apply set_of_In. apply memb_true. auto.
    + apply memb_false. rewrite set_of_In. apply memb_false. auto.
  - apply mapM_Ok in H. clear -H. induction H as [|c i acts' idx Hc H IH]; constructor; auto.
    destruct (dget (column_index_map cols) c); congruence.
Qed.

Lemma filter_omit_total cols acts : exists v, filter_omit cols acts = Ok v.
Proof.
  unfold filter_omit.
  assert (forall l, incl l cols -> exists idx, mapM (fun c => match dget (column_index_map cols) c with Some i => Ok i | None => Err (FxOther 0) end) l = Ok idx) as H.
  { induction l as [|c l IH]; intros Hi; cbn; [eauto|].
    destruct (dget (column_index_map cols) c) eqn:E.
    - cbn. destruct IH as [idx ->]; [intros x Hx; apply Hi; right; auto|]. cbn. eauto.
    - exfalso. apply index_map_None in E. apply E, Hi. left. auto. }
  destruct (H (filter (fun c => negb (memb c (set_of acts))) cols)) as [idx ->].
  - intros x Hx. apply filter_In in Hx. tauto.
  - cbn. eauto.
Qed.

Section F.
Context {G : Type}.
Variable randint : Z -> Z -> G -> res filter_exn (Z * G).
Variable uniform : Q -> Q -> G -> Q * G.
Variable rand_index : nat -> G -> nat * G.
Variable uuid4 : G -> string * G.
Variable fake : string -> bool -> G -> res filter_exn (value * G).
Variable load_plugin : string -> string -> bool.
Variable plugin : string -> string -> list value -> G -> res filter_exn (list value * G).
Variable py_is : value -> mvalue -> bool.
Variable py_in : value -> mvalue -> res filter_exn bool.
Variable py_eq : value -> mvalue -> bool.
Variable py_lt py_gt py_le py_ge : value -> mvalue -> res filter_exn bool.
Variable py_fnmatch : value -> mvalue -> res filter_exn bool.

Notation fvalues := (filter_values randint uniform rand_index uuid4 fake plugin).
Notation asview := (apply_sview randint uniform rand_index uuid4 fake plugin).
Notation aview := (apply_view randint uniform rand_index uuid4 fake plugin py_is py_in py_eq py_lt py_gt py_le py_ge py_fnmatch).
Notation achain := (apply_chain randint uniform rand_index uuid4 fake plugin py_is py_in py_eq py_lt py_gt py_le py_ge py_fnmatch).
Notation amulti := (multiplex randint uniform rand_index uuid4 fake plugin py_is py_in py_eq py_lt py_gt py_le py_ge py_fnmatch).
Notation csimple := (construct_simple load_plugin).
Notation cview := (construct_view load_plugin).
Notation cchain := (construct_chain load_plugin).

(** A constructed simple filter. *)
Inductive built (cols : list string) (s : simple_filter) : sview -> Prop :=
| built_cols acts idx a : acts = named_columns s -> acts <> [] -> NoDup acts -> incl acts cols ->
    Forall2 (fun c i => dget (column_index_map cols) c = Some i) acts idx ->
    (forall vals, a = AConstant vals -> length vals = length acts) ->
    built cols s (SvColumns cols acts idx a)
| built_omit acts out idx : s = SfOmit acts -> out = filter (fun c => negb (memb c acts)) cols ->
    Forall2 (fun c i => dget (column_index_map cols) c = Some i) out idx ->
    built cols s (SvOmit cols out idx).

Lemma filter_columns_built cols s a v : filter_columns cols (named_columns s) a = Ok v ->
  (forall vals, a = AConstant vals -> length vals = length (named_columns s)) -> built cols s v /\
  exists idx, v = SvColumns cols (named_columns s) idx a.
Proof.
  unfold filter_columns. intros H Hc. apply bind_Ok in H. destruct H as (idx & H & E). inversion E; subst v.
  apply validate_Ok in H. destruct H as (A & B & C & D). split; [econstructor; eauto|eauto].
Qed.

Lemma csimple_built cols s v : csimple s cols = Ok v -> built cols s v.
Proof.
  destruct s; cbn [construct_simple]; intros H.
  - apply (@filter_columns_built cols (SfZero cols0) AZero v H). discriminate.
  - apply filter_omit_Ok in H. destruct H as (out & idx & -> & Ho & F). eapply built_omit; eauto.
  - apply (@filter_columns_built cols (SfNull cols0) ANull v H). discriminate.
  - apply bind_Ok in H. destruct H as (v' & H & E). destruct (Nat.eqb_spec (length vals) (length cols0)); [|discriminate].
    inversion E; subst v'. apply (@filter_columns_built cols (SfConstant cols0 vals) (AConstant vals) v H). intros ? [= <-]. auto.
  - apply (@filter_columns_built cols (SfRandomInt cols0 low high) _ v H). discriminate.
  - apply (@filter_columns_built cols (SfRandomFloat cols0 low high) _ v H). discriminate.
  - destruct (match dget alphabet_map alphabet with Some s => Some s | None => custom end) as [[|]|]; try discriminate.
    apply (@filter_columns_built cols (SfRandomString cols0 len alphabet custom) _ v H). discriminate.
  - apply (@filter_columns_built cols (SfUuid cols0) _ v H). discriminate.
  - apply (@filter_columns_built cols (SfFake op cols0 unique) _ v H). discriminate.
  - destruct (load_plugin module clazz); [|discriminate].
    apply (@filter_columns_built cols (SfPlugin cols0 module clazz) _ v H). discriminate.
Qed.

Lemma built_in cols s v : built cols s v -> sv_in v = cols.
Proof. destruct 1; auto. Qed.

Lemma Forall2_len {A B} (P : A -> B -> Prop) l l' : Forall2 P l l' -> length l = length l'.
Proof. induction 1; cbn; auto. Qed.

Lemma mapM_length {E A B} (f : A -> res E B) l l' : mapM f l = Ok l' -> length l' = length l.
Proof. intros H. apply mapM_Ok in H. symmetry. eapply Forall2_len; eauto. Qed.

Lemma fold_set_length (ivs : list (nat * value)) r :
  length (fold_left (fun out iv => list_set out (fst iv) (snd iv)) ivs r) = length r.
Proof. revert r. induction ivs as [|iv ivs IH]; intros r; cbn; [auto|]. rewrite IH, list_set_length. auto. Qed.

(** Lengths. *)
Lemma asview_length cols s v r g r' g' : built cols s v -> length r = length cols ->
  asview v r g = Ok (r', g') -> length r' = length (sv_out v).
Proof.
  destruct 1 as [acts idx a Ha Hne N Hi F Hc|acts out idx -> -> F]; intros L E; cbn [apply_sview sv_out] in *.
  - apply bind_Ok in E. destruct E as (vs & _ & E). apply bind_Ok in E. destruct E as ([fs g1] & _ & E).
    inversion E; subst. rewrite fold_set_length. auto.
  - apply bind_Ok in E. destruct E as (vs & H & E). inversion E; subst.
    rewrite (mapM_length H). symmetry. eapply Forall2_len; eauto.
Qed.

(** Constructed views and chains. *)
Inductive vbuilt (cols : list string) : filter_config -> view -> Prop :=
| vb_simple s v : csimple s cols = Ok v -> vbuilt cols (FcSimple s) (VwSimple v)
| vb_multi col conds i vs : nth_error cols i = Some col ->
    Forall2 (fun c v => csimple (mc_apply c) cols = Ok v /\ sv_out v = cols) conds vs ->
    vbuilt cols (FcMultiplex col conds) (VwMultiplex cols i (combine conds vs)).

Lemma cview_built f cols v : cview f cols = Ok v -> vbuilt cols f v.
Proof.
  destruct f as [s|col conds]; cbn [construct_view]; intros H.
  - apply bind_Ok in H. destruct H as (v' & H & E). inversion E; subst. constructor. auto.
  - destruct (index_of col cols 0) as [i|] eqn:Ei; [|discriminate].
    apply index_of_Some in Ei. destruct Ei as (j & -> & Hj).
    apply bind_Ok in H. destruct H as (vs & H & E). apply bind_Ok in E. destruct E as (u & Hu & E).
    inversion E; subst. constructor; [auto|].
    apply mapM_Ok in H, Hu. clear -H Hu. revert u Hu.
    induction H as [|c v conds vs Hc H IH]; intros u Hu; [constructor|].
    inversion Hu as [|? ? ? ? Hv Hu']; subst. constructor; [|eapply IH; eauto]. split; [auto|].
    destruct (eqb (sv_out v) cols) eqn:E; [rewrite eqb_true in E; auto|discriminate].
Qed.

Lemma vbuilt_out_in cols f v c : vbuilt cols f v -> In c (vw_out v) -> In c cols.
Proof.
  destruct 1 as [s v H|col conds i vs H F]; cbn [vw_out]; [|auto].
  apply csimple_built in H. destruct H; cbn [sv_out]; [auto|]. subst. rewrite filter_In. tauto.
Qed.

Lemma vbuilt_NoDup cols f v : vbuilt cols f v -> NoDup cols -> NoDup (vw_out v).
Proof.
  destruct 1 as [s v H|col conds i vs H F]; cbn [vw_out]; [|auto].
  apply csimple_built in H. destruct H; cbn [sv_out]; [auto|]. subst. intros N. apply NoDup_filter. auto.
Qed.

Lemma vbuilt_out_keep cols f v c : vbuilt cols f v -> ~ may_change f c -> In c cols -> In c (vw_out v).
Proof.
  destruct 1 as [s v H|col conds i vs H F]; cbn [vw_out may_change]; [|auto].
  apply csimple_built in H. destruct H; cbn [sv_out]; [auto|]. subst. cbn. intros Hn Hc.
  apply filter_In. split; [auto|]. apply negb_true_iff, memb_false. auto.
Qed.

Lemma multiplex_inv conds vs cols : Forall2 (fun c v => csimple (mc_apply c) cols = Ok v /\ sv_out v = cols) conds vs ->
  forall x r g r' g', amulti (combine conds vs) x r g = Ok (r', g') ->
  (r' = r /\ g' = g) \/ exists c v, In c conds /\ csimple (mc_apply c) cols = Ok v /\ sv_out v = cols /\ asview v r g = Ok (r', g').
Proof.
  induction 1 as [|c v conds vs [Hc Ho] F IH]; intros x r g r' g' E; cbn in E.
  - inversion E; auto.
  - apply bind_Ok in E. destruct E as (b & Hb & E). destruct b.
    + right. exists c, v. cbn. auto.
    + apply IH in E. destruct E as [?|(c' & v' & ? & ?)]; [auto|]. right. exists c', v'. cbn. tauto.
Qed.

Lemma aview_length cols f v r g r' g' : vbuilt cols f v -> length r = length cols ->
  aview v r g = Ok (r', g') -> length r' = length (vw_out v).
Proof.
  destruct 1 as [s v H|col conds i vs H F]; intros L E; cbn [apply_view vw_out] in *.
  - apply csimple_built in H. eapply asview_length; eauto.
  - apply bind_Ok in E. destruct E as (x & _ & E).
    apply (multiplex_inv F) in E. destruct E as [[-> _]|(c & v & _ & Hc & Ho & E)]; [auto|].
    apply csimple_built in Hc. rewrite <- Ho. eapply asview_length; eauto.
Qed.

Theorem chain_length : forall fs cols vs out r g r' g',
  cchain fs cols = Ok (vs, out) -> length r = length cols -> achain vs r g = Ok (r', g') -> length r' = length out.
Proof.
  induction fs as [|f fs IH]; intros cols vs out r g r' g' C L E; cbn in C.
  - inversion C; subst. cbn in E. inversion E; subst. auto.
  - apply bind_Ok in C. destruct C as (v & Hv & C). apply bind_Ok in C. destruct C as ([vs' out'] & C & X).
    inversion X; subst. cbn in E. apply bind_Ok in E. destruct E as ([r1 g1] & E1 & E).
    apply cview_built in Hv. eapply IH; [exact C| |exact E]. eapply aview_length; eauto.
Qed.

(** ** Values *)
Lemma fold_set_value cols : NoDup cols -> forall acts idx fs r, length r = length cols -> NoDup acts ->
  Forall2 (fun c i => dget (column_index_map cols) c = Some i) acts idx ->
  forall c, value_of cols (fold_left (fun out iv => list_set out (fst iv) (snd iv)) (combine idx fs) r) c =
    match dget (combine acts fs) c with Some x => Some x | None => value_of cols r c end.
Proof.
  intros Nc acts idx fs r L Na F. revert fs r L Na. induction F as [|a i acts idx Ha F IH]; intros fs r L Na c; cbn; [auto|].
  destruct fs as [|x fs]; cbn; [auto|]. inversion Na as [|? ? Hna Na']; subst.
  rewrite IH by (rewrite ?list_set_length; auto).
  rewrite (@value_of_set cols r i x a c Nc L (index_map_Some Ha)).
  destruct (eq_dec c a) as [->|Hne]; [|auto].
  destruct (dget (combine acts fs) a) eqn:E; [|auto].
  exfalso. apply dget_In in E. apply in_combine_l in E. auto.
Qed.

Lemma omit_value cols out idx r vs : NoDup cols -> length r = length cols -> NoDup out ->
  Forall2 (fun c i => dget (column_index_map cols) c = Some i) out idx ->
  mapM (list_get r) idx = Ok vs ->
  forall c, value_of out vs c = if memb c out then value_of cols r c else None.
Proof.
  intros Nc L No F. revert vs. induction F as [|a i out idx Ha F IH]; intros vs H c; cbn in H.
  - inversion H. reflexivity.
  - apply bind_Ok in H. destruct H as (x & Hx & H). apply bind_Ok in H. destruct H as (vs' & H & E). inversion E; subst vs.
    inversion No as [|? ? Hna No']; subst. specialize (IH No' _ H c).
    unfold value_of in *. cbn [combine dget]. rewrite memb_cons.
    destruct (eq_dec c a) as [->|Hne].
    + rewrite eqb_refl. cbn. apply index_map_Some in Ha.
      pose proof (value_of_nth r Nc Ha) as V. unfold value_of in V. rewrite V.
      unfold list_get in Hx. destruct (nth_error r i); congruence.
    + assert (eqb c a = false) as -> by (apply eqb_false; auto). cbn. auto.
Qed.

Lemma asview_value cols s v r g r' g' : NoDup cols -> built cols s v -> length r = length cols ->
  asview v r g = Ok (r', g') ->
  forall c, ~ In c (named_columns s) -> value_of (sv_out v) r' c = value_of cols r c.
Proof.
  intros Nc [acts idx a Ha Hne N Hi F Hcst|acts out idx -> -> F] L E c Hc; cbn [apply_sview sv_out] in *.
  - apply bind_Ok in E. destruct E as (vs & _ & E). apply bind_Ok in E. destruct E as ([fs g1] & _ & E).
    inversion E; subst r' g'. rewrite (@fold_set_value cols Nc acts idx fs r L N F c).
    destruct (dget (combine acts fs) c) eqn:D; [|auto].
    exfalso. apply dget_In, in_combine_l in D. congruence.
  - apply bind_Ok in E. destruct E as (vs & H & E). inversion E; subst.
    rewrite (omit_value Nc L (NoDup_filter _ Nc) F H).
    destruct (memb c _) eqn:M; [auto|]. symmetry. apply value_of_None; [auto|].
    intros Hin. apply memb_false in M. apply M. apply filter_In. split; [auto|].
    apply negb_true_iff, memb_false. exact Hc.
Qed.

Lemma aview_value cols f v r g r' g' : NoDup cols -> vbuilt cols f v -> length r = length cols ->
  aview v r g = Ok (r', g') ->
  forall c, ~ may_change f c -> value_of (vw_out v) r' c = value_of cols r c.
Proof.
  intros Nc [s v' H|col conds i vs H F] L E c Hc; cbn [apply_view vw_out may_change] in *.
  - apply csimple_built in H. eapply asview_value; eauto.
  - apply bind_Ok in E. destruct E as (x & _ & E).
    apply (multiplex_inv F) in E. destruct E as [[-> _]|(k & v0 & Hk & Hv & Ho & E)]; [auto|].
    apply csimple_built in Hv.
    rewrite <- (@asview_value cols (mc_apply k) v0 r g r' g' Nc Hv L E c); [rewrite Ho; auto|].
    intros X. apply Hc. exists k. auto.
Qed.

Theorem chain_untouched : forall fs cols vs out r g r' g' c,
  NoDup cols -> cchain fs cols = Ok (vs, out) -> length r = length cols -> achain vs r g = Ok (r', g') ->
  (forall f, In f fs -> ~ may_change f c) ->
  value_of out r' c = value_of cols r c /\ (In c cols -> In c out).
Proof.
  induction fs as [|f fs IH]; intros cols vs out r g r' g' c N C L E Hf; cbn in C.
  - inversion C; subst. cbn in E. inversion E; subst. auto.
  - apply bind_Ok in C. destruct C as (v & Hv & C). apply bind_Ok in C. destruct C as ([vs' out'] & C & X).
    inversion X; subst. cbn in E. apply bind_Ok in E. destruct E as ([r1 g1] & E1 & E).
    apply cview_built in Hv.
    pose proof (aview_length Hv L E1) as L1.
    destruct (IH _ _ _ _ _ _ _ c (vbuilt_NoDup Hv N) C L1 E) as [A B]; [intros; apply Hf; right; auto|].
    assert (~ may_change f c) as Hfc by (apply Hf; left; auto).
    split.
    + rewrite A. eapply aview_value; eauto.
    + intros Hc. apply B. eapply vbuilt_out_keep; eauto.
Qed.

(** ** Non-interference *)
Lemma mapM_ext {A B} (f f' : A -> res filter_exn B) l : (forall a, In a l -> f a = f' a) -> mapM f l = mapM f' l.
Proof.
  induction l as [|a l IH]; cbn; intros H; [auto|]. rewrite <- (H a) by auto. rewrite IH by (intros; apply H; auto). auto.
Qed.

Lemma list_get_agree cols r1 r2 c : NoDup cols -> length r1 = length cols -> length r2 = length cols ->
  differ_only cols r1 r2 c -> forall i d, nth_error cols i = Some d -> d <> c -> list_get r1 i = list_get r2 i.
Proof.
  intros N L1 L2 D i d Hi Hd. unfold list_get.
  rewrite <- !(value_of_nth _ N Hi). rewrite (D d Hd). auto.
Qed.

Definition same_but (cols : list string) (c : string) (x y : res filter_exn (list value * G)) : Prop :=
  match x, y with
  | Ok (r1, g1), Ok (r2, g2) => g1 = g2 /\ differ_only cols r1 r2 c
  | Err e, Err e' => e = e'
  | _, _ => False
  end.

Lemma mapM_get_total cols (acts : list string) idx (r : list value) : length r = length cols ->
  Forall2 (fun c i => dget (column_index_map cols) c = Some i) acts idx ->
  exists vs, mapM (list_get r) idx = Ok vs /\ length vs = length acts.
Proof.
  intros L F. induction F as [|a i o idx Ha F IH]; cbn; [eauto|].
  destruct IH as (vs & -> & Lv). unfold list_get at 1. destruct (nth_error r i) eqn:E; [cbn; eexists; split; [reflexivity|cbn; auto]|].
  apply nth_error_None in E. apply index_map_Some in Ha.
  assert (i < length cols) by (apply nth_error_Some; congruence). lia.
Qed.

Lemma asview_agree cols s v r1 r2 g c : NoDup cols -> built cols s v ->
  length r1 = length cols -> length r2 = length cols -> differ_only cols r1 r2 c ->
  ~ In c (named_columns s) -> same_but (sv_out v) c (asview v r1 g) (asview v r2 g).
Proof.
  intros Nc B L1 L2 D Hc. pose proof B as B'.
  destruct B as [acts idx a Ha Hne N Hi F Hcst|acts out idx Hs Ho F]; cbn [apply_sview sv_out].
  - assert (mapM (list_get r1) idx = mapM (list_get r2) idx) as Em.
    { apply mapM_ext. intros i Hin. apply Forall2_In_r with (1 := F) in Hin. destruct Hin as (d & Hd & Hg).
      apply (@list_get_agree cols r1 r2 c Nc L1 L2 D i d); [apply index_map_Some; auto|]. intros ->. subst acts. auto. }
    rewrite Em. destruct (mapM (list_get r2) idx) as [vs|e]; cbn; [|auto].
    destruct (fvalues a vs g) as [[fs g1]|e]; cbn; [|auto]. split; [auto|].
    intros c' Hc'. rewrite !(@fold_set_value cols Nc acts idx fs) by auto.
    destruct (dget (combine acts fs) c'); [auto|]. apply D. auto.
  - subst out. assert (NoDup (filter (fun c => negb (memb c acts)) cols)) as No by (apply NoDup_filter; auto).
    assert (~ In c acts) as Hca by (subst s; exact Hc). clear B'.
    set (out := filter (fun c => negb (memb c acts)) cols) in *.
    destruct (mapM_get_total L1 F) as (vs1 & E1 & _). destruct (mapM_get_total L2 F) as (vs2 & E2 & _). rewrite E1, E2. cbn.
    split; [auto|]. intros c' Hc'.
    rewrite (omit_value Nc L1 No F E1), (omit_value Nc L2 No F E2). rewrite (D c' Hc'). auto.
Qed.

Lemma aview_agree cols f v r1 r2 g c : NoDup cols -> vbuilt cols f v ->
  length r1 = length cols -> length r2 = length cols -> differ_only cols r1 r2 c ->
  ~ mentions f c -> same_but (vw_out v) c (aview v r1 g) (aview v r2 g).
Proof.
  intros Nc [s v' H|col conds i vs H F] L1 L2 D Hc; cbn [apply_view vw_out mentions may_change] in *.
  - apply csimple_built in H. apply (asview_agree g Nc H L1 L2 D). intros X. apply Hc. left. exact X.
  - assert (list_get r1 i = list_get r2 i) as ->.
    { apply (@list_get_agree cols r1 r2 c Nc L1 L2 D i col H). intros ->. apply Hc. right. auto. }
    destruct (list_get r2 i) as [x|e]; cbn; [|auto].
    assert (forall k, In k conds -> ~ In c (named_columns (mc_apply k))) as Hk.
    { intros k Hk X. apply Hc. left. exists k. auto. }
    clear Hc H. induction F as [|k v0 conds vs [Hk1 Hk2] F IH]; cbn; [auto|].
    match goal with |- context [cond_match ?a ?b ?c ?d ?e ?f ?g ?h k x] => destruct (cond_match a b c d e f g h k x) as [b0|e0] end; cbn; [|auto].
    destruct b0.
    + apply csimple_built in Hk1. rewrite <- Hk2. eapply asview_agree; eauto. apply Hk. left. auto.
    + apply IH. intros k' Hk'. apply Hk. right. auto.
Qed.

Lemma draws_length {A} (f : G -> res filter_exn (A * G)) : forall n g l g', draws f n g = Ok (l, g') -> length l = n.
Proof.
  induction n as [|n IH]; intros g l g' E; cbn in E; [inversion E; auto|].
  apply bind_Ok in E. destruct E as ([a g1] & E1 & E). apply bind_Ok in E. destruct E as ([l' g2] & E2 & E).
  inversion E; subst. cbn. f_equal. eauto.
Qed.

Lemma dget_combine_In (acts : list string) (fs : list value) c : length fs = length acts -> In c acts ->
  exists x, dget (combine acts fs) c = Some x.
Proof.
  intros L Hin. destruct (dget (combine acts fs) c) eqn:E; [eauto|].
  exfalso. assert (value_of acts fs c = None) as V by exact E. apply value_of_None in V; auto.
Qed.

(** An overwriting filter forgets the values it replaces. *)
Definition blind (a : action) : Prop :=
  match a with AZero | APlugin _ _ => False | _ => True end.

Lemma hides_built cols s v c : csimple s cols = Ok v -> hides s c ->
  (exists acts idx a, v = SvColumns cols acts idx a /\ blind a /\ In c acts) \/
  (exists out idx, v = SvOmit cols out idx /\ ~ In c out).
Proof.
  destruct s; cbn [construct_simple hides]; intros H Hc; try contradiction.
  - right. apply filter_omit_Ok in H. destruct H as (out & idx & -> & -> & _). exists (filter (fun c0 => negb (memb c0 cols0)) cols), idx.
    split; [auto|]. rewrite filter_In, negb_true_iff, memb_false. tauto.
  - left. destruct (@filter_columns_built cols (SfNull cols0) ANull v H) as (_ & idx & ->); [discriminate|]. exists cols0, idx, ANull. cbn. auto.
  - left. apply bind_Ok in H. destruct H as (v' & H & E). destruct (Nat.eqb_spec (length vals) (length cols0)); [|discriminate].
    inversion E; subst v'. destruct (@filter_columns_built cols (SfConstant cols0 vals) (AConstant vals) v H) as (_ & idx & ->); [intros ? [= <-]; auto|].
    exists cols0, idx, (AConstant vals). cbn. auto.
  - left. destruct (@filter_columns_built cols (SfRandomInt cols0 low high) _ v H) as (_ & idx & ->); [discriminate|]. eexists cols0, idx, _. cbn. split; [reflexivity|]. cbn. auto.
  - left. destruct (@filter_columns_built cols (SfRandomFloat cols0 low high) _ v H) as (_ & idx & ->); [discriminate|]. eexists cols0, idx, _. split; [reflexivity|]. cbn. auto.
  - left. destruct (match dget alphabet_map alphabet with Some s => Some s | None => custom end) as [[|]|]; try discriminate.
    destruct (@filter_columns_built cols (SfRandomString cols0 len alphabet custom) _ v H) as (_ & idx & ->); [discriminate|]. eexists cols0, idx, _. split; [reflexivity|]. cbn. auto.
  - left. destruct (@filter_columns_built cols (SfUuid cols0) _ v H) as (_ & idx & ->); [discriminate|]. eexists cols0, idx, _. split; [reflexivity|]. cbn. auto.
  - left. destruct (@filter_columns_built cols (SfFake op cols0 unique) _ v H) as (_ & idx & ->); [discriminate|]. eexists cols0, idx, _. split; [reflexivity|]. cbn. auto.
Qed.

Lemma fvalues_blind a vs vs' g : blind a -> length vs = length vs' -> fvalues a vs g = fvalues a vs' g.
Proof. intros Hb L. destruct a; cbn in *; try contradiction; rewrite ?L; auto. Qed.

Lemma fvalues_length a vs g fs g' : blind a -> fvalues a vs g = Ok (fs, g') ->
  (forall vals, a = AConstant vals -> length vals = length vs) -> length fs = length vs.
Proof.
  intros Hb E Hc. destruct a; cbn in *; try contradiction; try (eapply draws_length; eauto; fail).
  - inversion E; subst. apply repeat_length.
  - inversion E; subst. auto.
Qed.

Lemma asview_hides cols s v r1 r2 g c : NoDup cols -> csimple s cols = Ok v -> hides s c ->
  length r1 = length cols -> length r2 = length cols -> differ_only cols r1 r2 c ->
  asview v r1 g = asview v r2 g.
Proof.
  intros Nc C Hh L1 L2 D. pose proof (csimple_built C) as B.
  destruct (hides_built C Hh) as [(acts & idx & a & -> & Hb & Hc)|(out & idx & -> & Hc)].
  - inversion B as [acts' idx' a' E1 Hne N Hi F Hcst| ]; subst acts' idx' a'. cbn [apply_sview].
    destruct (mapM_get_total L1 F) as (vs1 & -> & Lv1). destruct (mapM_get_total L2 F) as (vs2 & -> & Lv2). cbn [bind].
    rewrite (@fvalues_blind a vs1 vs2 g Hb) by congruence.
    destruct (fvalues a vs2 g) as [[fs g1]|e] eqn:Ef; cbn; [|auto].
    assert (length fs = length acts) as Lf.
    { rewrite <- Lv2. eapply fvalues_length; eauto. intros vals Ea. rewrite Lv2. auto. }
    f_equal. f_equal. apply row_ext with (cols := cols); [auto|rewrite fold_set_length; auto|rewrite fold_set_length; auto|].
    intros c' Hin. rewrite !(@fold_set_value cols Nc acts idx fs) by auto.
    destruct (dget (combine acts fs) c') eqn:Dg; [auto|]. apply D. intros ->.
    destruct (@dget_combine_In acts fs c Lf Hc) as [x Hx]. congruence.
  - inversion B as [|acts out' idx' Es Eo F]; subst out' idx'. cbn [apply_sview].
    assert (mapM (list_get r1) idx = mapM (list_get r2) idx) as ->; [|auto].
    apply mapM_ext. intros i Hin. apply Forall2_In_r with (1 := F) in Hin. destruct Hin as (d & Hd & Hg).
    apply (@list_get_agree cols r1 r2 c Nc L1 L2 D i d); [apply index_map_Some; auto|]. congruence.
Qed.

Theorem chain_hides : forall pre s post cols vs out r1 r2 g c,
  NoDup cols -> cchain (pre ++ FcSimple s :: post) cols = Ok (vs, out) ->
  (forall f, In f pre -> ~ mentions f c) -> hides s c ->
  length r1 = length cols -> length r2 = length cols -> differ_only cols r1 r2 c ->
  achain vs r1 g = achain vs r2 g.
Proof.
  induction pre as [|f pre IH]; intros s post cols vs out r1 r2 g c N C Hpre Hh L1 L2 D; cbn in C.
  - apply bind_Ok in C. destruct C as (v & Hv & C). apply bind_Ok in C. destruct C as ([vs' out'] & C & X).
    inversion X; subst. apply bind_Ok in Hv. destruct Hv as (v0 & Hv & X'). inversion X'; subst. cbn.
    rewrite (@asview_hides cols s v0 r1 r2 g c); auto.
  - apply bind_Ok in C. destruct C as (v & Hv & C). apply bind_Ok in C. destruct C as ([vs' out'] & C & X).
    inversion X; subst. apply cview_built in Hv. cbn.
    assert (~ mentions f c) as Hf by (apply Hpre; left; auto).
    pose proof (@aview_agree cols f v r1 r2 g c N Hv L1 L2 D Hf) as A. unfold same_but in A.
    destruct (aview v r1 g) as [[r1' g1]|e1] eqn:E1; destruct (aview v r2 g) as [[r2' g2]|e2] eqn:E2;
      try contradiction; cbn; [|congruence].
    destruct A as [-> A].
    apply (IH s post (vw_out v) vs' out r1' r2' g2 c); auto.
    + exact (vbuilt_NoDup Hv N).
    + intros f' Hf'. apply Hpre. right. auto.
    + exact (aview_length Hv L1 E1).
    + exact (aview_length Hv L2 E2).
Qed.

(** ** Plugins *)
Theorem columns_replaced cols acts idx a r g fs g1 : NoDup cols -> length r = length cols -> NoDup acts ->
  Forall2 (fun c i => dget (column_index_map cols) c = Some i) acts idx ->
  (exists vs, mapM (list_get r) idx = Ok vs /\ fvalues a vs g = Ok (fs, g1)) ->
  length acts <= length fs ->
  exists r', asview (SvColumns cols acts idx a) r g = Ok (r', g1) /\
  forall k c x, nth_error acts k = Some c -> nth_error fs k = Some x -> value_of cols r' c = Some x.
Proof.
  intros Nc L Na F (vs & Hm & Hf) Hlen. cbn [apply_sview]. rewrite Hm. cbn [bind]. rewrite Hf. cbn [bind].
  eexists. split; [reflexivity|]. intros k c x Hk Hx.
  rewrite (@fold_set_value cols Nc acts idx fs r L Na F c).
  pose proof (value_of_nth fs Na Hk) as V. unfold value_of in V. rewrite V, Hx. auto.
Qed.

(** ** Omit *)
Theorem omit_exact cols acts v r g : NoDup cols -> csimple (SfOmit acts) cols = Ok v -> length r = length cols ->
  exists r', asview v r g = Ok (r', g) /\
    combine (sv_out v) r' = filter (fun cv => negb (memb (fst cv) acts)) (combine cols r) /\
    length r' = length (sv_out v).
Proof.
  intros Nc C L. pose proof (csimple_built C) as B. cbn [construct_simple] in C.
  apply filter_omit_Ok in C. destruct C as (out & idx & -> & -> & F). cbn [apply_sview sv_out].
  destruct (mapM_get_total L F) as (vs & E & Lv). rewrite E. cbn [bind]. exists vs. split; [auto|]. split; [|auto].
  assert (forall out idx vs, Forall2 (fun c i => dget (column_index_map cols) c = Some i) out idx -> mapM (list_get r) idx = Ok vs ->
     Forall2 (fun c x => value_of cols r c = Some x) out vs) as H.
  { clear -Nc. intros out idx vs F. revert vs. induction F as [|c i out idx Hc F IH]; intros vs E; cbn in E.
    - inversion E. constructor.
    - apply bind_Ok in E. destruct E as (x & Hx & E). apply bind_Ok in E. destruct E as (vs' & E & X). inversion X; subst. constructor; auto.
      apply index_map_Some in Hc. rewrite (value_of_nth r Nc Hc). unfold list_get in Hx. destruct (nth_error r i); congruence. }
  specialize (H _ _ _ F E).
  assert (forall cols0 r0 out vs, NoDup cols0 -> length r0 = length cols0 -> out = filter (fun c => negb (memb c acts)) cols0 ->
    Forall2 (fun c x => value_of cols0 r0 c = Some x) out vs ->
    combine out vs = filter (fun cv => negb (memb (fst cv) acts)) (combine cols0 r0)) as K.
  { clear. induction cols0 as [|k cols0 IH]; intros [|x r0] out vs N L -> H; cbn in *; try discriminate.
    - inversion H; auto.
    - inversion N as [|? ? Hk N']; subst.
      assert (forall vs', Forall2 (fun c y => value_of (k :: cols0) (x :: r0) c = Some y) (filter (fun c => negb (memb c acts)) cols0) vs' ->
        Forall2 (fun c y => value_of cols0 r0 c = Some y) (filter (fun c => negb (memb c acts)) cols0) vs') as W.
      { intros vs' Hv. assert (forall c, In c (filter (fun c => negb (memb c acts)) cols0) -> c <> k) as Hne.
        { intros c Hc ->. apply filter_In in Hc. tauto. }
        revert Hne. clear H IH L N N'. induction Hv as [|c y l l' Hc Hv IHv]; intros Hne; constructor.
        - unfold value_of in *. cbn in Hc. destruct (eq_dec c k); [exfalso; eapply Hne; [left|]; eauto|auto].
        - apply IHv. intros c' Hc'. apply Hne. right. auto. }
      destruct (negb (memb k acts)) eqn:Ek.
      + inversion H as [|? y ? vs' Hy Hv]; subst. cbn. f_equal.
        * unfold value_of in Hy. cbn in Hy. destruct (eq_dec k k); [congruence|congruence].
        * apply IH; auto.
      + apply IH; auto. }
  eapply K; eauto.
Qed.
End F.
