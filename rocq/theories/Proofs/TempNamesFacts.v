(** Facts about generated temporary table names. *)
From Coq Require Import Lia DecimalString DecimalNat DecimalFacts.
From Verif Require Import Model.Base Model.TempNames Spec.NameSpec Proofs.BaseFacts.
Set Implicit Arguments. Unset Strict Implicit.
Open Scope string_scope.
Open Scope list_scope.

Lemma dec_inj n m : dec n = dec m -> n = m.
Proof.
  intros H. unfold dec in H.
  apply Unsigned.to_uint_inj.
  assert (Some (Nat.to_uint n) = Some (Nat.to_uint m)) as E
    by (rewrite <- !NilEmpty.usu, H; reflexivity).
  inversion E; auto.
Qed.

Fixpoint has_char (c : ascii) (s : string) : bool :=
  match s with EmptyString => false | String d s' => Ascii.eqb c d || has_char c s' end.

Lemma has_char_app c s t : has_char c (s ++ t) = has_char c s || has_char c t.
Proof. induction s as [|d s IH]; cbn; [auto|]. rewrite IH, orb_assoc. auto. Qed.

Lemma keep_chars_has alnum c s : alnum c = false -> has_char c (keep_chars alnum s) = false.
Proof.
  intros Hc. induction s as [|d s IH]; cbn; [auto|].
  destruct (alnum d) eqn:Ed; [|auto]. cbn. rewrite IH, orb_false_r.
  apply Ascii.eqb_neq. intros ->. congruence.
Qed.

Lemma substring_has c n s : has_char c s = false -> has_char c (substring 0 n s) = false.
Proof.
  revert s. induction n as [|n IH]; intros [|d s] H; cbn in *; auto.
  apply orb_false_iff in H. destruct H as [H1 H2]. rewrite H1, IH; auto.
Qed.

Lemma base_name_clean alnum s : alnum "_"%char = false -> has_char "_"%char (base_name alnum s) = false.
Proof.
  intros H. unfold base_name.
  pose proof (substring_has 40 (keep_chars_has s H)) as E.
  destruct (substring 0 40 (keep_chars alnum s)); [reflexivity|exact E].
Qed.

(** A name is determined by its friendly part and its number. *)
Definition shown (b : string) (n : nat) : string :=
  match n with O => name_prefix ++ b | _ => name_prefix ++ b ++ "_" ++ dec n end%string.

Lemma app_inj_l p s t : (p ++ s = p ++ t)%string -> s = t.
Proof. induction p as [|c p IH]; cbn; intros H; [auto|]. inversion H; auto. Qed.

Lemma split_clean c : forall s s' t t',
  has_char c s = false -> has_char c s' = false ->
  (s ++ String c t = s' ++ String c t')%string -> s = s' /\ t = t'.
Proof.
  induction s as [|d s IH]; intros [|d' s'] t t' H H' E; cbn in *.
  - inversion E; auto.
  - inversion E; subst. rewrite Ascii.eqb_refl in H'. discriminate.
  - inversion E; subst. rewrite Ascii.eqb_refl in H. discriminate.
  - apply orb_false_iff in H, H'. inversion E; subst.
    destruct (IH s' t t') as [-> ->]; tauto.
Qed.

Lemma shown_inj b n b' n' :
  has_char "_"%char b = false -> has_char "_"%char b' = false ->
  shown b n = shown b' n' -> b = b' /\ n = n'.
Proof.
  intros Hb Hb' H. unfold shown in H.
  destruct n as [|n], n' as [|n']; apply app_inj_l in H.
  - auto.
  - exfalso. assert (has_char "_"%char b = true) as X.
    { rewrite H. rewrite has_char_app. cbn. apply orb_true_r. }
    congruence.
  - exfalso. assert (has_char "_"%char b' = true) as X.
    { rewrite <- H. rewrite has_char_app. cbn. apply orb_true_r. }
    congruence.
  - change (b ++ String "_" (dec (S n)) = b' ++ String "_" (dec (S n')))%string in H.
    apply split_clean in H; auto. destruct H as [-> H].
    apply dec_inj in H. auto.
Qed.

Lemma generate_name_eq alnum counts r :
  generate_name alnum counts r =
  (shown (base_name alnum r) (dget_or counts (base_name alnum r) 0),
   dset counts (base_name alnum r) (dget_or counts (base_name alnum r) 0 + 1)).
Proof. unfold generate_name, shown. destruct (dget_or counts _ 0); auto. Qed.

(** Every name handed out later is new: its number is at least the current count. *)
Lemma generate_names_In alnum : forall rs counts x,
  In x (generate_names alnum counts rs) ->
  exists r n, In r rs /\ x = shown (base_name alnum r) n /\ dget_or counts (base_name alnum r) 0 <= n.
Proof.
  induction rs as [|r rs IH]; intros counts x H; cbn [generate_names] in H; [destruct H|].
  rewrite generate_name_eq in H. destruct H as [<-|H].
  - exists r, (dget_or counts (base_name alnum r) 0). cbn. auto.
  - destruct (IH _ _ H) as (r' & n & Hr & -> & Hn). exists r', n. split; [right; auto|]. split; auto.
    unfold dget_or in *. rewrite dget_dset in Hn. destruct (eq_dec (base_name alnum r') (base_name alnum r)) as [e|e].
    + rewrite e. lia.
    + auto.
Qed.

Theorem generate_names_NoDup alnum : alnum "_"%char = false ->
  forall rs counts, NoDup (generate_names alnum counts rs).
Proof.
  intros Ha. induction rs as [|r rs IH]; intros counts; cbn [generate_names]; [constructor|].
  rewrite generate_name_eq. constructor; [|apply IH].
  intros H. destruct (generate_names_In H) as (r' & n & Hr & E & Hn).
  apply shown_inj in E; try (apply base_name_clean; auto). destruct E as [E <-].
  unfold dget_or in Hn. rewrite <- E, dget_dset_eq in Hn. unfold dget_or in Hn. lia.
Qed.

Lemma generate_names_length alnum : forall rs counts, length (generate_names alnum counts rs) = length rs.
Proof.
  induction rs as [|r rs IH]; intros counts; cbn [generate_names]; [auto|].
  rewrite generate_name_eq. cbn. rewrite IH. auto.
Qed.

(** Lower-casing, as a case-insensitive database compares names. *)
Lemma lower_app s t : lower (s ++ t) = (lower s ++ lower t)%string.
Proof. induction s as [|c s IH]; cbn; [auto|]. rewrite IH. auto. Qed.

Lemma lower_dec n : lower (dec n) = dec n.
Proof.
  unfold dec. induction (Nat.to_uint n); cbn; [reflexivity|..]; rewrite IHu; reflexivity.
Qed.

Lemma lower_clean s : has_char "_"%char s = false -> has_char "_"%char (lower s) = false.
Proof.
  induction s as [|c s IH]; cbn; [auto|]. intros H. apply orb_false_iff in H. destruct H as [H1 H2].
  rewrite IH by auto. rewrite orb_false_r.
  destruct c as [[] [] [] [] [] [] [] []]; cbn in *; congruence.
Qed.

Lemma lower_shown b n : lower (shown b n) = shown (lower b) n.
Proof.
  unfold shown. destruct n; rewrite !lower_app; [reflexivity|]. rewrite lower_dec. reflexivity.
Qed.

Theorem generate_names_fold alnum : alnum "_"%char = false ->
  forall rs counts,
  (forall r r', In r rs -> In r' rs -> lower (base_name alnum r) = lower (base_name alnum r') ->
     base_name alnum r = base_name alnum r') ->
  NoDup (map lower (generate_names alnum counts rs)).
Proof.
  intros Ha. induction rs as [|r rs IH]; intros counts Hinj; cbn [generate_names]; [constructor|].
  rewrite generate_name_eq. cbn [map]. constructor.
  - intros H. apply in_map_iff in H. destruct H as (x & Ex & Hx).
    destruct (generate_names_In Hx) as (r' & n & Hr & -> & Hn).
    rewrite !lower_shown in Ex.
    apply shown_inj in Ex; try (apply lower_clean, base_name_clean; auto). destruct Ex as [E ->].
    apply Hinj in E; [|right; auto|left; auto].
    unfold dget_or in Hn. rewrite E, dget_dset_eq in Hn. unfold dget_or in Hn. lia.
  - apply IH. intros a b Hx Hy. apply Hinj; right; auto.
Qed.
