(** [fnmatch] matches as shell patterns do (C127). *)
From Coq Require Import String Ascii List NArith Bool Lia.
From Verif Require Import Model.Base Model.Fnmatch Spec.PatternSpec.
Set Implicit Arguments.
Unset Strict Implicit.
Open Scope string_scope.
Open Scope list_scope.

Lemma app_assoc_s (a b c : string) : ((a ++ b) ++ c)%string = (a ++ (b ++ c))%string.
Proof. induction a as [|x a IH]; [reflexivity|]. cbn. rewrite IH. reflexivity. Qed.
Lemma app_nil_s (a : string) : (a ++ "")%string = a.
Proof. induction a as [|x a IH]; [reflexivity|]. cbn. rewrite IH. reflexivity. Qed.
Lemma no_bracket_cons c s : no_bracket (String c s) <-> c <> "]"%char /\ no_bracket s.
Proof.
  split.
  - intros H. split; [intros ->; exact (H "" s eq_refl)|]. intros a b E. subst s. exact (H (String c a) b eq_refl).
  - intros [H1 H2] [|x a] b E; injection E as E1 E2; [exact (H1 E1)|exact (H2 _ _ E2)].
Qed.
Lemma no_bracket_nil : no_bracket "".
Proof. intros [|x a] b E; discriminate E. Qed.
Lemma upto_spec s a b : upto s = Some (a, b) <-> s = (a ++ "]" ++ b)%string /\ no_bracket a.
Proof.
  revert a b. induction s as [|c s IH]; intros a b; cbn [upto].
  - split; [discriminate|]. intros [E _]. destruct a; discriminate E.
  - destruct (Ascii.eqb_spec c "]") as [->|Hc].
    + split; [intros E; injection E as <- <-; split; [reflexivity|exact no_bracket_nil]|].
      intros [E Hn]. destruct a as [|x a]; cbn in E; [injection E as ->; reflexivity|]. injection E as <- E2. exfalso. exact (proj1 (proj1 (no_bracket_cons _ _) Hn) eq_refl).
    + destruct (upto s) as [[a' b']|] eqn:Eu.
      * split; [intros E; injection E as <- <-; destruct (proj1 (IH _ _) eq_refl) as [-> Hn]; split; [reflexivity|apply no_bracket_cons; auto]|].
        intros [E Hn]. destruct a as [|x a]; cbn in E; injection E as E1 E2; [congruence|]. subst x. pose proof (proj2 (IH a b) (conj E2 (proj2 (proj1 (no_bracket_cons _ _) Hn)))) as H. injection H as <- <-. reflexivity.
      * split; [discriminate|]. intros [E Hn]. destruct a as [|x a]; cbn in E; injection E as E1 E2; [congruence|].
        pose proof (proj2 (IH a b) (conj E2 (proj2 (proj1 (no_bracket_cons _ _) Hn)))) as H. discriminate H.
Qed.
Lemma body_spec s a b : body s = Some (a, b) <-> bracketed s a b.
Proof.
  unfold bracketed. destruct s as [|c s]; cbn [body]; [split; [discriminate|]; intros (E & c & r & -> & _); discriminate E|].
  destruct (upto s) as [[a' b']|] eqn:Eu.
  - destruct (proj1 (upto_spec s a' b') Eu) as [Es Hn]. split; [intros E; injection E as <- <-; split; [cbn; rewrite Es; reflexivity|exists c, a'; auto]|].
    intros (E & c' & r & -> & Hr). cbn in E. injection E as -> E. pose proof (proj2 (upto_spec s r b) (conj E Hr)) as H. rewrite Eu in H. injection H as -> ->. reflexivity.
  - split; [discriminate|]. intros (E & c' & r & -> & Hr). cbn in E. injection E as -> E. pose proof (proj2 (upto_spec s r b) (conj E Hr)) as H. rewrite Eu in H. discriminate H.
Qed.

Lemma not_range_one c : ~ exists e r', "" = String c (String e r').
Proof. intros (e & r' & E). discriminate E. Qed.
Lemma before_spec a b : before a b = false <-> at_most b a.
Proof. unfold before, at_most. rewrite N.ltb_ge. reflexivity. Qed.
Lemma has_range x a b : item_has x (Range a b) = true <-> at_most a x /\ at_most x b.
Proof. cbn [item_has]. rewrite andb_true_iff, !negb_true_iff, !before_spec. reflexivity. Qed.
Lemma at_most_trans a b c : at_most a b -> at_most b c -> at_most a c.
Proof. unfold at_most. lia. Qed.
Lemma nonempty_same x l : existsb (item_has x) (filter nonempty l) = existsb (item_has x) l.
Proof.
  induction l as [|i l IH]; [reflexivity|]. cbn [filter existsb]. destruct (nonempty i) eqn:En; cbn [existsb]; rewrite IH; [reflexivity|].
  destruct i as [c|a b]; [discriminate En|]. destruct (item_has x (Range a b)) eqn:Eh; [|reflexivity]. apply has_range in Eh. destruct Eh as [H1 H2].
  cbn in En. apply negb_false_iff in En. pose proof (proj2 (before_spec b a) (at_most_trans H1 H2)). congruence.
Qed.

Definition range_form (s : string) : Prop := exists e r', s = String "-" (String e r').
Lemma items_cons c r : (forall e r', r = String "-" (String e r') -> items_of (String c r) = Range c e :: items_of r') /\
  (~ range_form r -> items_of (String c r) = One c :: items_of r).
Proof.
  split; [intros e r' ->; reflexivity|]. intros Hn. cbn [items_of]. destruct r as [|d r]; [reflexivity|].
  destruct (Ascii.eqb_spec d "-") as [->|Hd]; [|reflexivity]. destruct r as [|e r']; [reflexivity|]. exfalso. apply Hn. exists e, r'. reflexivity.
Qed.
Lemma range_dec r : {exists e r', r = String "-" (String e r')} + {~ range_form r}.
Proof.
  destruct r as [|d [|e r]]; [right; intros (e & r' & E); discriminate E|right; intros (e & r' & E); discriminate E|].
  destruct (ascii_dec d "-") as [->|Hd]; [left; exists e, r; reflexivity|right; intros (e' & r' & E); injection E as E1 _ _; congruence].
Qed.
Lemma items_listed x s : existsb (item_has x) (items_of s) = true <-> listed x s.
Proof.
  remember (String.length s) as n eqn:En. assert (Hn : (String.length s <= n)%nat) by lia. clear En. revert s Hn. induction n as [|n IH]; intros s Hn.
  - destruct s; [|cbn in Hn; lia]. cbn. split; [discriminate|intros H; inversion H].
  - destruct s as [|c r]; [cbn; split; [discriminate|intros H; inversion H]|]. cbn in Hn. destruct (range_dec r) as [(e & r' & ->)|Hr].
    + rewrite (proj1 (items_cons c _) e r' eq_refl). cbn [existsb]. rewrite orb_true_iff, has_range, (IH r') by (cbn in Hn; lia). split.
      * intros [[H1 H2]|H]; [apply listed_range; assumption|apply after_range; exact H].
      * intros H. inversion H as [? ? ? H1 H2|? ? ? H1|? H1|? ? H1 H2]; subst; [left; auto|right; exact H1|exfalso; apply H1; eauto..].
    + rewrite (proj2 (items_cons c r) Hr). cbn [existsb item_has]. rewrite orb_true_iff, Ascii.eqb_eq, (IH r) by lia. split.
      * intros [->|H]; [apply listed_one; exact Hr|apply after_one; assumption].
      * intros H. inversion H as [? ? ? H1 H2|? ? ? H1|? H1|? ? H1 H2]; subst; [exfalso; apply Hr; unfold range_form; eauto..|left; reflexivity|right; exact H2].
Qed.

Lemma piece_negated s x : piece_has (set_piece true s) x = true <-> ~ listed x s.
Proof. unfold set_piece, piece_has. rewrite nonempty_same, xorb_true_l, negb_true_iff, <- items_listed. destruct (existsb _ _); split; congruence. Qed.
Lemma piece_plain c r x : c <> "!"%char -> (forall e r', r = String "-" (String e r') -> at_most c e) -> piece_has (set_piece false (String c r)) x = true <-> listed x (String c r).
Proof.
  intros Hc Hf. rewrite <- items_listed, <- nonempty_same. unfold set_piece. destruct (range_dec r) as [(e & r' & ->)|Hr].
  - rewrite (proj1 (items_cons c _) e r' eq_refl). cbn [filter nonempty]. rewrite (proj2 (before_spec e c) (Hf _ _ eq_refl)). cbn [negb].
    destruct (Ascii.eqb_spec c "!"); [contradiction|]. unfold piece_has. rewrite xorb_false_l. reflexivity.
  - rewrite (proj2 (items_cons c r) Hr). cbn [filter nonempty]. destruct (Ascii.eqb_spec c "!"); [contradiction|]. unfold piece_has. rewrite xorb_false_l. reflexivity.
Qed.

Definition ahead (s : string) : Prop := forall c e b, s = String c (String "-" (String e b)) -> at_most c e.
Lemma bracket_head c s a b : bracketed (String c s) a b -> exists r, a = String c r.
Proof. intros (E & c' & r & -> & _). cbn in E. injection E as -> _. exists r. reflexivity. Qed.
Lemma set_some s p r' : ahead s -> set_of_pattern s = Some (p, r') -> set_read s (fun x => piece_has p x = true) r'.
Proof.
  intros Hf. unfold set_of_pattern. destruct s as [|c s]; [discriminate|]. destruct (Ascii.eqb_spec c "!") as [->|Hc].
  - destruct (body s) as [[a b]|] eqn:Eb; [|discriminate]. intros E. injection E as <- <-. apply body_spec in Eb. exists a. right. exists s. split; [reflexivity|]. split; [exact Eb|]. intros x. apply piece_negated.
  - destruct (body (String c s)) as [[a b]|] eqn:Eb; [|discriminate]. intros E. injection E as <- <-. apply body_spec in Eb. exists a. left. split; [exact Eb|]. split; [intros r E; injection E as E _; congruence|].
    destruct (bracket_head Eb) as (r & ->). intros x. apply piece_plain; [exact Hc|]. intros e r' ->. destruct Eb as (E & _). cbn in E. injection E as E. eapply Hf. rewrite E. reflexivity.
Qed.
Lemma set_read_rest s P P' r r' : set_read s P r -> set_read s P' r' -> r = r' /\ forall x, P x <-> P' x.
Proof.
  assert (Hb : forall s a b a' b', bracketed s a b -> bracketed s a' b' -> a = a' /\ b = b').
  { intros s0 a b a' b' H H'. apply body_spec in H, H'. rewrite H in H'. injection H' as -> ->. auto. }
  intros (i & H) (i' & H'). destruct H as [(H1 & H2 & H3)|(s1 & -> & H1 & H3)].
  - destruct H' as [(H1' & _ & H3')|(s2 & -> & _)]; [|exfalso; exact (H2 _ eq_refl)]. destruct (Hb _ _ _ _ _ H1 H1') as [<- <-]. split; [reflexivity|]. intros x. rewrite H3, H3'. reflexivity.
  - destruct H' as [(_ & H2' & _)|(s2 & E & H1' & H3')]; [exfalso; exact (H2' _ eq_refl)|]. injection E as <-. destruct (Hb _ _ _ _ _ H1 H1') as [<- <-]. split; [reflexivity|]. intros x. rewrite H3, H3'. reflexivity.
Qed.
Lemma set_none s : set_of_pattern s = None -> forall P r, ~ set_read s P r.
Proof.
  unfold set_of_pattern. intros H P r (i & [(H1 & H2 & _)|(s' & -> & H1 & _)]).
  - destruct s as [|c s]; [destruct H1 as (E & c & r0 & -> & _); discriminate E|]. destruct (Ascii.eqb_spec c "!") as [->|Hc]; [exact (H2 _ eq_refl)|].
    apply body_spec in H1. rewrite H1 in H. discriminate H.
  - cbn [Ascii.eqb] in H. destruct (Ascii.eqb_spec "!" "!"); [|congruence]. apply body_spec in H1. rewrite H1 in H. discriminate H.
Qed.
Lemma set_suffix s P r : set_read s P r -> exists a, s = (a ++ r)%string /\ (1 <= String.length a)%nat.
Proof.
  intros (i & [((E & c & q & -> & _) & _)|(s' & -> & (E & c & q & -> & _) & _)]).
  - exists (String c q ++ "]")%string. split; [rewrite app_assoc_s; exact E|cbn; lia].
  - exists (String "!" (String c q ++ "]"))%string. split; [|cbn; lia]. cbn [append]. rewrite E. cbn [append]. rewrite app_assoc_s. reflexivity.
Qed.
Lemma forward_suffix a p : forward (a ++ p) -> forward p.
Proof. intros H b c e r ->. apply (H (a ++ b)%string c e r). rewrite app_assoc_s. reflexivity. Qed.
Lemma length_app_s a b : String.length (a ++ b) = (String.length a + String.length b)%nat.
Proof. induction a as [|x a IH]; [reflexivity|]. cbn. rewrite IH. reflexivity. Qed.

Lemma star_match ps s : pieces_match (Star :: ps) s = true <-> exists t u, s = (t ++ u)%string /\ pieces_match ps u = true.
Proof.
  cbn [pieces_match]. induction s as [|c s IH].
  - rewrite orb_false_r. split; [intros H; exists "", ""; auto|]. intros (t & u & E & H). destruct t; [|discriminate E]. cbn in E. subst u. exact H.
  - rewrite orb_true_iff, IH. split.
    + intros [H|(t & u & -> & H)]; [exists "", (String c s); auto|exists (String c t), u; auto].
    + intros (t & u & E & H). destruct t as [|x t]; cbn in E; [subst u; left; exact H|]. injection E as -> ->. right. exists t, u. auto.
Qed.
Lemma one_match p ps s : p <> Star -> pieces_match (p :: ps) s = true <-> exists c r, s = String c r /\ piece_has p c = true /\ pieces_match ps r = true.
Proof.
  intros Hp. assert (E : pieces_match (p :: ps) s = match s with EmptyString => false | String c r => piece_has p c && pieces_match ps r end) by (destruct p; [congruence|reflexivity..]).
  rewrite E. destruct s as [|c r]; [split; [discriminate|intros (c & r & E' & _); discriminate E']|]. rewrite andb_true_iff. split; [intros [H1 H2]; exists c, r; auto|].
  intros (c' & r' & E' & H1 & H2). injection E' as <- <-. auto.
Qed.
Lemma set_not_star b s : set_piece b s <> Star.
Proof. unfold set_piece. destruct b; [discriminate|]. destruct (filter nonempty (items_of s)) as [|[c|c e] l]; [discriminate| |]; destruct (Ascii.eqb c "!"); discriminate. Qed.
Lemma set_of_not_star s p r : set_of_pattern s = Some (p, r) -> p <> Star.
Proof.
  assert (K : forall b a r0, Some (set_piece b a, r0) = Some (p, r) -> p <> Star) by (intros b a r0 E; assert (E' : p = set_piece b a) by congruence; rewrite E'; apply set_not_star).
  unfold set_of_pattern. destruct s as [|c s]; [discriminate|]. destruct (Ascii.eqb c "!"); [destruct (body s) as [[a b]|]|destruct (body (String c s)) as [[a b]|]]; try discriminate; apply K.
Qed.

Theorem pieces_spec f p s : (String.length p <= f)%nat -> forward p -> pieces_match (pieces f p) s = true <-> stands_for p s.
Proof.
  revert p s. induction f as [|f IH]; intros p s Hl Hf.
  - destruct p; [|cbn in Hl; lia]. cbn. destruct s; split; intros H; try discriminate; [constructor|reflexivity|inversion H].
  - destruct p as [|c p]; [cbn; destruct s; split; intros H; try discriminate; [constructor|reflexivity|inversion H]|].
    cbn in Hl. assert (Hfp : forward p) by exact (@forward_suffix (String c "") p Hf). assert (Hlp : (String.length p <= f)%nat) by lia. cbn [pieces].
    destruct (Ascii.eqb_spec c "*") as [->|H1].
    { rewrite star_match. split.
      - intros (t & u & -> & H). apply sf_star, (IH p u Hlp Hfp), H.
      - intros H. inversion H as [|? u t Hu| | | |]; subst; [|congruence]. exists t, u. split; [reflexivity|]. apply (IH p u Hlp Hfp), Hu. }
    destruct (Ascii.eqb_spec c "?") as [->|H2].
    { rewrite one_match by discriminate. split.
      - intros (x & r & -> & _ & H). apply sf_any, (IH p r Hlp Hfp), H.
      - intros H. inversion H as [| |? u x Hu| | |]; subst; [|congruence]. exists x, u. split; [reflexivity|]. split; [reflexivity|]. apply (IH p u Hlp Hfp), Hu. }
    destruct (Ascii.eqb_spec c "[") as [->|H3].
    { assert (Ha : ahead p) by (intros x e b ->; exact (Hf "" x e b eq_refl)). destruct (set_of_pattern p) as [[q r']|] eqn:Es.
      - pose proof (set_some Ha Es) as Hsr. destruct (set_suffix Hsr) as (a & Ep & _). assert (Hfr : forward r') by (rewrite Ep in Hfp; exact (forward_suffix Hfp)).
        assert (Hlr : (String.length r' <= f)%nat) by (rewrite Ep, length_app_s in Hlp; lia).
        rewrite (one_match _ _ (set_of_not_star Es)). split.
        + intros (x & r & -> & Hx & H). eapply sf_set; [exact Hsr|exact Hx|]. apply (IH r' r Hlr Hfr), H.
        + intros H. inversion H as [| | |? pp u x P HP Hx Hu|? u Hno Hu|]; subst; [|exfalso; exact (Hno _ _ Hsr)|congruence].
          destruct (set_read_rest HP Hsr) as [-> Hiff]. exists x, u. split; [reflexivity|]. split; [apply Hiff; exact Hx|]. apply (IH r' u Hlr Hfr), Hu.
      - pose proof (set_none Es) as Hno. rewrite one_match by discriminate. split.
        + intros (x & r & -> & Hx & H). cbn in Hx. apply Ascii.eqb_eq in Hx. subst x. apply sf_open; [exact Hno|]. apply (IH p r Hlp Hfp), H.
        + intros H. inversion H as [| | |? pp u x P HP Hx Hu|? u Hno' Hu|]; subst; [exfalso; exact (Hno _ _ HP)| |congruence]. exists "["%char, u. split; [reflexivity|]. split; [reflexivity|]. apply (IH p u Hlp Hfp), Hu. }
    rewrite one_match by discriminate. split.
    + intros (x & r & -> & Hx & H). cbn in Hx. apply Ascii.eqb_eq in Hx. subst x. apply sf_char; [assumption..|]. apply (IH p r Hlp Hfp), H.
    + intros H. inversion H as [| | | | |? u ? _ _ _ Hu]; subst; try congruence. exists c, u. split; [reflexivity|]. split; [cbn; apply Ascii.eqb_refl|]. apply (IH p u Hlp Hfp), Hu.
Qed.
Theorem fnmatch_spec p s : forward p -> fnmatch s p = true <-> stands_for p s.
Proof. intros H. apply pieces_spec; [apply le_n|exact H]. Qed.

(** Patterns without "[" *)
Lemma open_forward p : (forall a b, p <> (a ++ String "[" b)%string) -> forward p.
Proof. intros H a c e b E. exfalso. exact (H _ _ E). Qed.
Lemma plain_open p : plain p -> forall a b, p <> (a ++ String "[" b)%string.
Proof. intros H a b E. apply (H _ _ _ E). right. right. reflexivity. Qed.
Lemma plain_cons c p : plain (String c p) <-> ~ special c /\ plain p.
Proof.
  split.
  - intros H. split; [exact (H "" c p eq_refl)|]. intros a d b ->. exact (H (String c a) d b eq_refl).
  - intros [H1 H2] [|x a] d b E; cbn in E; injection E as E1 E2; [subst d; exact H1|]. exact (H2 _ _ _ E2).
Qed.
Lemma plain_app a p s : plain a -> stands_for (a ++ p) s <-> exists s', s = (a ++ s')%string /\ stands_for p s'.
Proof.
  intros Ha. revert s. induction a as [|c a IH]; intros s; [cbn; split; [intros H; exists s; auto|intros (s' & -> & H); exact H]|].
  apply plain_cons in Ha. destruct Ha as [Hc Ha]. unfold special in Hc. cbn [append]. split.
  - intros H. inversion H as [|? ? ? ?|? ? ? ?|? ? ? ? ? ? ? ?|? ? ? ?|? u ? H1 H2 H3 Hu]; subst; try (exfalso; apply Hc; tauto). apply (IH Ha) in Hu. destruct Hu as (s' & -> & Hs'). exists s'. auto.
  - intros (s' & -> & H). apply sf_char; [intros ->; tauto..|]. apply (IH Ha). exists s'. auto.
Qed.
Theorem fnmatch_plain p s : plain p -> fnmatch s p = true <-> s = p.
Proof.
  intros Hp. rewrite (fnmatch_spec s (open_forward (plain_open Hp))). rewrite <- (app_nil_s p) at 1. rewrite (plain_app "" s Hp). split.
  - intros (s' & -> & H). inversion H. apply app_nil_s.
  - intros ->. exists "". split; [symmetry; apply app_nil_s|constructor].
Qed.
Theorem fnmatch_prefix a s : plain a -> fnmatch s (a ++ "*") = true <-> exists t, s = (a ++ t)%string.
Proof.
  intros Ha. rewrite fnmatch_spec.
  - rewrite (plain_app "*" s Ha). split; [intros (s' & -> & _); exists s'; reflexivity|]. intros (t & ->). exists t. split; [reflexivity|]. rewrite <- (app_nil_s t). apply sf_star. constructor.
  - apply open_forward. clear s. induction a as [|c a IH]; intros x y E.
    + destruct x as [|d [|d' x]]; cbn in E; discriminate E.
    + apply plain_cons in Ha. destruct Ha as [Hc Ha]. destruct x as [|d x]; cbn in E; injection E as E1 E2; [subst c; apply Hc; unfold special; tauto|]. exact (IH Ha _ _ E2).
Qed.
Lemma stands_self p : (forall a b, p <> (a ++ String "[" b)%string) -> stands_for p p.
Proof.
  induction p as [|c p IH]; intros H; [constructor|]. assert (Hp : stands_for p p) by (apply IH; intros a b ->; exact (H (String c a) b eq_refl)).
  destruct (ascii_dec c "*") as [->|H1]; [exact (@sf_star p p "*" Hp)|]. destruct (ascii_dec c "?") as [->|H2]; [apply sf_any; exact Hp|].
  apply sf_char; [exact H1|exact H2| |exact Hp]. intros ->. exact (H "" p eq_refl).
Qed.
Theorem fnmatch_self p : (forall a b, p <> (a ++ String "[" b)%string) -> fnmatch p p = true.
Proof. intros H. apply (fnmatch_spec p (open_forward H)), stands_self, H. Qed.
