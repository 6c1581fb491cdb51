(** The parser reads the lines of [Spec/ArgsSpec.v] and no others. *)
From Verif Require Import Model.Base Model.Main Model.Args Spec.ArgsSpec Proofs.BaseFacts Proofs.ArgsFacts.
Set Implicit Arguments. Unset Strict Implicit.
Open Scope string_scope.
Open Scope list_scope.

Definition no_help (l : list (opt * string)) : Prop := forall x, ~ In (OHelp, x) l.
Lemma no_help_app a b : no_help (a ++ b) <-> no_help a /\ no_help b.
Proof. unfold no_help. split; [intros H; split; intros x Hx; apply (H x); apply in_or_app; auto|]. intros [H1 H2] x Hx. apply in_app_or in Hx. destruct Hx as [Hx|Hx]; [exact (H1 x Hx)|exact (H2 x Hx)]. Qed.
Lemma given_spec l : (given l = Ok l /\ no_help l) \/ (given l = Err AxHelp /\ ~ no_help l).
Proof.
  unfold given. destruct (existsb _ l) eqn:E; [right|left]; split; try reflexivity.
  - apply existsb_exists in E. destruct E as ([o x] & Hin & Ho). apply (proj1 (eqb_true _ _)) in Ho. cbn in Ho. subst o. intros H. exact (H x Hin).
  - intros x Hin. assert (F : existsb (fun ov : opt * string => eqb (fst ov) OHelp) l = true) by (apply existsb_exists; exists (OHelp, x); split; [exact Hin|apply eqb_refl]). congruence.
Qed.

Section Line.
Variable negative : string -> bool.
Variable os : options.
Hypothesis Hgood : good os.
Notation cluster := (cluster takes_value os).
Notation group := (group negative takes_value os).
Notation line := (line negative takes_value os).

Lemma letter_dash c o : In (letter c, o) os -> c <> "-"%char /\ c <> "="%char.
Proof.
  intros H. destruct (proj2 Hgood _ _ H) as [Hn Hc]. split; [|intros ->; apply (Hn "-" ""); reflexivity].
  destruct Hc as [(c' & Hc & F)|(c' & s & F)]; injection F; intros; congruence.
Qed.
Lemma cluster_first s l p : cluster s l p -> exists c o s', s = String c s' /\ In (letter c, o) os.
Proof. intros H. destruct H; eauto. Qed.
Lemma bare_cluster c o l p x : In (letter c, o) os -> bare o = (l, p, x) -> x = false /\ cluster (String c "") l p.
Proof. intros Hin. unfold bare. destruct (takes_value o) eqn:Ho; intros H; injection H as <- <- <-; (split; [reflexivity|]). - apply cl_next; assumption. - apply (@cl_last takes_value os c o); assumption. Qed.

(** The text of an option's letter: after an equals sign, or right behind the letter. *)
Definition text (sep : bool) (e : string) : string := if sep then String "=" e else e.
Lemma letters_sound k : forall e, (String.length e <= k)%nat -> forall c o sep l p, In (letter c, o) os -> (sep = false -> e <> "" /\ forall r, e <> String "=" r) ->
  letters os o sep e = Ok (l, p, false) -> cluster (String c (text sep e)) l p.
Proof.
  induction k as [|k IH]; intros e Hk c o sep l p Hin He H.
  { destruct e; [|cbn in Hk; lia]. cbn [letters] in H. destruct (takes_value o) eqn:Ho; [|discriminate]. injection H as <- <-. destruct sep; [apply cl_equals; assumption|]. elim (proj1 (He eq_refl)). reflexivity. }
  destruct (takes_value o) eqn:Ho.
  { assert (H' : Ok ([(o, e)], None, false) = Ok (l, p, false) :> res args_exn _) by (rewrite <- H; destruct e; cbn [letters]; rewrite Ho; reflexivity). injection H' as <- <-.
    destruct sep; [apply cl_equals; assumption|]. destruct (He eq_refl) as [H1 H2]. destruct e as [|c' v]; [congruence|]. apply cl_value; [assumption..|]. intros ->. exact (H2 v eq_refl). }
  destruct e as [|c' e']; cbn [letters] in H; rewrite Ho in H; [discriminate|]. destruct sep; [discriminate|]. cbn [orb] in H. destruct (Ascii.eqb c' "-"); [discriminate|]. fold (letter c') in H.
  destruct (dget os (letter c')) as [o'|] eqn:Hd; [|discriminate]. apply (get_name Hgood) in Hd.
  destruct e' as [|c'' e''].
  - destruct (bare o') as [[l' p'] x'] eqn:Hb. destruct (bare_cluster Hd Hb) as [-> Hc]. cbn [bind] in H. injection H as <- <-. apply (@cl_flag takes_value os c o); assumption.
  - destruct (Ascii.eqb c'' "=") eqn:Eq.
    + apply Ascii.eqb_eq in Eq. subst c''. destruct (letters os o' true e'') as [[[l' p'] x']|] eqn:Hl; [|discriminate]. cbn [bind] in H. injection H as <- <- ->.
      apply (@cl_flag takes_value os c o); [assumption..|]. apply (@IH e'' ltac:(cbn in Hk; lia) c' o' true l' p' Hd); [discriminate|exact Hl].
    + apply Ascii.eqb_neq in Eq. destruct (letters os o' false (String c'' e'')) as [[[l' p'] x']|] eqn:Hl; [|discriminate]. cbn [bind] in H. injection H as <- <- ->.
      apply (@cl_flag takes_value os c o); [assumption..|]. apply (@IH (String c'' e'') ltac:(cbn in Hk |- *; lia) c' o' false l' p' Hd); [|exact Hl]. intros _. split; [discriminate|]. intros r F. injection F. intros. congruence.
Qed.
Lemma letters_complete s l p : cluster s l p -> forall c e, s = String c e -> forall o, In (letter c, o) os ->
  match e with
  | "" => (l, p, false) = bare o
  | String c' e' => if Ascii.eqb c' "=" then takes_value o = true /\ l = [(o, e')] /\ p = None else letters os o false e = Ok (l, p, false)
  end.
Proof.
  induction 1 as [c o Hin Ho|c o s l p Hin Ho Hc IH|c o c' v Hin Ho Hne|c o v Hin Ho|c o Hin Ho]; intros c0 e Hs o0 Hin0; injection Hs as <- <-; rewrite (name_fun Hgood Hin0 Hin) in *.
  - unfold bare. rewrite Ho. reflexivity.
  - destruct (cluster_first Hc) as (c1 & o1 & e1 & -> & Hin1). destruct (letter_dash Hin1) as [Hd He]. rewrite (proj2 (Ascii.eqb_neq _ _) He).
    cbn [letters]. rewrite Ho. cbn [orb]. rewrite (proj2 (Ascii.eqb_neq _ _) Hd). fold (letter c1). rewrite (proj2 (get_name Hgood _ _) Hin1).
    specialize (IH c1 e1 eq_refl o1 Hin1). destruct e1 as [|c2 e2]; [rewrite <- IH; reflexivity|]. destruct (Ascii.eqb c2 "=") eqn:E2.
    + destruct IH as (Ht & -> & ->). replace (letters os o1 true e2) with (Ok ([(o1, e2)], @None opt, false) : res args_exn _) by (destruct e2; cbn [letters]; rewrite Ht; reflexivity). reflexivity.
    + rewrite IH. reflexivity.
  - rewrite (proj2 (Ascii.eqb_neq _ _) Hne). cbn [letters]. rewrite Ho. reflexivity.
  - cbn. auto.
  - unfold bare. rewrite Ho. reflexivity.
Qed.

Lemma names_long p n o : names os p n o -> long_name n = false -> exists c, p = letter c /\ n = p.
Proof.
  intros [Hin Hp] Hl. assert (Hs : exists c, n = letter c).
  { destruct (proj2 Hgood _ _ Hin) as [_ [(c & _ & ->)|(c & s & ->)]]; [exists c; reflexivity|]. assert (F : long_name ("--" ++ String c s) = true) by (apply prefix_begins; exists (String c s); reflexivity). congruence. }
  destruct Hs as (c & ->). exists c. destruct Hp as [->|(_ & (r & ->) & (r' & Hb) & _)]; [auto|]. cbn in Hb. injection Hb as -> F. apply letter_dash in Hin. destruct Hin as [Hin _]. congruence.
Qed.
Lemma letter_short c o : In (letter c, o) os -> long_name (letter c) = false.
Proof. intros H. apply letter_dash in H. destruct H as [H _]. destruct (long_name (letter c)) eqn:E; [|reflexivity]. apply prefix_begins in E. destruct E as (r & Hr). injection Hr as F _. congruence. Qed.

(** What one word gives. *)
Inductive step (w : string) : list (opt * string) -> option opt -> Prop :=
| st_flag n o : no_equals w -> names os w n o -> takes_value o = false -> step w [(o, "")] None
| st_next n o : no_equals w -> names os w n o -> takes_value o = true -> step w [] (Some o)
| st_equals p n o v : w = (p ++ "=" ++ v)%string -> no_equals p -> names os p n o -> takes_value o = true -> step w [(o, v)] None
| st_letters s l p : w = String "-" s -> cluster s l p -> step w l p.
Lemma step_sound w n o e l p : w <> "--" -> classify negative os w = KOption n o e -> consume os n o e = Ok (l, p, false) -> step w l p.
Proof.
  intros Hw Hk Hc. pose proof (classify_inv negative Hgood Hw) as H. rewrite Hk in H. unfold consume in Hc. destruct e as [[sep e]|].
  - destruct (long_name n) eqn:Hl.
    + destruct (takes_value o) eqn:Ho; [|discriminate]. injection Hc as <- <-. destruct H as [(-> & q & -> & Hq & Hn)|(-> & c & c' & s & Hc & Hc' & -> & -> & -> & Hin)].
      * eapply st_equals; eauto.
      * rewrite (letter_short Hin) in Hl. discriminate.
    + destruct H as [(-> & q & -> & Hq & Hn)|(-> & c & c' & s & Hcd & Hc' & -> & -> & -> & Hin)].
      * destruct (names_long Hn Hl) as (c & -> & ->). apply (@st_letters _ (String c (text true e))); [reflexivity|]. apply (@letters_sound _ e (le_n _) c o true l p (proj1 Hn)); [discriminate|exact Hc].
      * apply (@st_letters _ (String c (text false (String c' s)))); [reflexivity|]. apply (@letters_sound _ (String c' s) (le_n _) c o false l p Hin); [|exact Hc].
        intros _. split; [discriminate|]. intros r F. injection F. intros. congruence.
  - destruct H as [Hne Hn]. unfold bare in Hc. destruct (takes_value o) eqn:Ho; injection Hc as <- <-; [eapply st_next|eapply st_flag]; eauto.
Qed.
Lemma step_complete w l p : step w l p -> w <> "--" -> exists n o e, classify negative os w = KOption n o e /\ consume os n o e = Ok (l, p, false).
Proof.
  intros H Hw. destruct H as [n o Hne Hn Ho|n o Hne Hn Ho|q n o v -> Hq Hn Ho|s l p -> Hc].
  - exists n, o, None. split; [apply (classify_name negative Hgood); assumption|]. cbn. unfold bare. rewrite Ho. reflexivity.
  - exists n, o, None. split; [apply (classify_name negative Hgood); assumption|]. cbn. unfold bare. rewrite Ho. reflexivity.
  - exists n, o, (Some (true, v)). split; [apply (classify_equals negative Hgood); assumption|]. cbn [consume]. rewrite Ho. destruct (long_name n); [reflexivity|]. destruct v; cbn [letters]; rewrite Ho; reflexivity.
  - destruct (cluster_first Hc) as (c & o & e & -> & Hin). pose proof (letters_complete Hc eq_refl Hin) as H. destruct (letter_dash Hin) as [Hd He]. destruct e as [|c' e'].
    + exists (letter c), o, None. split; [|cbn; rewrite <- H; reflexivity]. apply (classify_name negative Hgood); [exact (name_no_equals Hgood Hin)|]. split; [exact Hin|left; reflexivity].
    + destruct (Ascii.eqb c' "=") eqn:E.
      * apply Ascii.eqb_eq in E. subst c'. destruct H as (Ho & -> & ->). exists (letter c), o, (Some (true, e')). split.
        -- apply (classify_equals negative Hgood (p := letter c)); [exact (name_no_equals Hgood Hin)|]. split; [exact Hin|left; reflexivity].
        -- cbn [consume]. rewrite (letter_short Hin). destruct e'; cbn [letters]; rewrite Ho; reflexivity.
      * apply Ascii.eqb_neq in E. exists (letter c), o, (Some (false, String c' e')). split; [apply (classify_letter negative Hgood); assumption|]. cbn [consume]. rewrite (letter_short Hin). exact H.
Qed.
Lemma step_group w l : step w l None -> group [w] l.
Proof. inversion 1; subst; [eapply g_flag; eauto|eapply g_equals; eauto|apply g_letters; assumption]. Qed.
Lemma step_group_value w l o v : step w l (Some o) -> plain negative os v -> group [w; v] (l ++ [(o, v)]).
Proof. inversion 1; subst; intros Hv; [eapply g_value; eauto|apply g_letters_value; assumption]. Qed.
Lemma group_step ws l : group ws l -> (exists w, ws = [w] /\ step w l None) \/ exists w v l' o, ws = [w; v] /\ l = l' ++ [(o, v)] /\ step w l' (Some o) /\ plain negative os v.
Proof.
  intros H. destruct H as [w n o H1 H2 H3|w n o v H1 H2 H3 H4|p n o v H1 H2 H3|s l H1|s l o v H1 H2].
  - left. eexists. split; [reflexivity|]. eapply st_flag; eauto.
  - right. exists w, v, [], o. split; [reflexivity|]. split; [reflexivity|]. split; [eapply st_next; eauto|assumption].
  - left. eexists. split; [reflexivity|]. eapply st_equals; eauto.
  - left. eexists. split; [reflexivity|]. eapply st_letters; eauto.
  - right. exists (String "-" s), v, l, o. split; [reflexivity|]. split; [reflexivity|]. split; [eapply st_letters; eauto|assumption].
Qed.

Lemma words_sound command k : forall ws, (length ws <= k)%nat -> forall l c, parse_words negative os command ws = Ok (l, false, c) ->
  no_help l /\ match c with None => line ws l | Some (w, rest) => command = true /\ exists ws1, ws = ws1 ++ w :: rest /\ line ws1 l end.
Proof.
  induction k as [|k IH]; intros ws Hk l c H; (destruct ws as [|w rest]; [injection H as <- <-; split; [intros x []|constructor]|]); [cbn in Hk; lia|].
  cbn [parse_words] in H. cbn [length] in Hk. destruct (String.eqb w "--") eqn:Ew; [destruct command; discriminate|]. apply String.eqb_neq in Ew.
  destruct (classify negative os w) as [|n o e| |] eqn:Hc.
  - destruct command; [|destruct (parse_words negative os false rest) as [[[? ?] ?]|]; discriminate]. injection H as <- <-. split; [intros x []|]. split; [reflexivity|]. exists []. split; [reflexivity|constructor].
  - destruct (consume os n o e) as [[[l1 next] x]|] eqn:He; [|discriminate]. cbn [bind] in H. destruct next as [o'|].
    + destruct rest as [|w' rest']; [discriminate|]. destruct (String.eqb w' "--") eqn:Ew'; [discriminate|]. apply String.eqb_neq in Ew'. cbn [negb andb] in H.
      pose proof (classify_inv negative Hgood Ew') as Hw'. destruct (classify negative os w') as [| | |]; try discriminate.
      destruct (given_spec (l1 ++ [(o', w')])) as [[Hg Hh]|[Hg _]]; rewrite Hg in H; [|discriminate]. cbn [bind] in H.
      destruct (parse_words negative os command rest') as [[[l2 x'] c']|] eqn:Hr; [|discriminate]. cbn [bind] in H. injection H as <- Hx <-. apply Bool.orb_false_iff in Hx. destruct Hx as [-> ->].
      destruct (IH rest' ltac:(cbn in Hk; lia) _ _ Hr) as [Hh2 Hrest]. assert (Hs := step_group_value (step_sound Ew Hc He) Hw'). split; [apply no_help_app; auto|].
      destruct c' as [[w1 r1]|]; [destruct Hrest as (Hco & ws1 & -> & Hl); split; [exact Hco|]; exists ([w; w'] ++ ws1); split; [reflexivity|constructor; assumption]|].
      apply (@ln_cons negative takes_value os [w; w'] _ rest' l2); assumption.
    + destruct (given_spec l1) as [[Hg Hh]|[Hg _]]; rewrite Hg in H; [|discriminate]. cbn [bind] in H.
      destruct (parse_words negative os command rest) as [[[l2 x'] c']|] eqn:Hr; [|discriminate]. cbn [bind] in H. injection H as <- Hx <-. apply Bool.orb_false_iff in Hx. destruct Hx as [-> ->].
      destruct (IH rest ltac:(lia) _ _ Hr) as [Hh2 Hrest]. assert (Hs := step_group (step_sound Ew Hc He)). split; [apply no_help_app; auto|].
      destruct c' as [[w1 r1]|]; [destruct Hrest as (Hco & ws1 & -> & Hl); split; [exact Hco|]; exists ([w] ++ ws1); split; [reflexivity|constructor; assumption]|].
      apply (@ln_cons negative takes_value os [w] _ rest l2); assumption.
  - destruct (parse_words negative os command rest) as [[[? ?] ?]|]; discriminate.
  - discriminate.
Qed.

(** Two long names: [--] alone names nothing. *)
Hypothesis Htwo : exists n o n' o', In (n, o) os /\ In (n', o') os /\ begins "--" n /\ begins "--" n' /\ n <> n'.
Lemma dashes_name n o : ~ names os "--" n o.
Proof.
  destruct Htwo as (n1 & o1 & n2 & o2 & H1 & H2 & B1 & B2 & Hne). intros [Hin [<-|(_ & _ & _ & Hu)]].
  - destruct (proj2 Hgood _ _ Hin) as [_ [(c & Hc & F)|(c & s & F)]]; [injection F as F|discriminate]. congruence.
  - apply Hne. rewrite (Hu _ _ H1 B1), (Hu _ _ H2 B2). reflexivity.
Qed.
Lemma dashes_plain e : ~ plain negative os (String "-" (String "-" (String "=" e))).
Proof.
  destruct Htwo as (n1 & o1 & _ & _ & H1 & _ & B1 & _). intros [_ [H|[H|[_ H]]]]; [apply H; eexists; reflexivity|discriminate|]. apply H.
  exists n1, o1, "--". split; [exact H1|]. split; [right; split; [apply split_none; reflexivity|exists e; reflexivity]|]. right. left. split; [exists ""; reflexivity|exact B1].
Qed.
(** The words of a line are not [--], nor do they begin with [--=]. *)
Definition regular (w : string) : Prop := w <> "--" /\ forall e, w <> String "-" (String "-" (String "=" e)).
Lemma step_regular w l p : step w l p -> regular w.
Proof.
  intros H. destruct H as [n o Hne Hn Ho|n o Hne Hn Ho|q n o v -> Hq Hn Ho|s l p -> Hc].
  - split; [intros ->; exact (dashes_name Hn)|]. intros e ->. apply (Hne "--" e). reflexivity.
  - split; [intros ->; exact (dashes_name Hn)|]. intros e ->. apply (Hne "--" e). reflexivity.
  - assert (Hs : split_equals (q ++ "=" ++ v)%string = Some (q, v)) by (apply split_some; auto). split; [intros F; rewrite F in Hs; discriminate|].
    intros e F. rewrite F in Hs. injection Hs as <- _. exact (dashes_name Hn).
  - destruct (cluster_first Hc) as (c & o & e & -> & Hin). apply letter_dash in Hin. destruct Hin as [Hd _]. split; [intros F|intros x F]; injection F; intros; congruence.
Qed.
Lemma group_regular ws l : group ws l -> Forall regular ws.
Proof.
  intros H. destruct (group_step H) as [(w & -> & Hs)|(w & v & l' & o & -> & _ & Hs & Hv)]; repeat constructor; try (exact (proj1 (step_regular Hs))); try (exact (proj2 (step_regular Hs))); [exact (proj1 Hv)|].
  intros e ->. exact (dashes_plain Hv).
Qed.
Lemma line_regular ws l : line ws l -> Forall regular ws.
Proof. induction 1 as [|ws l ws' l' Hg Hl IH]; [constructor|]. apply Forall_app. split; [exact (group_regular Hg)|exact IH]. Qed.
Lemma group_unambiguous ws l : group ws l -> forall w, In w ws -> w <> "--" /\ classify negative os w <> KAmbiguous.
Proof.
  intros H w Hin. destruct (proj1 (Forall_forall _ _) (group_regular H) w Hin) as [Hw _]. split; [exact Hw|].
  destruct (group_step H) as [(w1 & -> & Hs)|(w1 & v & l' & o & -> & _ & Hs & Hv)].
  - destruct Hin as [<-|[]]. destruct (step_complete Hs Hw) as (n & o & e & -> & _). discriminate.
  - destruct Hin as [<-|[<-|[]]]; [destruct (step_complete Hs Hw) as (n & o1 & e & -> & _); discriminate|]. rewrite (classify_plain Hgood Hv). discriminate.
Qed.
Lemma line_unambiguous ws l : line ws l -> forall w, In w ws -> w <> "--" /\ classify negative os w <> KAmbiguous.
Proof. induction 1 as [|ws l ws' l' Hg Hl IH]; intros w Hin; [destruct Hin|]. apply in_app_or in Hin. destruct Hin as [Hin|Hin]; [exact (group_unambiguous Hg Hin)|exact (IH w Hin)]. Qed.

Lemma words_complete command ws l rest : line ws l -> no_help l -> forall x c l', parse_words negative os command rest = Ok (l', x, c) ->
  parse_words negative os command (ws ++ rest) = Ok (l ++ l', x, c).
Proof.
  induction 1 as [|ws l ws' l1 Hg Hl IH]; intros Hh x c l' Hr; [exact Hr|]. apply no_help_app in Hh. destruct Hh as [Hh1 Hh2]. specialize (IH Hh2 x c l' Hr). pose proof (group_regular Hg) as Hreg.
  destruct (group_step Hg) as [(w & -> & Hs)|(w & v & l2 & o & -> & -> & Hs & Hv)]; cbn [app]; inversion Hreg as [|? ? [Hw _] Hreg']; subst; destruct (step_complete Hs Hw) as (n & o1 & e & Hk & Hc);
    cbn [parse_words]; rewrite (proj2 (String.eqb_neq _ _) Hw), Hk, Hc; cbn [bind].
  - destruct (given_spec l) as [[-> _]|[_ F]]; [|contradiction]. cbn [bind]. rewrite IH. cbn [bind]. rewrite <- app_assoc. reflexivity.
  - rewrite (proj2 (String.eqb_neq _ _) (proj1 Hv)), (classify_plain Hgood Hv). cbn [negb andb]. destruct (given_spec (l2 ++ [(o, v)])) as [[-> _]|[_ F]]; [|contradiction]. cbn [bind]. rewrite IH. cbn [bind]. rewrite <- (app_assoc (l2 ++ [(o, v)])). reflexivity.
Qed.
Lemma words_helped command ws l rest : line ws l -> ~ no_help l -> parse_words negative os command (ws ++ rest) = Err AxHelp.
Proof.
  induction 1 as [|ws l ws' l1 Hg Hl IH]; intros Hh; [elim Hh; intros x []|]. pose proof (group_regular Hg) as Hreg.
  destruct (group_step Hg) as [(w & -> & Hs)|(w & v & l2 & o & -> & -> & Hs & Hv)]; cbn [app]; inversion Hreg as [|? ? [Hw _] Hreg']; subst; destruct (step_complete Hs Hw) as (n & o1 & e & Hk & Hc);
    cbn [parse_words]; rewrite (proj2 (String.eqb_neq _ _) Hw), Hk, Hc; cbn [bind].
  - destruct (given_spec l) as [[-> F]|[-> _]]; [|reflexivity]. cbn [bind]. rewrite IH; [reflexivity|]. intros F'. apply Hh. apply no_help_app. auto.
  - rewrite (proj2 (String.eqb_neq _ _) (proj1 Hv)), (classify_plain Hgood Hv). cbn [negb andb]. destruct (given_spec (l2 ++ [(o, v)])) as [[-> F]|[-> _]]; [|reflexivity]. cbn [bind]. rewrite IH; [reflexivity|].
    intros F'. apply Hh. apply no_help_app. auto.
Qed.
End Line.
