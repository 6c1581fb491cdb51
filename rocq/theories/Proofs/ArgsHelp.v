(** Which words ask for help, and which for truncation or creation. *)
From Verif Require Import Model.Base Model.Main Model.Args Spec.ArgsSpec Proofs.BaseFacts Proofs.ArgsFacts Proofs.ArgsLine Proofs.ArgsParse.
Set Implicit Arguments. Unset Strict Implicit.
Open Scope string_scope.
Open Scope list_scope.

Section Help.
Variable negative : string -> bool.
Section Table.
Variable os : options.
Hypothesis Hgood : good os.
Hypothesis Hhelp : forall n, In (n, OHelp) os -> n = "-h" \/ n = "--help".
Hypothesis Htwo : exists n o n' o', In (n, o) os /\ In (n', o') os /\ begins "--" n /\ begins "--" n' /\ n <> n'.

Definition has_h (s : string) : Prop := exists a b, s = (a ++ "h" ++ b)%string.
Lemma has_h_cons c s : has_h s -> has_h (String c s).
Proof. intros (a & b & ->). exists (String c a), b. reflexivity. Qed.
Lemma letters_help k : forall e, (String.length e <= k)%nat -> forall o sep l p x v, letters os o sep e = Ok (l, p, x) -> In (OHelp, v) l -> o = OHelp \/ has_h e.
Proof.
  induction k as [|k IH]; intros e Hk o sep l p x v H Hin.
  { destruct e; [|cbn in Hk; lia]. cbn [letters] in H. destruct (takes_value o); [|discriminate]. injection H as <- <- <-. destruct Hin as [F|[]]. injection F as -> _. left. reflexivity. }
  destruct e as [|c e]; cbn [letters] in H; destruct (takes_value o) eqn:Ho; try discriminate; try (injection H as <- <- <-; destruct Hin as [F|[]]; injection F as -> _; left; reflexivity).
  destruct (sep || Ascii.eqb c "-")%bool; [discriminate|]. fold (letter c) in H. destruct (dget os (letter c)) as [o'|] eqn:Hd.
  2:{ injection H as <- <- <-. destruct Hin as [F|[]]. injection F as -> _. left. reflexivity. }
  apply (get_name Hgood) in Hd. assert (Hc : o' = OHelp -> has_h (String c e)) by (intros ->; destruct (Hhelp Hd) as [F|F]; [injection F as ->; exists "", e; reflexivity|discriminate]).
  destruct e as [|c' e'].
  - destruct (bare o') as [[l' p'] x'] eqn:Hb. cbn [bind] in H. injection H as <- <- <-. destruct Hin as [F|Hin]; [injection F as -> _; left; reflexivity|]. right. apply Hc. unfold bare in Hb.
    destruct (takes_value o'); injection Hb as <- <- <-; [destruct Hin|]. destruct Hin as [F|[]]. injection F as -> _. reflexivity.
  - destruct (if Ascii.eqb c' "=" then letters os o' true e' else letters os o' false (String c' e')) as [[[l' p'] x']|] eqn:Hl; [|discriminate]. cbn [bind] in H. injection H as <- <- <-.
    destruct Hin as [F|Hin]; [injection F as -> _; left; reflexivity|]. right. destruct (Ascii.eqb c' "=").
    + destruct (IH e' ltac:(cbn in Hk; lia) _ _ _ _ _ v Hl Hin) as [F|F]; [exact (Hc F)|]. do 2 apply has_h_cons. exact F.
    + destruct (IH (String c' e') ltac:(cbn in Hk |- *; lia) _ _ _ _ _ v Hl Hin) as [F|F]; [exact (Hc F)|]. apply has_h_cons. exact F.
Qed.
Lemma names_help p n r : names os p n OHelp -> asks_help (p ++ r).
Proof.
  intros Hn. assert (Hp : p <> "--") by (intros ->; exact (dashes_name Hgood Htwo Hn)). destruct Hn as [Hin Hn]. destruct (Hhelp Hin) as [Hh|Hh]; subst n; (destruct Hn as [->|(_ & (q & Hq) & (z & Hz) & _)]).
  - exists "", r. reflexivity.
  - subst p. discriminate.
  - exists "-", ("elp" ++ r)%string. reflexivity.
  - subst p. destruct q as [|c q]; [elim Hp; reflexivity|]. cbn in Hz. injection Hz as <- _. exists "-", (q ++ r)%string. reflexivity.
Qed.
Lemma consume_help w n o e l p x v : w <> "--" -> classify negative os w = KOption n o e -> consume os n o e = Ok (l, p, x) -> In (OHelp, v) l -> asks_help w.
Proof.
  intros Hw Hk Hc Hin. pose proof (classify_inv negative Hgood Hw) as H. rewrite Hk in H. unfold consume in Hc. destruct e as [[sep e]|].
  - assert (Ho : o = OHelp \/ has_h e).
    { destruct (long_name n); [|exact (letters_help (le_n _) Hc Hin)]. destruct (takes_value o); [|discriminate]. injection Hc as <- <- <-. destruct Hin as [F|[]]. injection F as -> _. left. reflexivity. }
    destruct H as [(-> & q & -> & Hq & Hn)|(-> & c & c' & s & Hcd & Hc' & -> & -> & -> & Hin')].
    + destruct Ho as [->|(a & b & ->)]; [exact (names_help _ Hn)|]. destruct (names_dash Hgood Hn) as (w' & -> & _). exists (w' ++ "=" ++ a)%string, b. cbn [append]. f_equal. clear. induction w' as [|x w' IH]; [reflexivity|]. cbn [append]. f_equal. exact IH.
    + destruct Ho as [->|(a & b & Hh)]; [destruct (Hhelp Hin') as [F|F]; [injection F as ->; exists "", (String c' s); reflexivity|discriminate]|]. rewrite Hh. exists (String c a), b. reflexivity.
  - destruct H as [_ Hn]. unfold bare in Hc. destruct (takes_value o) eqn:Ho; injection Hc as <- <- <-; [destruct Hin|]. destruct Hin as [F|[]]. injection F as -> _.
    pose proof (names_help "" Hn) as H. assert (Hr : forall s, (s ++ "")%string = s) by (clear; induction s as [|c s IH]; [reflexivity|cbn; rewrite IH; reflexivity]). rewrite Hr in H. exact H.
Qed.
Lemma consume_next n o e l p x : consume os n o e = Ok (l, Some p, x) -> takes_value p = true.
Proof.
  assert (Hb : forall o l p x, bare o = (l, Some p, x) -> takes_value p = true) by (intros o' l' p' x'; unfold bare; destruct (takes_value o') eqn:E; intros H; [injection H as _ <- _; exact E|discriminate]).
  unfold consume. destruct e as [[sep e]|]; [|intros H; injection H; intros; subst; eapply Hb; eassumption || (eapply Hb; apply surjective_pairing) || idtac].
  - destruct (long_name n); [destruct (takes_value o); discriminate|]. revert o sep l x. assert (Hl : forall k e, (String.length e <= k)%nat -> forall o sep l x, letters os o sep e = Ok (l, Some p, x) -> takes_value p = true).
    { clear e. induction k as [|k IH]; intros e Hk o' sep l' x' H. { destruct e; [|cbn in Hk; lia]. cbn [letters] in H. destruct (takes_value o'); discriminate. }
      destruct e as [|c e]; cbn [letters] in H; destruct (takes_value o'); try discriminate. destruct (sep || _)%bool; [discriminate|]. destruct (dget os _) as [o1|]; [|discriminate].
      destruct e as [|c' e']; [destruct (bare o1) as [[l1 p1] x1] eqn:E; cbn [bind] in H; injection H as _ -> _; exact (Hb _ _ _ _ E)|].
      destruct (Ascii.eqb c' "=").
      - destruct (letters os o1 true e') as [[[l1 p1] x1]|] eqn:E; [|discriminate]. cbn [bind] in H. injection H as _ -> _. exact (IH e' ltac:(cbn in Hk; lia) _ _ _ _ E).
      - destruct (letters os o1 false (String c' e')) as [[[l1 p1] x1]|] eqn:E; [|discriminate]. cbn [bind] in H. injection H as _ -> _. exact (IH (String c' e') ltac:(cbn in Hk |- *; lia) _ _ _ _ E). }
    intros o sep l x. exact (@Hl _ e (le_n _) o sep l x).
Qed.
Lemma words_help command k : forall ws, (length ws <= k)%nat -> parse_words negative os command ws = Err AxHelp -> exists w, In w ws /\ asks_help w.
Proof.
  induction k as [|k IH]; intros ws Hk H; (destruct ws as [|w rest]; [discriminate|]); [cbn in Hk; lia|]. cbn [length] in Hk. cbn [parse_words] in H. destruct (String.eqb w "--") eqn:Ew; [destruct command; discriminate|]. apply String.eqb_neq in Ew.
  assert (Hrec : forall r, (length r <= k)%nat -> incl r (w :: rest) -> parse_words negative os command r = Err AxHelp -> exists w0, In w0 (w :: rest) /\ asks_help w0) by (intros r Hr Hi F; destruct (IH r Hr F) as (w0 & A & B); exists w0; split; [apply Hi; exact A|exact B]).
  assert (Hi : incl rest (w :: rest)) by (intros z Hz; right; exact Hz).
  destruct (classify negative os w) as [|n o e| |] eqn:Hc.
  - destruct command; [discriminate|]. apply (Hrec rest); [lia|exact Hi|]. destruct (parse_words negative os false rest) as [[[? ?] ?]|err]; [discriminate|]. exact H.
  - destruct (consume os n o e) as [[[l1 next] x]|err] eqn:He.
    2:{ exfalso. cbn [bind] in H. injection H as ->. unfold consume in He. destruct e as [[sep e]|]; [|discriminate]. destruct (long_name n); [destruct (takes_value o); discriminate|].
        assert (Hl : forall k e, (String.length e <= k)%nat -> forall o sep, letters os o sep e <> Err AxHelp).
        { clear. induction k as [|k IH]; intros e Hk o sep. { destruct e; [|cbn in Hk; lia]. cbn [letters]. destruct (takes_value o); discriminate. }
          destruct e as [|c e]; cbn [letters]; destruct (takes_value o); try discriminate. destruct (sep || _)%bool; [discriminate|]. destruct (dget os _) as [o1|]; [|discriminate].
          destruct e as [|c' e']; [destruct (bare o1) as [[l1 p1] x1]; discriminate|]. destruct (Ascii.eqb c' "=").
          - pose proof (IH e' ltac:(cbn in Hk; lia) o1 true). destruct (letters os o1 true e') as [[[l1 p1] x1]|]; [discriminate|assumption].
          - pose proof (IH (String c' e') ltac:(cbn in Hk |- *; lia) o1 false). destruct (letters os o1 false (String c' e')) as [[[l1 p1] x1]|]; [discriminate|assumption]. }
        exact (@Hl _ e (le_n _) o sep He). }
    cbn [bind] in H. destruct next as [o'|].
    + destruct rest as [|w' rest']; [discriminate|]. destruct (negb (String.eqb w' "--") && _)%bool; [|discriminate]. destruct (given_spec (l1 ++ [(o', w')])) as [[Hg _]|[Hg Hn]]; rewrite Hg in H.
      * cbn [bind] in H. apply (Hrec rest'); [cbn in Hk; lia|intros z Hz; right; right; exact Hz|]. destruct (parse_words negative os command rest') as [[[? ?] ?]|]; [discriminate|exact H].
      * destruct (existsb (fun ov => eqb (fst ov) OHelp) l1) eqn:Ex.
        -- apply existsb_exists in Ex. destruct Ex as ([o1 v] & Hin & Ho). apply (proj1 (eqb_true _ _)) in Ho. cbn in Ho. subst o1. exists w. split; [left; reflexivity|]. exact (consume_help Ew Hc He Hin).
        -- elim Hn. intros v Hin. apply in_app_or in Hin. destruct Hin as [Hin|[F|[]]].
           ++ assert (existsb (fun ov : opt * string => eqb (fst ov) OHelp) l1 = true) by (apply existsb_exists; exists (OHelp, v); split; [exact Hin|apply eqb_refl]). congruence.
           ++ injection F as -> _. apply consume_next in He. discriminate.
    + destruct (given_spec l1) as [[Hg _]|[Hg Hn]]; rewrite Hg in H.
      * cbn [bind] in H. apply (Hrec rest); [lia|exact Hi|]. destruct (parse_words negative os command rest) as [[[? ?] ?]|]; [discriminate|exact H].
      * destruct (existsb (fun ov => eqb (fst ov) OHelp) l1) eqn:Ex.
        -- apply existsb_exists in Ex. destruct Ex as ([o1 v] & Hin & Ho). apply (proj1 (eqb_true _ _)) in Ho. cbn in Ho. subst o1. exists w. split; [left; reflexivity|]. exact (consume_help Ew Hc He Hin).
        -- elim Hn. intros v Hin. assert (existsb (fun ov : opt * string => eqb (fst ov) OHelp) l1 = true) by (apply existsb_exists; exists (OHelp, v); split; [exact Hin|apply eqb_refl]). congruence.
  - apply (Hrec rest); [lia|exact Hi|]. destruct (parse_words negative os command rest) as [[[? ?] ?]|]; [discriminate|exact H].
  - discriminate.
Qed.

(** An option that has only its long name is given by that name or a beginning of it. *)
Lemma flag_word o n0 ws l x : takes_value o = false -> (forall n, In (n, o) os -> n = n0) -> (exists c s, n0 = String "-" (String "-" (String c s))) -> line negative takes_value os ws l -> In (o, x) l ->
  exists w, In w ws /\ w <> "--" /\ begins "--" w /\ begins w n0.
Proof.
  intros Ho Hn0 (c0 & s0 & Hs0) Hl. induction Hl as [|ws l ws' l' Hg Hl IH]; intros Hin; [destruct Hin|]. apply in_app_or in Hin. destruct Hin as [Hin|Hin].
  2:{ destruct (IH Hin) as (w & A & B). exists w. split; [apply in_or_app; right; exact A|exact B]. }
  assert (Hcl : forall s l p, cluster takes_value os s l p -> ~ In (o, x) l).
  { intros s l1 p Hc. assert (Hno : forall c, ~ In (letter c, o) os) by (intros c F; apply Hn0 in F; rewrite Hs0 in F; discriminate). induction Hc as [c o1 H1 H2|c o1 s l1 p H1 H2 H3 IH3|c o1 c' v H1 H2 H3|c o1 v H1 H2|c o1 H1 H2]; cbn; intros F.
    - destruct F as [F|[]]. injection F as -> _. exact (Hno c H1).
    - destruct F as [F|F]; [injection F as -> _; exact (Hno c H1)|exact (IH3 F)].
    - destruct F as [F|[]]. injection F as -> _. congruence.
    - destruct F as [F|[]]. injection F as -> _. congruence.
    - exact F. }
  destruct Hg as [w n o1 H1 H2 H3|w n o1 v H1 H2 H3 H4|p n o1 v H1 H2 H3|s l H1|s l o1 v H1 H2].
  - destruct Hin as [F|[]]. injection F as -> _. exists w. split; [left; reflexivity|]. split; [intros ->; exact (dashes_name Hgood Htwo H2)|]. destruct H2 as [Hi Hn]. rewrite (Hn0 n Hi) in Hn. destruct Hn as [->|(_ & A & B & _)]; [|auto].
    rewrite Hs0. split; [exists (String c0 s0); reflexivity|exists ""; cbn; do 3 f_equal; clear; induction s0 as [|c s IH]; [reflexivity|cbn; f_equal; exact IH]].
  - destruct Hin as [F|[]]. injection F as -> _. congruence.
  - destruct Hin as [F|[]]. injection F as -> _. congruence.
  - elim (Hcl _ _ _ H1 Hin).
  - apply in_app_or in Hin. destruct Hin as [Hin|[F|[]]]; [elim (Hcl _ _ _ H1 Hin)|]. injection F as -> _. exfalso. assert (Hv : forall s l p, cluster takes_value os s l p -> forall o, p = Some o -> takes_value o = true) by (induction 1; intros; congruence || eauto).
    rewrite (Hv _ _ _ H1 _ eq_refl) in Ho. discriminate.
Qed.
End Table.

Lemma help_tables : forall os, In os [top_options; plan_options; sample_options; subset_options] -> forall n, In (n, OHelp) os -> n = "-h" \/ n = "--help".
Proof. intros os H n Hin. repeat (destruct H as [<-|H]; [repeat (destruct Hin as [F|Hin]; [try discriminate; injection F as <-; auto|]); destruct Hin|]). destruct H. Qed.
Theorem parse_help argv : parse_args negative argv = Err AxHelp -> exists w, In w argv /\ asks_help w.
Proof.
  unfold parse_args, parse_with. destruct (ambiguous negative top_options argv); [discriminate|]. destruct (parse_words negative top_options true argv) as [[[l x] [[c ws']|]]|err] eqn:Hp; try discriminate; cbn [bind].
  - destruct (command_options c) as [os|] eqn:Hc; [|discriminate]. destruct (ambiguous negative os ws'); [discriminate|]. destruct (parse_words negative os false ws') as [[[l' x'] c']|err] eqn:Hp'; cbn [bind]; [destruct (x || x')%bool; discriminate|].
    intros H. injection H as ->. destruct (command_tables negative Hc) as (Hg & Htwo & _).
    assert (Hin : In os [top_options; plan_options; sample_options; subset_options]).
    { unfold command_options in Hc. destruct (String.eqb c "plan"); [injection Hc as <-; cbn; auto|]. destruct (String.eqb c "sample"); [injection Hc as <-; cbn; auto|]. destruct (String.eqb c "subset"); [injection Hc as <-; cbn; auto|discriminate]. }
    destruct (words_help Hg (help_tables Hin) Htwo (le_n _) Hp') as (w & Hw & Ha). exists w. split; [|exact Ha].
    assert (Hinc : forall k ws, (length ws <= k)%nat -> forall l x, parse_words negative top_options true ws = Ok (l, x, Some (c, ws')) -> incl ws' ws).
    { clear. induction k as [|k IH]; intros ws Hk l x H; (destruct ws as [|w rest]; [discriminate|]); [cbn in Hk; lia|]. cbn [length] in Hk. cbn [parse_words] in H. destruct (String.eqb w "--"); [injection H as _ _ _ ->; intros z Hz; right; exact Hz|].
      destruct (classify negative top_options w) as [|n o e| |].
      - injection H as _ _ _ ->. intros z Hz. right. exact Hz.
      - destruct (consume top_options n o e) as [[[l1 next] x1]|]; [|discriminate]. cbn [bind] in H. destruct next as [o'|].
        + destruct rest as [|w' rest']; [discriminate|]. destruct (negb (String.eqb w' "--") && _)%bool; [|discriminate]. destruct (given (l1 ++ [(o', w')])); [|discriminate]. cbn [bind] in H.
          destruct (parse_words negative top_options true rest') as [[[l2 x2] c2]|] eqn:E; [|discriminate]. cbn [bind] in H. injection H as _ _ ->. intros z Hz. right. right. exact (IH rest' ltac:(cbn in Hk; lia) _ _ E z Hz).
        + destruct (given l1); [|discriminate]. cbn [bind] in H. destruct (parse_words negative top_options true rest) as [[[l2 x2] c2]|] eqn:E; [|discriminate]. cbn [bind] in H. injection H as _ _ ->. intros z Hz. right. exact (IH rest ltac:(lia) _ _ E z Hz).
      - destruct (parse_words negative top_options true rest) as [[[l2 x2] c2]|] eqn:E; [|discriminate]. cbn [bind] in H. injection H as _ _ ->. intros z Hz. right. exact (IH rest ltac:(lia) _ _ E z Hz).
      - discriminate. }
    exact (Hinc _ argv (le_n _) _ _ Hp w Hw).
  - intros H. injection H as ->. apply (words_help (proj1 good_tables) (help_tables (or_introl eq_refl)) top_two (le_n _) Hp).
Qed.

Definition truncates (a : action) : bool := match a with APlan _ => false | ASample _ t _ | ASubset t _ => t end.
Definition creates (a : action) : bool := match a with APlan _ => false | ASample _ _ c | ASubset _ c => c end.
Lemma third c1 c2 w p : w <> "--" -> begins "--" w -> begins w (String "-" (String "-" (String c2 p))) -> c1 = c2 -> begins (String "-" (String "-" (String c1 ""))) w.
Proof. intros Hw (q & ->) (z & Hz) ->. destruct q as [|c q]; [elim Hw; reflexivity|]. cbn in Hz. injection Hz as <- _. exists q. reflexivity. Qed.
Theorem truncate_said argv a : says negative argv a -> truncates (ar_action a) = true -> exists w, In w argv /\ means_truncate w.
Proof.
  intros H Ht. apply says_iff in H. destruct H as (ws & l & c & ws' & l' & os & -> & _ & _ & _ & Hc & Hl & Ha). destruct (command_tables negative Hc) as (Hg & Htwo & _).
  assert (Hin : (exists x, In (OTruncate, x) l') /\ forall n, In (n, OTruncate) os -> n = "--truncate").
  { destruct (ar_action a) as [o|p t cr|t cr]; cbn in Ht; [discriminate|..]; subst t; destruct Ha as (-> & Ha); injection Hc as <-.
    - destruct Ha as (_ & Ha & _). split; [apply Ha; reflexivity|]. intros n F. repeat (destruct F as [F|F]; [try discriminate; injection F as <-; reflexivity|]). destruct F.
    - destruct Ha as (Ha & _). split; [apply Ha; reflexivity|]. intros n F. repeat (destruct F as [F|F]; [try discriminate; injection F as <-; reflexivity|]). destruct F. }
  destruct Hin as ((x & Hin) & Hn). destruct (flag_word Hg Htwo (o := OTruncate) eq_refl Hn ltac:(do 2 eexists; reflexivity) Hl Hin) as (w & Hw & Hd & Hb & Hb'). exists w. split; [apply in_or_app; right; right; exact Hw|].
  split; [exact (third Hd Hb Hb' eq_refl)|exact Hb'].
Qed.
Theorem create_said argv a : says negative argv a -> creates (ar_action a) = true -> exists w, In w argv /\ means_create w.
Proof.
  intros H Ht. apply says_iff in H. destruct H as (ws & l & c & ws' & l' & os & -> & _ & _ & _ & Hc & Hl & Ha). destruct (command_tables negative Hc) as (Hg & Htwo & _).
  assert (Hin : (exists x, In (OCreate, x) l') /\ forall n, In (n, OCreate) os -> n = "--create").
  { destruct (ar_action a) as [o|p t cr|t cr]; cbn in Ht; [discriminate|..]; subst cr; destruct Ha as (-> & Ha); injection Hc as <-.
    - destruct Ha as (_ & _ & Ha). split; [apply Ha; reflexivity|]. intros n F. repeat (destruct F as [F|F]; [try discriminate; injection F as <-; reflexivity|]). destruct F.
    - destruct Ha as (_ & Ha). split; [apply Ha; reflexivity|]. intros n F. repeat (destruct F as [F|F]; [try discriminate; injection F as <-; reflexivity|]). destruct F. }
  destruct Hin as ((x & Hin) & Hn). destruct (flag_word Hg Htwo (o := OCreate) eq_refl Hn ltac:(do 2 eexists; reflexivity) Hl Hin) as (w & Hw & Hd & Hb & Hb'). exists w. split; [apply in_or_app; right; right; exact Hw|].
  split; [exact (third Hd Hb Hb' eq_refl)|exact Hb'].
Qed.
End Help.
