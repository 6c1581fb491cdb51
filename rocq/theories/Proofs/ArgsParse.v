(** The whole command line. *)
From Verif Require Import Model.Base Model.Main Model.Args Spec.ArgsSpec Proofs.BaseFacts Proofs.ArgsFacts Proofs.ArgsLine.
Set Implicit Arguments. Unset Strict Implicit.
Open Scope string_scope.
Open Scope list_scope.

Section Parse.
Variable negative : string -> bool.

(** The values in the end. *)
Lemma all_given_values o l vs : values o l vs <-> vs = all_given o l.
Proof.
  split.
  - induction 1 as [|x l vs H IH|o' x l vs Hne H IH]; [reflexivity|cbn; rewrite eqb_refl; cbn [app]; f_equal; exact IH|]. cbn. destruct (eqb o' o) eqn:E; [apply (proj1 (eqb_true _ _)) in E; congruence|exact IH].
  - intros ->. induction l as [|[o' x] l IH]; [constructor|]. cbn. destruct (eqb o' o) eqn:E; [apply (proj1 (eqb_true _ _)) in E; subst o'; constructor; exact IH|]. apply vs_other; [|exact IH]. intros ->. rewrite eqb_refl in E. discriminate.
Qed.
Lemma is_given_switched o l b : switched o l b <-> b = is_given o l.
Proof.
  unfold switched. assert (H : is_given o l = true <-> exists x, In (o, x) l).
  { unfold is_given. rewrite existsb_exists. split.
    - intros ([o' x] & Hin & E). apply (proj1 (eqb_true _ _)) in E. cbn in E. subst o'. eauto.
    - intros (x & Hin). exists (o, x). split; [exact Hin|apply eqb_refl]. }
  split; [|intros ->; exact H]. intros Hb. apply Bool.eq_true_iff_eq. rewrite Hb, H. reflexivity.
Qed.
Lemma last_given_app o l a : fold_left (fun a ov => if eqb (fst ov) o then Some (snd ov) else a) l a = match last_given o l with Some x => Some x | None => a end.
Proof.
  unfold last_given. revert a. induction l as [|[o' x] l IH]; intros a; [reflexivity|]. cbn [fold_left fst snd]. rewrite IH. rewrite (IH (if eqb o' o then Some x else None)).
  destruct (fold_left _ l None); [reflexivity|]. destruct (eqb o' o); reflexivity.
Qed.
Lemma last_given_spec o l : last_value o l (last_given o l).
Proof.
  induction l as [|[o' x] l IH]; [intros x []|]. unfold last_given. cbn [fold_left fst snd]. rewrite last_given_app. destruct (last_given o l) as [y|].
  - destruct IH as (a & b & -> & Hb). exists ((o', x) :: a), b. auto.
  - destruct (eqb o' o) eqn:E; cbn.
    + apply (proj1 (eqb_true _ _)) in E. subst o'. exists [], l. auto.
    + intros y [F|F]; [injection F as -> _; rewrite eqb_refl in E; discriminate|exact (IH y F)].
Qed.
Lemma last_value_fun o l v v' : last_value o l v -> last_value o l v' -> v = v'.
Proof.
  destruct v as [x|], v' as [y|]; cbn; [| | |reflexivity].
  - intros (a & b & -> & Hb) (a' & b' & H & Hb'). f_equal. revert a' H. induction a as [|z a IH]; intros [|z' a'] H; cbn in H.
    + injection H as -> _. reflexivity.
    + injection H as _ ->. elim (Hb y). apply in_or_app. right. left. reflexivity.
    + injection H as -> H. elim (Hb' x). rewrite <- H. apply in_or_app. right. left. reflexivity.
    + injection H as _ H. exact (IH a' H).
  - intros (a & b & -> & _) H. elim (H x). apply in_or_app. right. left. reflexivity.
  - intros H (a & b & -> & _). elim (H y). apply in_or_app. right. left. reflexivity.
Qed.

(** Words that could begin several options. *)
Lemma top_ambiguous w : classify negative top_options w = KAmbiguous -> ~ regular w.
Proof.
  intros H Hreg. unfold classify in H. destruct w as [|c1 w']; [discriminate|]. destruct (Ascii.eqb c1 "-") eqn:E1; [|discriminate]. apply Ascii.eqb_eq in E1. subst c1. cbn [negb] in H.
  destruct (dget top_options (String "-" w')) eqn:Hd; [discriminate|]. destruct (String.eqb w' "") eqn:Ew; [discriminate|]. destruct w' as [|c2 e]; [discriminate|].
  destruct (match split_equals (String "-" (String c2 e)) with Some (n, e) => match dget top_options n with Some o => Some (KOption n o (Some (true, e))) | None => None end | None => None end) as [k|] eqn:Ex.
  { destruct (split_equals (String "-" (String c2 e))) as [[n e']|]; [|discriminate]. destruct (dget top_options n); [|discriminate]. injection Ex as <-. discriminate. }
  destruct (option_tuples top_options (String "-" (String c2 e))) as [|[[n o] x] [|y r]] eqn:Eo; [destruct (negative _ || _)%bool; discriminate|discriminate|]. clear H.
  destruct (Ascii.ascii_dec c2 "-") as [->|Hc2].
  - assert (Hlen : forall p, begins "--" p -> p <> "--" -> (length (filter (fun no => String.prefix p (fst no)) top_options) <= 1)%nat).
    { intros p (q & ->) Hp. destruct q as [|c q]; [elim Hp; reflexivity|]. cbn [append top_options filter fst].
      assert (Hdash : forall n, String.prefix (String "-" (String "-" (String c q))) (String "-" (String "-" n)) = String.prefix (String c q) n) by (intros n'; apply Bool.eq_true_iff_eq; rewrite !prefix_begins; split; intros (z & F); exists z; [injection F as ->|rewrite F]; reflexivity).
      assert (Hone : forall d, d <> "-"%char -> String.prefix (String "-" (String "-" (String c q))) (String "-" (String d "")) = false) by (intros d Hne; apply Bool.not_true_iff_false; rewrite prefix_begins; intros (z & F); injection F; intros; congruence).
      rewrite !Hone by discriminate. change "--help" with (String "-" (String "-" "help")). change "--verbose" with (String "-" (String "-" "verbose")). change "--config" with (String "-" (String "-" "config")). rewrite !Hdash.
      assert (Hfirst : forall d n, String.prefix (String c q) (String d n) = true -> c = d) by (intros d n' F; apply prefix_begins in F; destruct F as (z & F); injection F; intros; congruence).
      destruct (String.prefix (String c q) "help") eqn:F1; destruct (String.prefix (String c q) "verbose") eqn:F2; destruct (String.prefix (String c q) "config") eqn:F3; cbn; try lia;
        repeat match goal with F : String.prefix (String c q) _ = true |- _ => apply Hfirst in F end; congruence. }
    cbn [option_tuples] in Eo. rewrite Ascii.eqb_refl in Eo. destruct (split_equals (String "-" (String "-" e))) as [[p v]|] eqn:Es.
    + apply split_some in Es. destruct Es as [Hw Hp]. assert (Hb : begins "--" p) by (apply (@long_split p v _ Hw Hp); exists e; reflexivity).
      destruct (String.eqb p "--") eqn:Ep; [apply String.eqb_eq in Ep; subst p; exact (proj2 Hreg v Hw)|]. apply String.eqb_neq in Ep. specialize (Hlen p Hb Ep).
      apply (f_equal (@length _)) in Eo. rewrite map_length in Eo. cbn [length] in Eo. lia.
    + assert (Hb : begins "--" (String "-" (String "-" e))) by (exists e; reflexivity). specialize (Hlen _ Hb (proj1 Hreg)).
      apply (f_equal (@length _)) in Eo. rewrite map_length in Eo. cbn [length] in Eo. lia.
  - rewrite (tuples_short (proj1 good_tables) Hc2 Hd) in Eo. apply (f_equal (@length _)) in Eo. rewrite map_length in Eo. cbn [length] in Eo.
    destruct (filter (fun no => String.eqb (fst no) (letter c2)) top_options) as [|a [|b l]] eqn:Ef; cbn [length] in Eo; try lia.
    assert (Ha : In a (filter (fun no => String.eqb (fst no) (letter c2)) top_options)) by (rewrite Ef; left; reflexivity). apply filter_In in Ha. destruct Ha as [Ha Ha'].
    rewrite (filter_one (proj1 good_tables) Ha Ha') in Ef; [discriminate|]. intros z _ Hz. apply String.eqb_eq in Hz, Ha'. congruence.
Qed.
Lemma ambiguous_false os ws : (forall w, In w ws -> classify negative os w <> KAmbiguous) -> ambiguous negative os ws = false.
Proof.
  induction ws as [|w ws IH]; intros H; [reflexivity|]. cbn [ambiguous]. destruct (String.eqb w "--"); [reflexivity|]. pose proof (H w (or_introl eq_refl)) as Hw.
  destruct (classify negative os w); try contradiction; apply IH; intros w' Hw'; apply H; right; exact Hw'.
Qed.

Lemma ambiguous_dashes os ws : (forall w, In w ws -> w <> "--" -> classify negative os w <> KAmbiguous) -> ambiguous negative os ws = false.
Proof.
  induction ws as [|w ws IH]; intros H; [reflexivity|]. cbn [ambiguous]. destruct (String.eqb w "--") eqn:E; [reflexivity|]. apply String.eqb_neq in E. pose proof (H w (or_introl eq_refl) E) as Hw.
  destruct (classify negative os w); try contradiction; apply IH; intros w' Hw'; apply H; right; exact Hw'.
Qed.
(** The commands. *)
Definition action_says (c : string) (l : list (opt * string)) (a : action) : Prop :=
  match a with
  | APlan output => c = "plan" /\ last_value OOutput l output
  | ASample plan truncate create => c = "sample" /\ (last_value OPlan l (Some plan) \/ last_value OPlan l None /\ plan = "plan.yaml") /\ switched OTruncate l truncate /\ switched OCreate l create
  | ASubset truncate create => c = "subset" /\ switched OTruncate l truncate /\ switched OCreate l create
  end.
Lemma action_spec c l a : command_options c <> None -> action_says c l a <-> a = command_action c l.
Proof.
  unfold command_options, command_action. intros Hc. pose proof (last_given_spec OOutput l) as Ho. pose proof (last_given_spec OPlan l) as Hp.
  destruct (String.eqb c "plan") eqn:E1; [|destruct (String.eqb c "sample") eqn:E2; [|destruct (String.eqb c "subset") eqn:E3; [|congruence]]]; [apply String.eqb_eq in E1|apply String.eqb_eq in E2|apply String.eqb_eq in E3]; subst c.
  - split; [|intros ->; split; [reflexivity|exact Ho]]. destruct a; intros [F H]; try discriminate. rewrite (last_value_fun H Ho). reflexivity.
  - split.
    + destruct a as [|p t cr|]; intros (F & H); try discriminate. destruct H as (H & H1 & H2). apply is_given_switched in H1, H2. subst t cr. f_equal. destruct H as [H|[H ->]]; rewrite <- (last_value_fun H Hp); reflexivity.
    + intros ->. split; [reflexivity|]. split; [|split; apply is_given_switched; reflexivity]. destruct (last_given OPlan l); [left; exact Hp|right; split; [exact Hp|reflexivity]].
  - split; [|intros ->; split; [reflexivity|split; apply is_given_switched; reflexivity]]. destruct a as [| |t cr]; intros (F & H); try discriminate. destruct H as (H1 & H2). apply is_given_switched in H1, H2. subst. reflexivity.
Qed.
Lemma says_iff argv a : says negative argv a <-> exists ws l c ws' l' os, argv = ws ++ c :: ws' /\ line negative takes_value top_options ws l /\ no_help (l ++ l') /\ values OConfig l (ar_config a) /\
  command_options c = Some os /\ line negative takes_value os ws' l' /\ action_says c l' (ar_action a).
Proof.
  unfold says, action_says. split.
  - intros (ws & l & c & ws' & l' & Hargv & Hl & Hh & Hv & Ha). exists ws, l, c, ws', l'. destruct (ar_action a).
    + destruct Ha as (-> & H1 & H2). exists plan_options. do 4 (split; [assumption|]). split; [reflexivity|]. split; [exact H1|]. split; [reflexivity|exact H2].
    + destruct Ha as (-> & H1 & H2). exists sample_options. do 4 (split; [assumption|]). split; [reflexivity|]. split; [exact H1|]. split; [reflexivity|exact H2].
    + destruct Ha as (-> & H1 & H2). exists subset_options. do 4 (split; [assumption|]). split; [reflexivity|]. split; [exact H1|]. split; [reflexivity|exact H2].
  - intros (ws & l & c & ws' & l' & os & Hargv & Hl & Hh & Hv & Hc & Hl' & Ha). exists ws, l, c, ws', l'. do 4 (split; [assumption|]).
    destruct (ar_action a); destruct Ha as (-> & Ha); injection Hc as <-; auto.
Qed.
Lemma command_tables c os : command_options c = Some os -> good os /\ (exists n o n' o', In (n, o) os /\ In (n', o') os /\ begins "--" n /\ begins "--" n' /\ n <> n') /\ plain negative top_options c.
Proof.
  destruct good_tables as (_ & G1 & G2 & G3). unfold command_options.
  assert (Hp : forall x r, x <> "-"%char -> plain negative top_options (String x r)) by (intros x r Hx; split; [intros F; injection F; intros; congruence|]; left; intros (s & F); injection F; intros; congruence).
  destruct (String.eqb c "plan") eqn:E1; [|destruct (String.eqb c "sample") eqn:E2; [|destruct (String.eqb c "subset") eqn:E3; [|discriminate]]]; [apply String.eqb_eq in E1|apply String.eqb_eq in E2|apply String.eqb_eq in E3]; subst c; intros H; injection H as <-.
  - split; [exact G1|]. split; [|apply Hp; discriminate]. exists "--help", OHelp, "--output", OOutput. split; [cbn; auto 9|]. split; [cbn; auto 9|]. split; [eexists; reflexivity|]. split; [eexists; reflexivity|discriminate].
  - split; [exact G2|]. split; [|apply Hp; discriminate]. exists "--help", OHelp, "--plan", OPlan. split; [cbn; auto 9|]. split; [cbn; auto 9|]. split; [eexists; reflexivity|]. split; [eexists; reflexivity|discriminate].
  - split; [exact G3|]. split; [|apply Hp; discriminate]. exists "--help", OHelp, "--create", OCreate. split; [cbn; auto 9|]. split; [cbn; auto 9|]. split; [eexists; reflexivity|]. split; [eexists; reflexivity|discriminate].
Qed.
Lemma top_two : exists n o n' o', In (n, o) top_options /\ In (n', o') top_options /\ begins "--" n /\ begins "--" n' /\ n <> n'.
Proof. exists "--help", OHelp, "--config", OConfig. split; [cbn; auto 9|]. split; [cbn; auto 9|]. split; [eexists; reflexivity|]. split; [eexists; reflexivity|discriminate]. Qed.

Theorem parse_says argv a : parse_args negative argv = Ok a <-> says negative argv a.
Proof.
  rewrite says_iff. unfold parse_args, parse_with. split.
  - destruct (ambiguous negative top_options argv); [discriminate|]. destruct (parse_words negative top_options true argv) as [[[l x] [[c ws']|]]|] eqn:Hp; try discriminate. cbn [bind].
    destruct (command_options c) as [os|] eqn:Hc; [|discriminate]. destruct (ambiguous negative os ws'); [discriminate|]. destruct (parse_words negative os false ws') as [[[l' x'] c']|] eqn:Hp'; [|discriminate]. cbn [bind].
    destruct x, x'; try discriminate. cbn [orb]. intros H. injection H as <-. destruct (command_tables Hc) as (Hg & _ & _).
    destruct (words_sound (proj1 good_tables) (le_n _) Hp) as (Hh & _ & ws & Hargv & Hl). destruct (words_sound Hg (le_n _) Hp') as (Hh' & Hl'). destruct c' as [[? ?]|]; [destruct Hl'; discriminate|].
    exists ws, l, c, ws', l', os. split; [exact Hargv|]. split; [exact Hl|]. split; [apply no_help_app; auto|]. split; [apply all_given_values; reflexivity|]. split; [exact Hc|]. split; [exact Hl'|]. apply action_spec; [congruence|reflexivity].
  - intros (ws & l & c & ws' & l' & os & -> & Hl & Hh & Hv & Hc & Hl' & Ha). apply no_help_app in Hh. destruct Hh as [Hh Hh']. destruct (command_tables Hc) as (Hg & Htwo & Hpl). pose proof (proj1 good_tables) as Htop.
    assert (Hcl := classify_plain Htop Hpl). rewrite ambiguous_false.
    2:{ intros w Hin. apply in_app_or in Hin. destruct Hin as [Hin|[<-|Hin]].
        - exact (proj2 (line_unambiguous Htop top_two Hl Hin)).
        - congruence.
        - intros F. exact (top_ambiguous F (proj1 (Forall_forall _ _) (line_regular Hg Htwo Hl') w Hin)). }
    rewrite (@words_complete negative top_options Htop top_two true ws l (c :: ws') Hl Hh false (Some (c, ws')) []).
    2:{ cbn [parse_words]. rewrite (proj2 (String.eqb_neq _ _) (proj1 Hpl)), Hcl. reflexivity. }
    cbn [bind]. rewrite Hc. rewrite ambiguous_false by (intros w Hin; exact (proj2 (line_unambiguous Hg Htwo Hl' Hin))).
    rewrite <- (app_nil_r ws'). rewrite (@words_complete negative os Hg Htwo false ws' l' [] Hl' Hh' false None [] eq_refl). cbn [bind orb]. rewrite !app_nil_r. apply all_given_values in Hv. apply action_spec in Ha; [|congruence]. destruct a as [cf ac]. cbn in *. congruence.
Qed.
Theorem parse_helped argv : wants_help negative argv -> parse_args negative argv = Err AxHelp.
Proof.
  unfold parse_args, parse_with. pose proof (proj1 good_tables) as Htop. intros [(ws & l & rest & x & -> & Hl & Hx & Hr)|(ws & l & c & os & ws' & l' & x & -> & Hl & Hc & Hl' & Hx)].
  - rewrite ambiguous_dashes; [rewrite (words_helped Htop top_two true rest Hl); [reflexivity|]; intros F; exact (F x Hx)|].
    intros w Hin Hne. apply in_app_or in Hin. destruct Hin as [Hin|Hin]; [exact (proj2 (line_unambiguous Htop top_two Hl Hin))|].
    intros F. apply (top_ambiguous F). split; [exact Hne|]. intros e ->. apply (Hr _ Hin). exists e. reflexivity.
  - assert (Hco : command_options c = Some os) by (destruct Hc as [Hc|[Hc|[Hc|[]]]]; injection Hc as <- <-; reflexivity). clear Hc. destruct (command_tables Hco) as (Hg & Htwo & Hpl).
    assert (Hcl := classify_plain Htop Hpl). rewrite ambiguous_false.
    2:{ intros w Hin. apply in_app_or in Hin. destruct Hin as [Hin|[<-|Hin]].
        - exact (proj2 (line_unambiguous Htop top_two Hl Hin)).
        - congruence.
        - intros F. exact (top_ambiguous F (proj1 (Forall_forall _ _) (line_regular Hg Htwo Hl') w Hin)). }
    destruct (given_spec l) as [[_ Hh]|[_ Hh]]; [|rewrite (words_helped Htop top_two true (c :: ws') Hl Hh); reflexivity].
    rewrite (@words_complete negative top_options Htop top_two true ws l (c :: ws') Hl Hh false (Some (c, ws')) []).
    2:{ cbn [parse_words]. rewrite (proj2 (String.eqb_neq _ _) (proj1 Hpl)), Hcl. reflexivity. }
    cbn [bind]. rewrite Hco. rewrite ambiguous_false by (intros w Hin; exact (proj2 (line_unambiguous Hg Htwo Hl' Hin))).
    rewrite <- (app_nil_r ws'). rewrite (words_helped Hg Htwo false [] Hl'); [reflexivity|]. intros F. exact (F x Hx).
Qed.
Corollary says_fun argv a a' : says negative argv a -> says negative argv a' -> a = a'.
Proof. intros H H'. apply parse_says in H, H'. congruence. Qed.
End Parse.
