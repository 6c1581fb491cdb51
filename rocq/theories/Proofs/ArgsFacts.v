(** Lemmas on the words of a command line. *)
From Verif Require Import Model.Base Model.Main Model.Args Spec.ArgsSpec Proofs.BaseFacts.
Set Implicit Arguments. Unset Strict Implicit.
Open Scope string_scope.
Open Scope list_scope.

(** Strings *)
Lemma prefix_begins p s : String.prefix p s = true <-> begins p s.
Proof.
  revert s. induction p as [|a p IH]; intros s.
  - split; [intros _; exists s; reflexivity|intros _; destruct s; reflexivity].
  - destruct s as [|b s]; [split; [discriminate|intros (r & Hr); discriminate]|]. simpl.
    destruct (Ascii.ascii_dec a b) as [->|Hne].
    + split; [intros H; destruct (proj1 (IH s) H) as (r & ->); exists r; reflexivity|].
      intros (r & Hr). injection Hr as ->. apply IH. exists r. reflexivity.
    + split; [discriminate|]. intros (r & Hr). injection Hr as -> _. congruence.
Qed.
Lemma no_equals_tail c s : no_equals (String c s) -> no_equals s /\ c <> "="%char.
Proof. intros H. split; [intros a b ->; apply (H (String c a) b); reflexivity|intros ->; apply (H "" s); reflexivity]. Qed.
Lemma split_none s : split_equals s = None <-> no_equals s.
Proof.
  induction s as [|c s IH]; cbn [split_equals].
  - split; [intros _ [|a x] b; discriminate|reflexivity].
  - destruct (Ascii.eqb c "=") eqn:Hc.
    + apply Ascii.eqb_eq in Hc. subst c. split; [discriminate|]. intros H. elim (H "" s). reflexivity.
    + split.
      * intros H. destruct (split_equals s) as [[a b]|]; [discriminate|]. intros [|x a] b Hab; [injection Hab as -> _; discriminate|].
        injection Hab as _ Hs. exact (proj1 IH eq_refl a b Hs).
      * intros H. rewrite (proj2 IH (proj1 (no_equals_tail H))). reflexivity.
Qed.
Lemma split_some s p e : split_equals s = Some (p, e) <-> s = (p ++ "=" ++ e)%string /\ no_equals p.
Proof.
  revert p. induction s as [|c s IH]; intros p; cbn [split_equals].
  - split; [discriminate|]. intros [H _]. destruct p; discriminate.
  - destruct (Ascii.eqb c "=") eqn:Hc.
    + apply Ascii.eqb_eq in Hc. subst c. split.
      * intros H. injection H as <- <-. split; [reflexivity|]. intros [|a x] b; discriminate.
      * intros [H Hn]. destruct p as [|a p]; [injection H as ->; reflexivity|]. injection H as <- _. destruct (no_equals_tail Hn) as [_ F]. congruence.
    + destruct (split_equals s) as [[a b]|] eqn:Hs.
      * split.
        -- intros H. injection H as <- <-. destruct (proj1 (IH a) eq_refl) as [-> Hn]. split; [reflexivity|].
           intros [|x y] z F; [injection F as -> _; discriminate|]. injection F as _ F. exact (Hn _ _ F).
        -- intros [H Hn]. destruct p as [|x p]; [injection H as -> _; discriminate|]. injection H as -> H.
           pose proof (proj2 (IH p) (conj H (proj1 (no_equals_tail Hn)))) as F. injection F as -> ->. reflexivity.
      * split; [discriminate|]. intros [H Hn]. destruct p as [|x p]; [injection H as -> _; discriminate|]. injection H as -> H.
        pose proof (proj2 (IH p) (conj H (proj1 (no_equals_tail Hn)))). discriminate.
Qed.
Lemma space_spec s : has_space s = true <-> exists a b, s = (a ++ " " ++ b)%string.
Proof.
  induction s as [|c s IH]; cbn [has_space].
  - split; [discriminate|intros ([|] & b & H); discriminate].
  - rewrite Bool.orb_true_iff, IH. split.
    + intros [H|(a & b & ->)]; [apply Ascii.eqb_eq in H; subst c; exists "", s; reflexivity|exists (String c a), b; reflexivity].
    + intros ([|x a] & b & H); [injection H as -> _; left; reflexivity|]. injection H as -> ->. right. exists a, b. reflexivity.
Qed.
Lemma begins_app p s a b : (p ++ a = s ++ b)%string -> begins p s \/ begins s p.
Proof.
  revert s. induction p as [|x p IH]; intros s H; [left; exists s; reflexivity|]. destruct s as [|y s]; [right; exists (String x p); reflexivity|].
  injection H as -> H. destruct (IH s H) as [(r & ->)|(r & ->)]; [left|right]; exists r; reflexivity.
Qed.

(** What the parsers' options have in common. *)
Definition good_name (n : string) : Prop := no_equals n /\ ((exists c, c <> "-"%char /\ n = letter c) \/ exists c s, n = ("--" ++ String c s)%string).
Definition good (os : options) : Prop := NoDup (dkeys os) /\ forall n o, In (n, o) os -> good_name n.
Lemma good_tables : good top_options /\ good plan_options /\ good sample_options /\ good subset_options.
Proof.
  assert (H : forall os : options, (forall n o, In (n, o) os -> split_equals n = None /\ ((exists c, c <> "-"%char /\ n = letter c) \/ exists c s, n = ("--" ++ String c s)%string)) -> forall n o, In (n, o) os -> good_name n).
  { intros os H n o Hin. destruct (H n o Hin) as [A B]. split; [apply split_none; exact A|exact B]. }
  assert (L : forall os : options, forallb (fun no => match split_equals (fst no) with None => true | _ => false end && match fst no with
      | String a (String b "") => Ascii.eqb a "-" && negb (Ascii.eqb b "-") | String a (String b (String _ _)) => Ascii.eqb a "-" && Ascii.eqb b "-" | _ => false end)%bool os = true ->
    forall n o, In (n, o) os -> good_name n).
  { intros os Hf. apply H. intros n o Hin. rewrite forallb_forall in Hf. specialize (Hf _ Hin). cbn [fst] in Hf. apply andb_prop in Hf. destruct Hf as [A B].
    split; [destruct (split_equals n); [discriminate|reflexivity]|]. destruct n as [|a [|b [|d s]]]; try discriminate; apply andb_prop in B; destruct B as [B1 B2]; apply Ascii.eqb_eq in B1; subst a.
    - left. exists b. split; [|reflexivity]. intros ->. discriminate.
    - right. apply Ascii.eqb_eq in B2. subst b. exists d, s. reflexivity. }
  split; [|split; [|split]]; (split; [|apply L; vm_compute; reflexivity]); cbn; repeat (constructor; [cbn; intuition discriminate|]); constructor.
Qed.

Section Classify.
Variable negative : string -> bool.
Variable os : options.
Hypothesis Hgood : good os.

Lemma name_fun n o o' : In (n, o) os -> In (n, o') os -> o = o'.
Proof. intros H1 H2. apply (In_dget (proj1 Hgood)) in H1, H2. congruence. Qed.
Lemma get_name n o : dget os n = Some o <-> In (n, o) os.
Proof. apply dget_iff. apply Hgood. Qed.
Lemma get_none n : dget os n = None <-> ~ In n (dkeys os).
Proof.
  split.
  - intros H Hin. apply in_map_iff in Hin. destruct Hin as ([n' o] & <- & Hin). apply get_name in Hin. cbn in H. congruence.
  - intros H. destruct (dget os n) as [o|] eqn:Hd; [|reflexivity]. apply get_name in Hd. elim H. apply in_map_iff. exists (n, o). auto.
Qed.
Lemma dash_name n o : In (n, o) os -> exists c s, n = String "-" (String c s).
Proof. intros H. destruct (proj2 Hgood _ _ H) as [_ [(c & _ & ->)|(c & s & ->)]]; [exists c, ""; reflexivity|exists "-"%char, (String c s); reflexivity]. Qed.
Lemma short_name c s o : c <> "-"%char -> In (String "-" (String c s), o) os -> s = "".
Proof. intros Hc H. destruct (proj2 Hgood _ _ H) as [_ [(c' & _ & F)|(c' & s' & F)]]; injection F; intros; [assumption|congruence]. Qed.
Lemma name_no_equals n o : In (n, o) os -> no_equals n.
Proof. intros H. apply (proj2 Hgood _ _ H). Qed.
Lemma filter_one (P : string * opt -> bool) x : In x os -> P x = true -> (forall y, In y os -> P y = true -> fst y = fst x) -> filter P os = [x].
Proof.
  destruct Hgood as [Hnd _]. revert Hnd. generalize os as l. induction l as [|y l IH]; intros Hnd Hin Hp Hu; [destruct Hin|]. cbn [filter]. cbn in Hnd. apply NoDup_cons_iff in Hnd. destruct Hnd as [Hy Hnd].
  destruct Hin as [->|Hin].
  - rewrite Hp. f_equal. destruct (filter P l) as [|z r] eqn:Hf; [reflexivity|]. exfalso. assert (Hz : In z (filter P l)) by (rewrite Hf; left; reflexivity). apply filter_In in Hz. destruct Hz as [Hz Hpz].
    apply Hy. rewrite <- (Hu z (or_intror Hz) Hpz). apply in_map. exact Hz.
  - destruct (P y) eqn:Hpy; [|apply IH; auto; intros z Hz; apply Hu; right; exact Hz]. exfalso. apply Hy. rewrite (Hu y (or_introl eq_refl) Hpy). apply in_map. exact Hin.
Qed.
Lemma filter_single (P : string * opt -> bool) x : filter P os = [x] -> In x os /\ P x = true /\ forall y, In y os -> P y = true -> y = x.
Proof.
  intros H. assert (Hx : In x (filter P os)) by (rewrite H; left; reflexivity). apply filter_In in Hx. destruct Hx as [A B]. split; [exact A|]. split; [exact B|].
  intros y Hy Hp. assert (F : In y (filter P os)) by (apply filter_In; auto). rewrite H in F. destruct F as [F|[]]. auto.
Qed.
Lemma tuples_short c2 e : c2 <> "-"%char -> dget os (String "-" (String c2 e)) = None ->
  option_tuples os (String "-" (String c2 e)) = map (fun no => (fst no, snd no, Some (false, e))) (filter (fun no => String.eqb (fst no) (letter c2)) os).
Proof.
  intros Hc Hd. cbn [option_tuples]. rewrite (proj2 (Ascii.eqb_neq _ _) Hc). fold (letter c2).
  assert (H : forall l, incl l os -> flat_map (fun no => if String.eqb (fst no) (letter c2) then [(fst no, snd no, Some (false, e))]
      else if String.prefix (String "-" (String c2 e)) (fst no) then [(fst no, snd no, None)] else []) l = map (fun no => (fst no, snd no, Some (false, e))) (filter (fun no => String.eqb (fst no) (letter c2)) l)).
  { induction l as [|[n o] l IH]; intros Hi; [reflexivity|]. cbn [flat_map filter fst snd]. rewrite IH by (intros x Hx; apply Hi; right; exact Hx).
    destruct (String.eqb n (letter c2)) eqn:En; [reflexivity|]. destruct (String.prefix _ n) eqn:Ep; [|reflexivity]. exfalso.
    apply prefix_begins in Ep. destruct Ep as (r & ->). assert (Hin := Hi _ (or_introl eq_refl)). pose proof (short_name Hc Hin) as F.
    destruct e; [|discriminate]. cbn in F. subst r. apply String.eqb_neq in En. elim En. reflexivity. }
  apply H. intros x Hx. exact Hx.
Qed.
Lemma long_split p e w : w = (p ++ "=" ++ e)%string -> no_equals p -> begins "--" w -> begins "--" p.
Proof.
  intros -> Hp (r & H). destruct p as [|a [|b p]]; cbn in H; [discriminate|injection H as _ H; discriminate|]. injection H as -> -> _. exists p. reflexivity.
Qed.

Lemma tuples_touch w x : begins "-" w -> In x (option_tuples os w) -> touches os w.
Proof.
  intros (w' & ->) Hx. destruct w' as [|c2 e0]; [destruct Hx|]. change ("-" ++ String c2 e0)%string with (String "-" (String c2 e0)) in *. set (w := String "-" (String c2 e0)) in *.
  assert (Hpart : exists p, p = w /\ no_equals w \/ no_equals p /\ exists e, w = (p ++ "=" ++ e)%string).
  { destruct (split_equals w) as [[p e]|] eqn:Es; [apply split_some in Es; exists p; right; split; [apply Es|exists e; apply Es]|]. apply split_none in Es. exists w. auto. }
  unfold w in Hx. cbn [option_tuples] in Hx. fold w in Hx. destruct (Ascii.eqb c2 "-") eqn:Ec.
  - apply Ascii.eqb_eq in Ec. subst c2. assert (Hl : begins "--" w) by (exists e0; reflexivity). destruct (split_equals w) as [[p e]|] eqn:Es.
    + apply split_some in Es. destruct Es as [Hw Hp]. apply in_map_iff in Hx. destruct Hx as ([n o] & _ & Hin). apply filter_In in Hin. destruct Hin as [Hin Hb]. apply prefix_begins in Hb.
      exists n, o, p. split; [exact Hin|]. split; [right; split; [exact Hp|exists e; exact Hw]|]. right. left. split; [exact (long_split Hw Hp Hl)|exact Hb].
    + apply split_none in Es. apply in_map_iff in Hx. destruct Hx as ([n o] & _ & Hin). apply filter_In in Hin. destruct Hin as [Hin Hb]. apply prefix_begins in Hb.
      exists n, o, w. split; [exact Hin|]. split; [left; auto|]. right. left. auto.
  - apply Ascii.eqb_neq in Ec. destruct Hpart as (p & Hp). apply in_flat_map in Hx. destruct Hx as ([n o] & Hin & Hx). cbn [fst snd] in Hx. exists n, o, p. split; [exact Hin|]. split; [exact Hp|]. right. right.
    exists c2, e0. split; [exact Ec|]. split; [reflexivity|]. destruct (String.eqb n (String "-" (String c2 ""))) eqn:En; [apply String.eqb_eq in En; exact En|].
    destruct (String.prefix w n) eqn:Eb; [|destruct Hx]. apply prefix_begins in Eb. destruct Eb as (r & Hr). unfold w in Hr. cbn [append] in Hr. rewrite Hr in Hin |- *. rewrite (short_name Ec Hin). reflexivity.
Qed.

(** The four ways a word is taken. *)
Definition attached_letter (w n : string) (o : opt) (e : string) : Prop :=
  exists c c' s, c <> "-"%char /\ c' <> "="%char /\ e = String c' s /\ w = String "-" (String c e) /\ n = letter c /\ In (n, o) os.
Lemma classify_inv w : w <> "--" -> match classify negative os w with
  | KWord => plain negative os w
  | KOption n o None => no_equals w /\ names os w n o
  | KOption n o (Some (sep, e)) => sep = true /\ (exists p, w = (p ++ "=" ++ e)%string /\ no_equals p /\ names os p n o) \/ sep = false /\ attached_letter w n o e
  | _ => True end.
Proof.
  intros Hdd. unfold classify. destruct w as [|c1 w']; [split; [exact Hdd|]; left; intros (r & Hr); discriminate|].
  destruct (Ascii.eqb c1 "-") eqn:E1; cbn [negb].
  2:{ split; [exact Hdd|]. left. intros (r & Hr). injection Hr as -> _. discriminate. }
  apply Ascii.eqb_eq in E1. subst c1. set (w := String "-" w') in *.
  destruct (dget os w) as [o|] eqn:Ed.
  { apply get_name in Ed. split; [exact (name_no_equals Ed)|]. split; [exact Ed|left; reflexivity]. }
  destruct (String.eqb w' "") eqn:Ew. { apply String.eqb_eq in Ew. unfold w. rewrite Ew. split; [discriminate|]. right. left. reflexivity. }
  destruct w' as [|c2 e0]; [discriminate|].
  destruct (match split_equals w with Some (n, e) => match dget os n with Some o => Some (KOption n o (Some (true, e))) | None => None end | None => None end) as [k|] eqn:Ex.
  { destruct (split_equals w) as [[n e]|] eqn:Es; [|discriminate]. destruct (dget os n) as [o|] eqn:En; [|discriminate]. injection Ex as <-.
    apply split_some in Es. destruct Es as [Hw Hn]. apply get_name in En. left. split; [reflexivity|]. exists n. split; [exact Hw|]. split; [exact Hn|]. split; [exact En|left; reflexivity]. }
  assert (Hexact : forall p e, w = (p ++ "=" ++ e)%string -> no_equals p -> ~ In p (dkeys os)).
  { intros p e Hw Hp. apply get_none. rewrite (proj2 (split_some _ _ _) (conj Hw Hp)) in Ex. destruct (dget os p); [discriminate|reflexivity]. }
  destruct (Ascii.ascii_dec c2 "-") as [->|Hc2].
  - (* long *)
    assert (Hlong : begins "--" w) by (exists e0; reflexivity).
    unfold w in *. cbn [option_tuples]. rewrite Ascii.eqb_refl. fold w.
    destruct (split_equals w) as [[p e]|] eqn:Es.
    + apply split_some in Es. destruct Es as [Hw Hp]. destruct (filter (fun no => String.prefix p (fst no)) os) as [|[n o] [|y r]] eqn:Ef; cbn [map fst snd]; [|..|exact I].
      * destruct (negative w || has_space w)%bool eqn:Eb; [|exact I]. split; [exact Hdd|]. right. right. split; [apply Bool.orb_true_iff in Eb; rewrite space_spec in Eb; exact Eb|].
        intros (n & o & p' & Hin & Hp' & Hcase). assert (p' = p).
        { destruct Hp' as [[-> Hn]|[Hn (e' & He')]]; [elim (Hn p e); exact Hw|]. pose proof (proj2 (split_some _ _ _) (conj He' Hn)) as F. rewrite (proj2 (split_some _ _ _) (conj Hw Hp)) in F. injection F as -> _. reflexivity. }
        subst p'. destruct Hcase as [->|[[_ Hb]|(c & e' & Hc & Hw' & _)]].
        -- apply (Hexact p e Hw Hp). apply in_map_iff. exists (p, o). auto.
        -- assert (F : In (n, o) (filter (fun no => String.prefix p (fst no)) os)) by (apply filter_In; split; [exact Hin|apply prefix_begins; exact Hb]). rewrite Ef in F. exact F.
        -- unfold w in Hw'. injection Hw' as <- _. congruence.
      * apply filter_single in Ef. destruct Ef as (Hin & Hpre & Hu). cbn in Hpre. apply prefix_begins in Hpre. left. split; [reflexivity|]. exists p. split; [exact Hw|]. split; [exact Hp|]. split; [exact Hin|]. right.
        split; [exact (Hexact p e Hw Hp)|]. split; [exact (long_split Hw Hp Hlong)|]. split; [exact Hpre|]. intros n' o' Hin' Hb. assert (F := Hu (n', o') Hin' (proj2 (prefix_begins _ _) Hb)). injection F as -> _. reflexivity.
    + assert (Hne := proj1 (split_none _) Es). destruct (filter (fun no => String.prefix w (fst no)) os) as [|[n o] [|y r]] eqn:Ef; cbn [map fst snd]; [|..|exact I].
      * destruct (negative w || has_space w)%bool eqn:Eb; [|exact I]. split; [exact Hdd|]. right. right. split; [apply Bool.orb_true_iff in Eb; rewrite space_spec in Eb; exact Eb|].
        intros (n & o & p' & Hin & Hp' & Hcase). assert (p' = w) by (destruct Hp' as [[-> _]|[_ (e' & He')]]; [reflexivity|elim (Hne p' e'); exact He']).
        subst p'. destruct Hcase as [->|[[_ Hb]|(c & e' & Hc & Hw' & _)]].
        -- apply get_name in Hin. unfold w in Hin. congruence.
        -- assert (F : In (n, o) (filter (fun no => String.prefix w (fst no)) os)) by (apply filter_In; split; [exact Hin|apply prefix_begins; exact Hb]). rewrite Ef in F. exact F.
        -- unfold w in Hw'. injection Hw' as <- _. congruence.
      * apply filter_single in Ef. destruct Ef as (Hin & Hpre & Hu). cbn in Hpre. apply prefix_begins in Hpre. split; [exact Hne|]. split; [exact Hin|]. right.
        split; [apply get_none; exact Ed|]. split; [exact Hlong|]. split; [exact Hpre|]. intros n' o' Hin' Hb. assert (F := Hu (n', o') Hin' (proj2 (prefix_begins _ _) Hb)). injection F as -> _. reflexivity.
  - (* short *)
    unfold w in *. rewrite (tuples_short Hc2 Ed). destruct (filter (fun no => String.eqb (fst no) (letter c2)) os) as [|[n o] [|y r]] eqn:Ef; cbn [map fst snd]; [|..|exact I].
    + destruct (negative (String "-" (String c2 e0)) || has_space (String "-" (String c2 e0)))%bool eqn:Eb; [|exact I]. split; [exact Hdd|]. right. right. split; [apply Bool.orb_true_iff in Eb; rewrite space_spec in Eb; exact Eb|].
      intros (n & o & p' & Hin & Hp' & Hcase). assert (Hlet : n <> letter c2).
      { intros ->. assert (F : In (letter c2, o) (filter (fun no => String.eqb (fst no) (letter c2)) os)) by (apply filter_In; split; [exact Hin|apply String.eqb_refl]). rewrite Ef in F. exact F. }
      destruct Hcase as [->|[[(r & Hb) _]|(c & e' & Hc & Hw' & ->)]].
      * destruct Hp' as [[-> _]|[Hn (e' & He')]]; [apply get_name in Hin; congruence|]. apply (Hexact p' e' He' Hn). apply in_map_iff. exists (p', o). auto.
      * destruct Hp' as [[-> _]|[_ (e' & He')]]; [injection Hb as F; congruence|]. rewrite Hb in He'. injection He' as F. congruence.
      * injection Hw' as <- _. congruence.
    + apply filter_single in Ef. destruct Ef as (Hin & Hpre & _). cbn in Hpre. apply String.eqb_eq in Hpre. subst n. right. split; [reflexivity|].
      destruct e0 as [|c' s]; [apply get_name in Hin; unfold letter in Hin; congruence|]. exists c2, c', s. split; [exact Hc2|]. split; [|auto].
      intros ->. apply (Hexact (letter c2) s); [reflexivity|exact (name_no_equals Hin)|]. apply in_map_iff. exists (letter c2, o). auto.
Qed.

Lemma names_dash p n o : names os p n o -> exists w', p = String "-" w' /\ w' <> "".
Proof. intros [Hin [->|(_ & (r & ->) & _)]]; [destruct (dash_name Hin) as (c & s & ->)|]; eexists; split; try reflexivity; discriminate. Qed.
Lemma names_unique p n o : ~ In p (dkeys os) -> names os p n o -> filter (fun no => String.prefix p (fst no)) os = [(n, o)].
Proof.
  intros Hp [Hin [->|(_ & _ & Hb & Hu)]]; [elim Hp; apply in_map_iff; exists (n, o); auto|]. apply filter_one; [exact Hin|apply prefix_begins; exact Hb|].
  intros [n' o'] Hin' Hb'. cbn in *. apply (Hu n' o' Hin'). apply prefix_begins. exact Hb'.
Qed.
Lemma classify_name w n o : no_equals w -> names os w n o -> classify negative os w = KOption n o None.
Proof.
  intros Hw Hn. destruct (names_dash Hn) as (w' & Ew & Hw'). subst w. cbn [classify]. rewrite Ascii.eqb_refl. cbn [negb].
  destruct (dget os (String "-" w')) as [o'|] eqn:Hd.
  { apply get_name in Hd. destruct Hn as [Hin [Hx|(Hk & _)]]; [subst n; rewrite (name_fun Hd Hin); reflexivity|]. elim Hk. apply in_map_iff. exists (String "-" w', o'). auto. }
  destruct (String.eqb w' "") eqn:E; [apply String.eqb_eq in E; congruence|]. rewrite (proj2 (split_none _) Hw).
  assert (Hf := names_unique (proj1 (get_none _) Hd) Hn). destruct Hn as [Hin [Hx|(_ & (r & Hr) & _)]]; [subst n; apply get_name in Hin; congruence|].
  injection Hr as ->. cbn [option_tuples append]. rewrite Ascii.eqb_refl. cbn [append] in Hw, Hf. rewrite (proj2 (split_none _) Hw), Hf. reflexivity.
Qed.
Lemma classify_equals p n o e : no_equals p -> names os p n o -> classify negative os (p ++ "=" ++ e)%string = KOption n o (Some (true, e)).
Proof.
  intros Hp Hn. destruct (names_dash Hn) as (w' & Ew & Hw'). assert (Hs : split_equals (p ++ "=" ++ e)%string = Some (p, e)) by (apply split_some; auto).
  assert (Hd : dget os (p ++ "=" ++ e)%string = None).
  { apply get_none. intros F. apply in_map_iff in F. destruct F as ([x o'] & Hx & F). cbn in Hx. subst x. exact (name_no_equals F (a := p) (b := e) eq_refl). }
  revert Hs Hd. rewrite Ew. cbn [append]. intros Hs Hd. cbn [classify]. rewrite Ascii.eqb_refl. cbn [negb]. rewrite Hd.
  destruct (String.eqb (w' ++ String "=" e)%string "") eqn:E; [apply String.eqb_eq in E; destruct w'; discriminate|]. rewrite Hs. rewrite <- Ew in *.
  destruct (dget os p) as [o'|] eqn:Hdp.
  { apply get_name in Hdp. destruct Hn as [Hin [Hx|(Hk & _)]]; [subst n; rewrite (name_fun Hdp Hin); reflexivity|]. elim Hk. apply in_map_iff. exists (p, o'). auto. }
  assert (Hf := names_unique (proj1 (get_none _) Hdp) Hn). destruct Hn as [Hin [Hx|(_ & (r & Hr) & _)]]; [subst n; apply get_name in Hin; congruence|].
  rewrite Ew in Hr. injection Hr as ->. cbn [option_tuples append] in *. rewrite Ascii.eqb_refl, Hs, Hf. reflexivity.
Qed.
Lemma classify_letter c c' s o : c <> "-"%char -> c' <> "="%char -> In (letter c, o) os -> classify negative os (String "-" (String c (String c' s))) = KOption (letter c) o (Some (false, String c' s)).
Proof.
  intros Hc Hc' Hin. cbn [classify]. rewrite Ascii.eqb_refl. cbn [negb]. set (w := String "-" (String c (String c' s))).
  assert (Hd : dget os w = None). { apply get_none. intros F. apply in_map_iff in F. destruct F as ([x o'] & Hx & F). cbn in Hx. subst x. apply short_name in F; [discriminate|exact Hc]. }
  rewrite Hd. cbn [String.eqb].
  destruct (match split_equals w with Some (n, e) => match dget os n with Some o => Some (KOption n o (Some (true, e))) | None => None end | None => None end) as [k|] eqn:Ex.
  { exfalso. destruct (split_equals w) as [[n e]|] eqn:Es; [|discriminate]. destruct (dget os n) as [o'|] eqn:En; [|discriminate]. apply get_name in En. apply split_some in Es. destruct Es as [Hw _].
    destruct (dash_name En) as (x & r & ->). unfold w in Hw. injection Hw as <- Hw. rewrite (short_name Hc En) in Hw. injection Hw as F _. congruence. }
  unfold w. rewrite (tuples_short Hc Hd). rewrite (@filter_one _ (letter c, o)); [reflexivity|exact Hin|apply String.eqb_refl|]. intros y _ Hy. apply String.eqb_eq in Hy. exact Hy.
Qed.
Lemma classify_plain w : plain negative os w -> classify negative os w = KWord.
Proof.
  intros [Hdd [Hb|[->|[Hok Ht]]]].
  - destruct w as [|c w]; [reflexivity|]. cbn [classify]. destruct (Ascii.eqb c "-") eqn:E; [|reflexivity]. apply Ascii.eqb_eq in E. subst c. elim Hb. exists w. reflexivity.
  - cbn [classify]. rewrite Ascii.eqb_refl. cbn [negb]. destruct (dget os "-") as [o|] eqn:Hd; [apply get_name in Hd; destruct (dash_name Hd) as (c & s & F); discriminate|]. reflexivity.
  - pose proof (classify_inv Hdd) as H. destruct (classify negative os w) as [|n o [[sep e]|]| |] eqn:Hk; [reflexivity|..]; exfalso.
    + apply Ht. destruct H as [(_ & p & Hw & Hp & Hn)|(_ & c & c' & s & Hc & Hc' & -> & -> & -> & Hin)].
      * exists n, o, p. split; [exact (proj1 Hn)|]. split; [right; eauto|]. destruct Hn as [_ [->|(_ & A & B & _)]]; [left; reflexivity|right; left; auto].
      * destruct (split_equals (String "-" (String c (String c' s)))) as [[p e]|] eqn:Es.
        -- apply split_some in Es. destruct Es as [Hw Hp]. exists (letter c), o, p. split; [exact Hin|]. split; [right; eauto|]. right. right. exists c, (String c' s). auto.
        -- apply split_none in Es. exists (letter c), o, (String "-" (String c (String c' s))). split; [exact Hin|]. split; [left; auto|]. right. right. exists c, (String c' s). auto.
    + apply Ht. destruct H as [Hne Hn]. exists n, o, w. split; [exact (proj1 Hn)|]. split; [left; auto|]. destruct Hn as [_ [->|(_ & A & B & _)]]; [left; reflexivity|right; left; auto].
    + unfold classify in Hk. destruct w as [|c1 w']; [discriminate|]. destruct (negb _); [discriminate|]. destruct (dget os (String c1 w')); [discriminate|]. destruct (String.eqb w' ""); [discriminate|].
      destruct (match split_equals (String c1 w') with Some (n, e) => match dget os n with Some o => Some (KOption n o (Some (true, e))) | None => None end | None => None end) as [k|] eqn:Ex.
      { destruct (split_equals (String c1 w')) as [[n e]|]; [|discriminate]. destruct (dget os n); [|discriminate]. injection Ex as <-. discriminate. }
      destruct (option_tuples os (String c1 w')) as [|[[n o] e] [|y r]]; try discriminate.
      destruct (negative (String c1 w') || has_space (String c1 w'))%bool eqn:Eb; [discriminate|]. apply Bool.orb_false_iff in Eb. destruct Eb as [E1 E2]. destruct Hok as [Hok|Hok]; [congruence|]. apply space_spec in Hok. congruence.
    + apply Ht. unfold classify in Hk. destruct w as [|c1 w']; [discriminate|]. destruct (Ascii.eqb c1 "-") eqn:E1; [|discriminate]. apply Ascii.eqb_eq in E1. subst c1. cbn [negb] in Hk.
      destruct (dget os (String "-" w')); [discriminate|]. destruct (String.eqb w' ""); [discriminate|].
      destruct (match split_equals (String "-" w') with Some (n, e) => match dget os n with Some o => Some (KOption n o (Some (true, e))) | None => None end | None => None end) as [k|] eqn:Ex.
      { destruct (split_equals (String "-" w')) as [[n e]|]; [|discriminate]. destruct (dget os n); [|discriminate]. injection Ex as <-. discriminate. }
      destruct (option_tuples os (String "-" w')) as [|x [|y r]] eqn:Eo; [destruct (negative _ || _)%bool; discriminate|destruct x as [[n o] e]; discriminate|].
      apply (@tuples_touch _ x); [exists w'; reflexivity|rewrite Eo; left; reflexivity].
Qed.
End Classify.
