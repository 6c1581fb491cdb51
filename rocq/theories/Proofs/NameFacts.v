(** Table names: parsing inverts rendering (C70). *)
From Verif Require Import Model.Base Model.Value Model.Names Model.Metadata Spec.SchemaSpec Proofs.BaseFacts.
Set Implicit Arguments.
Unset Strict Implicit.
Open Scope string_scope.
Open Scope list_scope.

Lemma split_dot_Some s a b : split_dot s = Some (a, b) <-> s = (a ++ "." ++ b)%string /\ no_dot a.
Proof.
  revert a b. induction s as [|c s IH]; intros a b; cbn [split_dot].
  - split; [discriminate|]. intros [Hs _]. destruct a; discriminate.
  - destruct (Ascii.eqb c ".") eqn:Ec.
    + apply Ascii.eqb_eq in Ec. subst c. split.
      * intros Hx. inversion Hx; subst. split; [reflexivity|]. intros x y Hxy. destruct x; discriminate.
      * intros [Hs Hn]. destruct a as [|c' a]; cbn in Hs.
        -- inversion Hs; subst. reflexivity.
        -- inversion Hs; subst. exfalso. apply (Hn "" a). reflexivity.
    + assert (Hc : c <> "."%char) by (intros ->; discriminate). split.
      * intros Hx. destruct (split_dot s) as [[a' b']|] eqn:Es; [|discriminate]. inversion Hx; subst.
        destruct (proj1 (IH a' b) eq_refl) as [Hs Hn]. split; [cbn; f_equal; exact Hs|].
        intros x y Hxy. destruct x as [|cx x]; cbn in Hxy; inversion Hxy; [congruence|].
        apply (Hn x y). assumption.
      * intros [Hs Hn]. destruct a as [|c' a]; cbn in Hs; inversion Hs as [[Hc' Hs']]; [congruence|].
        assert (Es : split_dot s = Some (a, b)).
        { apply IH. split; [exact Hs'|]. intros x y ->. apply (Hn (String c' x) y). reflexivity. }
        rewrite <- Hs', Es. congruence.
Qed.

Lemma parse_named s n : parse_table_name s = Some n <-> named s n.
Proof. destruct n as [a b]. unfold parse_table_name, named. cbn [fst snd]. apply split_dot_Some. Qed.

Lemma named_fun s n n' : named s n -> named s n' -> n = n'.
Proof. intros H1 H2. apply parse_named in H1, H2. congruence. Qed.
Lemma named_render n : no_dot (fst n) -> named (render n) n.
Proof. intros Hn. split; [reflexivity|exact Hn]. Qed.
Lemma named_eq s n : named s n -> s = render n.
Proof. intros [Hs _]. exact Hs. Qed.
Lemma parse_render n : no_dot (fst n) -> parse_table_name (render n) = Some n.
Proof. intros Hn. apply parse_named, named_render, Hn. Qed.
Lemma render_inj n n' : no_dot (fst n) -> no_dot (fst n') -> render n = render n' -> n = n'.
Proof. intros Hn Hn' He. eapply named_fun; [apply named_render; exact Hn|]. rewrite He. apply named_render. exact Hn'. Qed.

Lemma split_dot_None s : split_dot s = None <-> no_dot s.
Proof.
  split.
  - intros Hs a b ->.
    assert (Hex : forall a, exists x y, split_dot (a ++ "." ++ b) = Some (x, y)).
    { clear. induction a as [|c a IH]; [exists "", b; reflexivity|]. cbn [append split_dot].
      destruct (Ascii.eqb c "."); [eauto|]. destruct IH as (x & y & Hxy). cbn [append] in Hxy. rewrite Hxy. eauto. }
    destruct (Hex a) as (x & y & Hxy). congruence.
  - intros Hn. destruct (split_dot s) as [[a b]|] eqn:Es; [|reflexivity]. apply split_dot_Some in Es.
    destruct Es as [-> _]. exfalso. apply (Hn a b). reflexivity.
Qed.
Lemma render_nonempty n : render n <> "".
Proof. unfold render. destruct (fst n); discriminate. Qed.
