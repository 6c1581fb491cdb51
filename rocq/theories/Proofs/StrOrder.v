(** Python's [<] on str, as the lexicographic order of code units, is a strict total order. *)
From Verif Require Import Proofs.GraphFacts.

Lemma ascii_compare_N (a b : ascii) : Ascii.compare a b = N.compare (N_of_ascii a) (N_of_ascii b).
Proof. reflexivity. Qed.
Lemma N_of_ascii_inj (a b : ascii) : N_of_ascii a = N_of_ascii b -> a = b.
Proof. intros E. rewrite <- (ascii_N_embedding a), <- (ascii_N_embedding b). now rewrite E. Qed.

Lemma string_compare_refl (s : string) : String.compare s s = Eq.
Proof.
  induction s as [|a s IH]; cbn; auto. rewrite ascii_compare_N, N.compare_refl. auto.
Qed.
Lemma string_lt_trans (s1 s2 s3 : string) :
  String.compare s1 s2 = Lt -> String.compare s2 s3 = Lt -> String.compare s1 s3 = Lt.
Proof.
  revert s2 s3. induction s1 as [|a s1 IH]; intros [|b s2] [|c s3]; cbn; try congruence.
  rewrite !ascii_compare_N.
  destruct (N.compare_spec (N_of_ascii a) (N_of_ascii b)) as [E1|E1|E1]; try congruence;
  destruct (N.compare_spec (N_of_ascii b) (N_of_ascii c)) as [E2|E2|E2]; try congruence; intros H1 H2;
  destruct (N.compare_spec (N_of_ascii a) (N_of_ascii c)) as [E3|E3|E3]; try congruence; try lia.
  eauto.
Qed.
Lemma string_ltb_total : strict_total String.ltb.
Proof.
  unfold String.ltb. repeat split.
  - intros x. now rewrite string_compare_refl.
  - intros x y z. destruct (String.compare x y) eqn:E1; try discriminate.
    destruct (String.compare y z) eqn:E2; try discriminate. now rewrite (string_lt_trans _ _ _ E1 E2).
  - intros x y Hne. destruct (String.compare x y) eqn:E; auto.
    + apply String.compare_eq_iff in E. contradiction.
    + right. rewrite String.compare_antisym, E. reflexivity.
Qed.
