(** The reader takes for flags and numbers exactly what is a way to write them. *)
From Coq Require Import Ascii Decimal DecimalString Lia.
From Coq Require Qcanon.
From Verif Require Import Model.Base Model.Value Model.PlanModel Model.Config Model.PlanIO.
From Verif Require Import Spec.ScalarSpec Proofs.BaseFacts.
Set Implicit Arguments.
Unset Strict Implicit.
Open Scope string_scope.
Open Scope list_scope.

Lemma valid_ok A (o : option A) a : valid o = Ok a <-> o = Some a.
Proof. destruct o; cbn; split; congruence. Qed.

(** ** Words *)
Lemma lower_cases c : lower_letter c = c \/ exists d, lower_letter c = d /\ 97 <= nat_of_ascii d <= 122 /\ c = ascii_of_nat (nat_of_ascii d - 32).
Proof.
  unfold lower_letter. destruct ((Nat.leb 65 (nat_of_ascii c)) && (Nat.leb (nat_of_ascii c) 90)) eqn:E; [right|left; reflexivity].
  apply andb_prop in E. destruct E as [E1 E2]. apply Nat.leb_le in E1, E2. eexists. split; [reflexivity|].
  rewrite nat_ascii_embedding by lia. split; [lia|]. replace (nat_of_ascii c + 32 - 32) with (nat_of_ascii c) by lia. now rewrite ascii_nat_embedding.
Qed.
Lemma lower_capital c : 97 <= nat_of_ascii c <= 122 -> lower_letter (ascii_of_nat (nat_of_ascii c - 32)) = c.
Proof.
  intros H. unfold lower_letter. rewrite nat_ascii_embedding by lia.
  replace (Nat.leb 65 (nat_of_ascii c - 32)) with true by (symmetry; apply Nat.leb_le; lia).
  replace (Nat.leb (nat_of_ascii c - 32) 90) with true by (symmetry; apply Nat.leb_le; lia). cbn [andb].
  replace (nat_of_ascii c - 32 + 32) with (nat_of_ascii c) by lia. apply ascii_nat_embedding.
Qed.
Lemma lower_small c : 97 <= nat_of_ascii c <= 122 -> lower_letter c = c.
Proof. intros H. unfold lower_letter. replace (Nat.leb (nat_of_ascii c) 90) with false by (symmetry; apply Nat.leb_gt; lia). now rewrite andb_false_r. Qed.
Lemma lower_up s : forall w, lower_word s = w -> up_to_case s w.
Proof.
  induction s as [|c s IH]; intros w <-; [constructor|]. cbn. destruct (lower_cases c) as [->|(d & -> & Hd & ->)]; constructor; auto.
Qed.
Lemma up_lower s w : up_to_case s w -> lower_word s = lower_word w.
Proof. induction 1 as [|c s w _ IH|c s w Hc _ IH]; cbn; [reflexivity|now rewrite IH|]. now rewrite lower_capital, lower_small, IH. Qed.
Lemma words_small b w : In w (words b) -> lower_word w = w.
Proof. destruct b; cbn; intros H; repeat (destruct H as [<-|H]; [reflexivity|]); destruct H. Qed.
Lemma flag_word_ok s b : flag_word s = Some b <-> exists w, In w (words b) /\ up_to_case s w.
Proof.
  unfold flag_word. split.
  - intros H. exists (lower_word s). split; [|now apply lower_up].
    destruct (memb (lower_word s) ["0"; "off"; "f"; "false"; "n"; "no"]) eqn:E; [injection H as <-; apply memb_true in E; cbn in *; tauto|].
    destruct (memb (lower_word s) ["1"; "on"; "t"; "true"; "y"; "yes"]) eqn:E'; [injection H as <-; apply memb_true in E'; cbn in *; tauto|discriminate].
  - intros (w & Hw & Hs). apply up_lower in Hs. rewrite (words_small Hw) in Hs. rewrite Hs. clear Hs s.
    destruct b; cbn in Hw; repeat (destruct Hw as [<-|Hw]; [reflexivity|]); destruct Hw.
Qed.
Lemma flag_int_ok z b : flag_int z = Some b <-> z = one_or_zero b.
Proof. destruct z as [|[p|p|]|p], b; cbn; split; congruence. Qed.

(** ** Numbers *)
Lemma whole_ok q z : whole q = Some z <-> (q == inject_Z z)%Q.
Proof.
  unfold whole. split.
  - destruct (Qden (Qred q)) eqn:E; try discriminate. intros [= <-]. rewrite <- (Qred_correct q) at 1. destruct (Qred q) as [n d]. cbn in *. subst d. reflexivity.
  - intros H. apply Qred_complete in H. rewrite H, Qcanon.Qred_identity by (cbn; apply Z.gcd_1_r). reflexivity.
Qed.
Lemma int_text_ok s z : int_text s = Some z <-> exists i, s = NilZero.string_of_int i /\ i <> Pos Nil /\ i <> Neg Nil /\ z = Z.of_int i.
Proof.
  unfold int_text. split.
  - destruct (NilZero.int_of_string s) as [i|] eqn:E; [|discriminate]. intros [= <-]. exists i. split; [symmetry; now apply NilZero.sis|]. split; [|split; [|reflexivity]].
    + intros ->. destruct s as [|c s]; [discriminate|]. unfold NilZero.int_of_string in E. destruct (Ascii.eqb c "-"); [destruct (NilZero.uint_of_string s); discriminate|].
      destruct (NilZero.uint_of_string (String c s)) eqn:U; [|discriminate]. injection E as ->. exact (NilZero.uint_of_string_nonnil _ U).
    + intros ->. destruct s as [|c s]; [discriminate|]. unfold NilZero.int_of_string in E. destruct (Ascii.eqb c "-"); [|destruct (NilZero.uint_of_string (String c s)); discriminate].
      destruct (NilZero.uint_of_string s) eqn:U; [|discriminate]. injection E as ->. exact (NilZero.uint_of_string_nonnil _ U).
  - intros (i & -> & P & N & ->). now rewrite NilZero.isi.
Qed.

Lemma cut_some s : forall a b, cut_point s = Some (a, b) -> s = (a ++ "." ++ b)%string.
Proof.
  induction s as [|c s IH]; intros a b; [discriminate|]. cbn. destruct (Ascii.eqb c "."%char) eqn:E.
  - intros [= <- <-]. apply Ascii.eqb_eq in E. now subst c.
  - destruct (cut_point s) as [(a', b')|]; [|discriminate]. intros [= <- <-]. cbn. now rewrite (IH _ _ eq_refl).
Qed.
Lemma cut_app a b : cut_point a = None -> cut_point (a ++ "." ++ b) = Some (a, b).
Proof.
  induction a as [|c a IH]; [reflexivity|]. cbn. destruct (Ascii.eqb c "."%char); [discriminate|]. destruct (cut_point a); [discriminate|]. intros _. cbn in IH. now rewrite IH.
Qed.
Lemma uint_no_point u : cut_point (NilEmpty.string_of_uint u) = None.
Proof. induction u; cbn; try rewrite IHu; reflexivity. Qed.
Lemma int_no_point i : cut_point (NilZero.string_of_int i) = None.
Proof.
  assert (H : forall u, cut_point (NilZero.string_of_uint u) = None) by (intros [|u|u|u|u|u|u|u|u|u|u]; [reflexivity|apply uint_no_point..]).
  destruct i as [u|u]; cbn; [apply H|]. now rewrite H.
Qed.
Lemma int_string s i : NilZero.int_of_string s = Some i -> s = NilZero.string_of_int i /\ i <> Pos Nil /\ i <> Neg Nil.
Proof.
  intros E. assert (T : int_text s = Some (Z.of_int i)) by (unfold int_text; now rewrite E). split; [symmetry; now apply NilZero.sis|].
  split; intros ->; destruct s as [|c s]; try discriminate E; unfold NilZero.int_of_string in E; destruct (Ascii.eqb c "-");
    match type of E with option_map _ ?o = _ => destruct o eqn:U end; try discriminate E; injection E as ->; exact (NilZero.uint_of_string_nonnil _ U).
Qed.
Lemma float_text_ok s q : float_text s = Some q <->
  (exists i, s = NilZero.string_of_int i /\ i <> Pos Nil /\ i <> Neg Nil /\ q = inject_Z (Z.of_int i)) \/
  exists i u, s = (NilZero.string_of_int i ++ "." ++ NilZero.string_of_uint u)%string /\ i <> Pos Nil /\ i <> Neg Nil /\ u <> Nil /\
    q = Qred (Z.of_int (app_int i u) # Pos.pow 10 (Pos.of_nat (nb_digits u))).
Proof.
  unfold float_text. split.
  - destruct (cut_point s) as [(a, b)|] eqn:C.
    + destruct (NilZero.int_of_string a) as [i|] eqn:A; [|discriminate]. destruct (NilZero.uint_of_string b) as [u|] eqn:B; [|discriminate]. intros [= <-].
      right. exists i, u. apply cut_some in C. apply int_string in A. destruct A as (-> & P & N). split; [|split; [exact P|split; [exact N|split; [|reflexivity]]]].
      * rewrite C. now rewrite (NilZero.sus _ _ B).
      * intros ->. exact (NilZero.uint_of_string_nonnil _ B).
    + destruct (int_text s) as [z|] eqn:E; [|discriminate]. intros [= <-]. left. apply int_text_ok in E. destruct E as (i & -> & P & N & ->). exists i. auto.
  - intros [(i & -> & P & N & ->)|(i & u & -> & P & N & U & ->)].
    + rewrite int_no_point. unfold int_text. now rewrite NilZero.isi.
    + rewrite cut_app by apply int_no_point. now rewrite NilZero.isi, NilZero.usu.
Qed.

(** ** Readers *)
Theorem as_bool_ok d b : as_bool d = Ok b <-> spells_flag d b.
Proof.
  unfold spells_flag. destruct d as [|c|z|q|s|l|m]; cbn [as_bool].
  all: try (split; [discriminate|intros [H|[H|[(q' & H & _)|(s' & w & H & _)]]]; discriminate H]).
  - split; [intros [= ->]; auto|intros [H|[H|[(q' & H & _)|(s' & w & H & _)]]]; congruence].
  - rewrite valid_ok, flag_int_ok. split; [intros ->; auto|intros [H|[H|[(q' & H & _)|(s' & w & H & _)]]]; congruence].
  - transitivity (exists z, whole q = Some z /\ z = one_or_zero b).
    + destruct (whole q) as [z|]; [rewrite valid_ok, flag_int_ok; split; [eauto|intros (? & [= <-] & E); exact E]|split; [discriminate|intros (? & [=] & _)]].
    + split; [intros (z & Hz & ->); apply whole_ok in Hz; right; right; left; exists q; auto|intros [H|[H|[(q' & H & E)|(s' & w & H & _)]]]; try discriminate H]. injection H as <-. apply whole_ok in E. eauto.
  - rewrite valid_ok, flag_word_ok. split; [intros (w & Hw & Hs); right; right; right; exists s, w; auto|intros [H|[H|[(q' & H & _)|(s' & w & H & Hw & Hs)]]]; try congruence]. injection H as <-. eauto.
Qed.
Theorem as_int_ok d z : as_int d = Ok z <-> spells_number d z.
Proof.
  unfold spells_number. destruct d as [|c|z'|q|s|l|m]; cbn [as_int].
  all: try (split; [discriminate|intros [H|[(b & H & _)|[(q' & H & _)|(i & H & _)]]]; discriminate H]).
  - split; [intros [= <-]; right; left; exists c; auto|intros [H|[(b & [= <-] & ->)|[(q' & H & _)|(i & H & _)]]]; try discriminate H; reflexivity].
  - split; [intros [= ->]; auto|intros [H|[(b & H & _)|[(q' & H & _)|(i & H & _)]]]; congruence].
  - rewrite valid_ok, whole_ok. split; [intros H; right; right; left; exists q; auto|intros [H|[(b & H & _)|[(q' & [= <-] & E)|(i & H & _)]]]; try discriminate H; exact E].
  - rewrite valid_ok, int_text_ok. split; [intros (i & -> & H); right; right; right; exists i; auto|intros [H|[(b & H & _)|[(q' & H & _)|(i & [= ->] & H)]]]; try discriminate H; exists i; auto].
Qed.
Theorem as_float_ok d q : as_float d = Ok q <-> spells_decimal d q.
Proof.
  unfold spells_decimal. destruct d as [|c|z'|q'|s|l|m]; cbn [as_float].
  all: try (split; [discriminate|intros [H|[(b & H & _)|[(i & H & _)|(i & u & H & _)]]]; discriminate H]).
  - split; [intros [= <-]; eauto|intros [H|[(z & [= <-] & ->)|[(i & H & _)|(i & u & H & _)]]]; try discriminate H; reflexivity].
  - split; [intros [= <-]; auto|intros [H|[(b & H & _)|[(i & H & _)|(i & u & H & _)]]]; congruence].
  - rewrite valid_ok, float_text_ok. split.
    + intros [(i & -> & H)|(i & u & -> & H)]; right; right; [left; exists i; auto|right; exists i, u; auto].
    + intros [H|[(b & H & _)|[(i & [= ->] & H)|(i & u & [= ->] & H)]]]; try discriminate H; [left; exists i; auto|right; exists i, u; auto].
Qed.
Lemma scalars_no_fuel d : as_bool d <> Err LxFuel /\ as_int d <> Err LxFuel /\ as_float d <> Err LxFuel.
Proof.
  assert (V : forall A (o : option A), valid o <> Err LxFuel) by (intros A [a|]; discriminate).
  destruct d as [|c|z|q|s|l|m]; cbn; repeat split; try discriminate; try apply V. destruct (whole q); [apply V|discriminate].
Qed.
