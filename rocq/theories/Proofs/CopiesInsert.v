(** What is in a table after INSERTs: old rows, given rows; rows can still be found by their primary key. *)
From Coq Require Import Lia.
From Verif Require Import Model.Base Model.Value Model.Names Model.PlanModel Model.Metadata Model.Filters Model.Multiply Model.Materialize Model.Dest Model.Output.
From Verif Require Import Spec.SchemaSpec Spec.OutputSpec Spec.ConflictSpec.
From Verif Require Import Proofs.BaseFacts Proofs.OutputRows Proofs.ConflictFacts.
Set Implicit Arguments.
Unset Strict Implicit.
Open Scope list_scope.

Lemma update_first_inv all ks cs r : forall after before l', update_first all ks cs r before after = Some l' ->
  exists b o a, after = b ++ o :: a /\ clashes ks r o = true /\ l' = before ++ b ++ set_columns cs o r :: a.
Proof.
  induction after as [|o after IH]; intros before l' H; cbn [update_first] in H; [discriminate|]. destruct (clashes ks r o) eqn:Ec.
  - destruct (existsb _ _); [discriminate|]. injection H as <-. exists [], o, after. repeat split. exact Ec.
  - destruct (IH _ _ H) as (b & o' & a & -> & Hc & ->). exists (o :: b), o', a. split; [reflexivity|]. split; [exact Hc|]. rewrite <- app_assoc. reflexivity.
Qed.
Lemma clash_key k r o : clash k r o = true -> forall x, In x k -> rget r x = rget o x.
Proof.
  unfold clash. intros H x Hx. apply andb_prop in H. destruct H as [_ H]. apply (proj1 (eqb_true _ _)) in H. revert H Hx. induction k as [|y k IH]; [intros _ []|]. cbn. intros H [<-|Hx]; injection H; auto.
Qed.
Lemma clashes_pk tb r o : clashes [tb_pk tb] r o = true -> forall x, In x (tb_pk tb) -> rget r x = rget o x.
Proof. unfold clashes. cbn. rewrite orb_false_r. apply clash_key. Qed.

Section Insert.
Variable dflt : tname -> string -> list row -> row -> value.
Variables (tb : table) (dl : dialect) (cs : strategy) (cols : list string) (how : on_conflict).
Hypothesis Hhow : conflict_insert dl cs tb cols = Ok how.
Hypothesis Hcols : incl cols (tb_cols tb).

Lemma complete_get l x k : dkeys x = cols -> In k cols -> rget (complete dflt tb l x) k = rget x k.
Proof. intros Hx Hk. apply (proj2 (complete_made dflt tb l x)); [rewrite Hx; exact Hk|exact (Hcols Hk)]. Qed.

(** The columns an update sets. *)
Lemma how_update a us : how = Update a us -> cs = SReplace /\ forall k, In k cols -> In k (tb_pk tb) \/ In k us.
Proof.
  intros ->. unfold conflict_insert in Hhow. destruct (is_nil (tb_pk tb)) eqn:En; cbn [bind] in Hhow.
  - destruct dl; discriminate.
  - apply bind_Ok in Hhow. destruct Hhow as ([cs' np] & H1 & H2). apply bind_Ok in H1. destruct H1 as (np' & H1 & H3). injection H3 as H3 H4. subst np'. 
    assert (H1b := remove_keys_In dflt tb H1 (set_of_NoDup _)). clear H1. rename H1b into H1. destruct H1 as (_ & _ & Hnp).
    assert (Ecs : cs' = SReplace) by (destruct dl, cs'; try discriminate; reflexivity). rewrite Ecs in H2, H3. split; [destruct cs; try discriminate; reflexivity|].
    intros k Hk. destruct (in_dec string_dec k (tb_pk tb)) as [Hp|Hp]; [now left|right].
    assert (Hin : In k np) by (apply Hnp; split; [apply set_of_In; exact Hk|exact Hp]).
    destruct dl; try discriminate; cbn in H2; inversion H2; subst us; [exact Hin|exact Hin|exact (Hcols Hk)].
Qed.
Lemma how_fail : cs = SError -> how = Fail.
Proof.
  intros ->. unfold conflict_insert in Hhow. destruct (is_nil (tb_pk tb)); cbn [bind] in Hhow.
  - destruct dl; now injection Hhow as <-.
  - apply bind_Ok in Hhow. destruct Hhow as ([s np] & Hx & Hy). apply bind_Ok in Hx. destruct Hx as (u & _ & Hx). injection Hx as <- <-. destruct dl; now injection Hy as <-.
Qed.

Lemma set_all_given us o r k : (forall k, In k cols -> In k (tb_pk tb) \/ In k us) -> (forall x, In x (tb_pk tb) -> rget r x = rget o x) -> In k cols ->
  rget (set_columns us o r) k = rget r k.
Proof.
  intros Hus Hpk Hk. rewrite set_columns_get. destruct (memb k us) eqn:Em; [reflexivity|]. destruct (Hus k Hk) as [Hp|Hu]; [symmetry; exact (Hpk k Hp)|]. apply memb_true in Hu. congruence.
Qed.

Lemma row_added l x l' : (cs = SReplace -> tb_uniques tb = []) -> dkeys x = cols -> insert_row tb how l (complete dflt tb l x) = Some l' ->
  forall r, In r l' -> In r l \/ forall k, In k cols -> rget r k = rget x k.
Proof.
  intros Hu Hx H r Hr.
  assert (Happ : In r (l ++ [complete dflt tb l x]) -> In r l \/ forall k, In k cols -> rget r k = rget x k).
  { intros Hi. apply in_app_or in Hi. destruct Hi as [Hi|[<-|[]]]; [now left|right]. intros k Hk. exact (complete_get l Hx Hk). }
  pose proof how_update as Hup. destruct how as [| |a us]; unfold insert_row in H; cbn beta iota zeta in H.
  - destruct (existsb _ _); [discriminate|]. injection H as <-. auto.
  - destruct (existsb _ _); injection H as <-; auto.
  - destruct (Hup _ _ eq_refl) as [Ecs Hus]. specialize (Hu Ecs).
    assert (Hks : (if a then table_keys tb else [tb_pk tb]) = [tb_pk tb]) by (unfold table_keys; rewrite Hu; destruct a; reflexivity). rewrite Hks in H.
    destruct (existsb (clashes [tb_pk tb] _) l).
    + destruct (update_first_inv H) as (b & o & aft & -> & Hc & ->). cbn [app] in Hr. apply in_app_or in Hr. destruct Hr as [Hr|[<-|Hr]]; [left; apply in_or_app; now left| |left; apply in_or_app; right; now right].
      right. intros k Hk. rewrite (set_all_given Hus (clashes_pk Hc) Hk). exact (complete_get _ Hx Hk).
    + destruct (existsb _ _); [discriminate|]. injection H as <-. auto.
Qed.
Lemma rows_added : (cs = SReplace -> tb_uniques tb = []) -> forall rs l l', (forall x, In x rs -> dkeys x = cols) -> insert_rows dflt tb how l rs = Some l' ->
  forall r, In r l' -> In r l \/ exists x, In x rs /\ forall k, In k cols -> rget r k = rget x k.
Proof.
  intros Hu. induction rs as [|x rs IH]; intros l l' Hk H r Hr; cbn [insert_rows] in H.
  - injection H as <-. now left.
  - destruct (insert_row tb how l (complete dflt tb l x)) as [l1|] eqn:E1; [|discriminate]. destruct (IH l1 l' (fun y Hy => Hk y (or_intror Hy)) H r Hr) as [Hi|(y & Hy & Hg)].
    + destruct (row_added Hu (Hk x (or_introl eq_refl)) E1 Hi) as [Hl|Hg]; [now left|right]. exists x. split; [now left|exact Hg].
    + right. exists y. split; [now right|exact Hg].
Qed.

Variable P : list string.
Hypothesis HP : cs = SError \/ incl P (tb_pk tb) /\ tb_uniques tb = [].
Lemma row_found l x l' : dkeys x = cols -> insert_row tb how l (complete dflt tb l x) = Some l' ->
  (forall o, In o l -> exists r, In r l' /\ forall k, In k P -> rget r k = rget o k) /\
  exists r, In r l' /\ forall k, In k P -> In k cols -> rget r k = rget x k.
Proof.
  intros Hx H.
  assert (Happ : l' = l ++ [complete dflt tb l x] -> (forall o, In o l -> exists r, In r l' /\ forall k, In k P -> rget r k = rget o k) /\
    exists r, In r l' /\ forall k, In k P -> In k cols -> rget r k = rget x k).
  { intros ->. split; [intros o Ho; exists o; split; [apply in_or_app; now left|reflexivity]|]. eexists. split; [apply in_or_app; right; left; reflexivity|]. intros k _ Hk. exact (complete_get l Hx Hk). }
  destruct HP as [Hcs|[Hi Hu]].
  - rewrite (how_fail Hcs) in H. unfold insert_row in H. destruct (existsb _ _); [discriminate|]. injection H as <-. auto.
  - assert (Hks : forall a : bool, (if a then table_keys tb else [tb_pk tb]) = [tb_pk tb]) by (intros a; unfold table_keys; rewrite Hu; destruct a; reflexivity). pose proof (Hks true) as Hk1. cbn iota in Hk1.
    pose proof how_update as Hup. destruct how as [| |a us]; unfold insert_row in H; cbn beta iota zeta in H; rewrite ?Hks, Hk1 in H.
    + destruct (existsb _ _); [discriminate|]. injection H as <-. auto.
    + destruct (existsb _ _) eqn:Ee; injection H as <-; [|auto]. split; [intros o Ho; exists o; split; [exact Ho|reflexivity]|].
      apply existsb_exists in Ee. destruct Ee as (o & Ho & Hc). exists o. split; [exact Ho|]. intros k Hk Hkc. rewrite <- (clashes_pk Hc (Hi _ Hk)). exact (complete_get l Hx Hkc).
    + destruct (Hup _ _ eq_refl) as [Ecs Hus].
      destruct (existsb _ _) eqn:Ee; [|injection H as <-; auto].
      destruct (update_first_inv H) as (b & o & aft & -> & Hc & ->). cbn [app].
      assert (Hpk : forall k, In k (tb_pk tb) -> rget (set_columns us o (complete dflt tb (b ++ o :: aft) x)) k = rget o k).
      { intros k Hk. rewrite set_columns_get. destruct (memb k us); [|reflexivity]. exact (clashes_pk Hc Hk). }
      split.
      * intros o' Ho. apply in_app_or in Ho. destruct Ho as [Ho|[<-|Ho]].
        -- exists o'. split; [apply in_or_app; now left|reflexivity].
        -- eexists. split; [apply in_or_app; right; left; reflexivity|]. intros k Hk. exact (Hpk k (Hi _ Hk)).
        -- exists o'. split; [apply in_or_app; right; now right|reflexivity].
      * eexists. split; [apply in_or_app; right; left; reflexivity|]. intros k Hk Hkc. rewrite (set_all_given Hus (clashes_pk Hc) Hkc). exact (complete_get _ Hx Hkc).
Qed.
Lemma rows_found : forall rs l l', (forall x, In x rs -> dkeys x = cols) -> insert_rows dflt tb how l rs = Some l' ->
  (forall o, In o l -> exists r, In r l' /\ forall k, In k P -> rget r k = rget o k) /\
  forall x, In x rs -> exists r, In r l' /\ forall k, In k P -> In k cols -> rget r k = rget x k.
Proof.
  induction rs as [|x rs IH]; intros l l' Hk H; cbn [insert_rows] in H.
  - injection H as <-. split; [intros o Ho; exists o; split; [exact Ho|reflexivity]|intros x []].
  - destruct (insert_row tb how l (complete dflt tb l x)) as [l1|] eqn:E1; [|discriminate]. destruct (IH l1 l' (fun y Hy => Hk y (or_intror Hy)) H) as [A B].
    destruct (row_found (Hk x (or_introl eq_refl)) E1) as [C (r & Hr & Hg)]. split.
    + intros o Ho. destruct (C o Ho) as (r1 & Hr1 & Hg1). destruct (A r1 Hr1) as (r2 & Hr2 & Hg2). exists r2. split; [exact Hr2|]. intros k Hp. rewrite (Hg2 k Hp). exact (Hg1 k Hp).
    + intros y [<-|Hy]; [|exact (B y Hy)]. destruct (A r Hr) as (r2 & Hr2 & Hg2). exists r2. split; [exact Hr2|]. intros k Hp Hc. rewrite (Hg2 k Hp). exact (Hg k Hp Hc).
Qed.
End Insert.
