(** Inserting rows whose keys exist. *)
From Coq Require Import Lia.
From Verif Require Import Model.Base Model.Value Model.Names Model.PlanModel Model.Metadata Model.Filters Model.Multiply Model.Materialize Model.Dest Model.Output.
From Verif Require Import Spec.SchemaSpec Spec.OutputSpec Spec.ConflictSpec.
From Verif Require Import Proofs.BaseFacts Proofs.OutputRows Proofs.ConflictFacts Proofs.CopiesInsert.
Set Implicit Arguments.
Unset Strict Implicit.
Open Scope list_scope.

Lemma clash_cong k r r2 o : (forall x, In x k -> rget r x = rget r2 x) -> clash k r o = clash k r2 o.
Proof.
  intros H. unfold clash. assert (E1 : map (rget r) k = map (rget r2) k) by (apply map_ext_in; exact H). rewrite E1.
  assert (E2 : existsb (fun c => eqb (rget r c) VNull) k = existsb (fun c => eqb (rget r2 c) VNull) k).
  { clear E1. induction k as [|x k IH]; [reflexivity|]. cbn. rewrite (H x (or_introl eq_refl)), IH; [reflexivity|]. intros y Hy. apply H. now right. }
  rewrite E2. reflexivity.
Qed.
Lemma clashes_cong ks r r2 o : (forall key x, In key ks -> In x key -> rget r x = rget r2 x) -> clashes ks r o = clashes ks r2 o.
Proof.
  intros H. unfold clashes. induction ks as [|k ks IH]; [reflexivity|]. cbn. rewrite (@clash_cong k r r2 o), IH; [reflexivity| |].
  - intros key x Hk. apply H. now right.
  - intros x. apply H. now left.
Qed.
Lemma clash_self k r : k <> [] -> (forall x, In x k -> rget r x <> VNull) -> clash k r r = true.
Proof.
  intros Hk Hn. unfold clash. assert (E0 : existsb (fun c => eqb (rget r c) VNull) k = false).
  { clear Hk. induction k as [|x k IH]; [reflexivity|]. cbn. rewrite IH by (intros y Hy; apply Hn; now right). destruct (eqb (rget r x) VNull) eqn:Ee; [|reflexivity].
    elim (Hn x (or_introl eq_refl)). exact (proj1 (eqb_true _ _) Ee). }
  rewrite E0, eqb_refl. destruct k; [congruence|reflexivity].
Qed.

Lemma map_rget r o ks : map (rget r) ks = map (rget o) ks <-> forall k, In k ks -> rget r k = rget o k.
Proof. split; [|intros H; apply map_ext_in; exact H]. induction ks as [|k ks IH]; [intros _ k []|]. cbn. intros H x Hx. injection H as H1 H2. destruct Hx as [<-|Hx]; [exact H1|exact (IH H2 x Hx)]. Qed.

(** ** Two tables in step: rows agree in the columns [P], which contain the keys *)
Section Step.
Variable dflt : tname -> string -> list row -> row -> value.
Variable tb : table.
Notation all := (table_keys tb).
Variable P : string -> Prop.
Hypothesis HP : forall key k, In key all -> In k key -> P k.
Definition agrees_on (r r' : row) : Prop := forall k, P k -> rget r k = rget r' k.
Definition given_alike (x y : row) : Prop := forall k, P k -> In k (dkeys x) /\ In k (dkeys y) /\ In k (tb_cols tb) /\ rget x k = rget y k.

Lemma clash_cong2 key r r2 o o2 : (forall k, In k key -> P k) -> agrees_on r r2 -> agrees_on o o2 -> clash key r o = clash key r2 o2.
Proof.
  intros H Hr Ho. rewrite (@clash_cong key r r2 o) by (intros k Hk; exact (Hr k (H k Hk))). unfold clash.
  assert (E1 : map (rget o) key = map (rget o2) key) by (apply map_ext_in; intros k Hk; exact (Ho k (H k Hk))). rewrite E1. reflexivity.
Qed.
Lemma clashes_cong2 r r2 o o2 : agrees_on r r2 -> agrees_on o o2 -> clashes all r o = clashes all r2 o2.
Proof.
  intros Hr Ho. unfold clashes. assert (H : forall ks, incl ks all -> existsb (fun k => clash k r o) ks = existsb (fun k => clash k r2 o2) ks); [|apply H; apply incl_refl].
  induction ks as [|key ks IH]; intros Hi; [reflexivity|]. cbn. rewrite (@clash_cong2 key r r2 o o2), IH; [reflexivity| | |exact Hr|exact Ho].
  - intros k Hk. apply Hi. now right.
  - intros k. apply HP. apply Hi. now left.
Qed.
Lemma complete_alike l l' x y : given_alike x y -> agrees_on (complete dflt tb l x) (complete dflt tb l' y).
Proof.
  intros H k Hk. destruct (H k Hk) as (A & B & C & D). rewrite (proj2 (complete_made dflt tb l x) k A C), (proj2 (complete_made dflt tb l' y) k B C). exact D.
Qed.
Lemma left_out_step xs ys : Forall2 given_alike xs ys -> forall l l' m, Forall2 agrees_on l l' -> insert_rows dflt tb LeaveOut l xs = Some m ->
  exists m', insert_rows dflt tb LeaveOut l' ys = Some m' /\ Forall2 agrees_on m m'.
Proof.
  induction 1 as [|x y xs ys Hxy _ IH]; intros l l' m Hl H; cbn [insert_rows insert_row] in *; [injection H as <-; eauto|].
  assert (Ee : existsb (clashes all (complete dflt tb l x)) l = existsb (clashes all (complete dflt tb l' y)) l').
  { pose proof (complete_alike l l' Hxy) as Ha. revert Ha. generalize (complete dflt tb l x) (complete dflt tb l' y). intros r r2 Ha. clear - Hl Ha HP. induction Hl as [|o o2 l l' Ho _ IHl]; [reflexivity|]. cbn [existsb]. rewrite (clashes_cong2 Ha Ho), IHl. reflexivity. }
  rewrite <- Ee. destruct (existsb _ l); [exact (IH _ _ _ Hl H)|]. refine (IH _ _ _ _ H). apply Forall2_app; [exact Hl|]. constructor; [exact (complete_alike l l' Hxy)|constructor].
Qed.
Lemma insert_rows_split how xs : forall l ys m, insert_rows dflt tb how l (xs ++ ys) = Some m -> exists m1, insert_rows dflt tb how l xs = Some m1 /\ insert_rows dflt tb how m1 ys = Some m.
Proof.
  induction xs as [|x xs IH]; intros l ys m H; cbn [app insert_rows] in *; [eauto|]. destruct (insert_row tb how l (complete dflt tb l x)) as [l1|]; [|discriminate]. exact (IH _ _ _ H).
Qed.
End Step.

Section Rows.
Variable dflt : tname -> string -> list row -> row -> value.
Variable tb : table.
Notation all := (table_keys tb).

(** ** Rows with existing keys are left out *)
Lemma left_out_grow rs : forall l l', insert_rows dflt tb LeaveOut l rs = Some l' -> forall r, In r l -> In r l'.
Proof.
  induction rs as [|x rs IH]; intros l l' H r Hr; cbn [insert_rows insert_row] in H; [injection H as <-; exact Hr|].
  destruct (existsb _ _); apply (IH _ _ H); [exact Hr|apply in_or_app; now left].
Qed.
Lemma left_out_covers : tb_pk tb <> [] -> forall rs l l', insert_rows dflt tb LeaveOut l rs = Some l' ->
  (forall r k, In r l' -> In k (tb_pk tb) -> rget r k <> VNull) ->
  forall x, In x rs -> exists l0 r, In r l' /\ clashes all (complete dflt tb l0 x) r = true.
Proof.
  intros Hpk. induction rs as [|x rs IH]; intros l l' H Hn y Hy; cbn [insert_rows insert_row] in H; [elim Hy|].
  destruct (existsb (clashes all (complete dflt tb l x)) l) eqn:Ee.
  - destruct Hy as [<-|Hy]; [|exact (IH _ _ H Hn y Hy)]. apply existsb_exists in Ee. destruct Ee as (o & Ho & Hc). exists l, o. split; [exact (left_out_grow H Ho)|exact Hc].
  - destruct Hy as [<-|Hy]; [|exact (IH _ _ H Hn y Hy)]. assert (Hin : In (complete dflt tb l x) l') by (apply (left_out_grow H); apply in_or_app; right; now left).
    exists l, (complete dflt tb l x). split; [exact Hin|]. unfold clashes, table_keys. cbn [existsb]. rewrite clash_self; [reflexivity|exact Hpk|]. intros k. exact (Hn _ k Hin).
Qed.
Lemma left_out_same rs : forall l, (forall x l0, In x rs -> exists r, In r l /\ clashes all (complete dflt tb l0 x) r = true) -> insert_rows dflt tb LeaveOut l rs = Some l.
Proof.
  induction rs as [|x rs IH]; intros l H; cbn [insert_rows insert_row]; [reflexivity|].
  destruct (H x l (or_introl eq_refl)) as (r & Hr & Hc). assert (Ee : existsb (clashes all (complete dflt tb l x)) l = true) by (apply existsb_exists; eauto).
  rewrite Ee. apply IH. intros y l0 Hy. apply H. now right.
Qed.

(** ** Rows with existing keys are replaced *)
Variables (dl : dialect) (cols : list string) (how : on_conflict).
Hypothesis Hhow : conflict_insert dl SReplace tb cols = Ok how.
Hypothesis Hcols : incl cols (tb_cols tb).
Hypothesis Hpk : tb_pk tb <> [].
Hypothesis Hun : tb_uniques tb = [].
Notation keyof r := (map (rget r) (tb_pk tb)).

Lemma replace_how : incl (tb_pk tb) cols /\ (how = LeaveOut /\ incl cols (tb_pk tb) \/ exists a us, how = Update a us /\ forall k, In k cols -> In k (tb_pk tb) \/ In k us).
Proof.
  pose proof Hhow as Hh. unfold conflict_insert in Hh. destruct (is_nil (tb_pk tb)) eqn:En; [destruct (tb_pk tb); [congruence|discriminate]|].
  apply bind_Ok in Hh. destruct Hh as ([cs' np] & H1 & H2). apply bind_Ok in H1. destruct H1 as (np' & H1 & H3). injection H3 as H3 H4. subst np'.
  destruct (remove_keys_In dflt tb H1 (set_of_NoDup _)) as (A & B & Hnp). split; [intros k Hk; apply (proj1 (set_of_In cols k)); exact (B k Hk)|].
  destruct how as [| |a us] eqn:Eh.
  - destruct dl, cs'; try discriminate; destruct (is_nil np); discriminate.
  - left. split; [reflexivity|]. destruct (is_nil np) eqn:Enp; [|subst cs'; destruct dl; discriminate]. intros k Hk.
    destruct (in_dec string_dec k (tb_pk tb)) as [|Hx]; [assumption|]. assert (Hi : In k np) by (apply Hnp; split; [apply set_of_In; exact Hk|exact Hx]). destruct np; [elim Hi|discriminate].
  - right. exists a, us. split; [reflexivity|]. exact (proj2 (@how_update dflt tb dl SReplace cols (Update a us) Hhow Hcols a us eq_refl)).
Qed.

Lemma key_eq r o : keyof r = keyof o <-> forall k, In k (tb_pk tb) -> rget r k = rget o k.
Proof. apply map_rget. Qed.
Lemma complete_key l x : dkeys x = cols -> keyof (complete dflt tb l x) = keyof x.
Proof. intros Hx. apply key_eq. intros k Hk. apply (complete_get dflt Hcols l Hx). exact (proj1 replace_how k Hk). Qed.

(** One row: it is there afterwards, and rows with other keys stay. *)
Lemma replace_row l x l' : dkeys x = cols -> proper (keyof x) -> insert_row tb how l (complete dflt tb l x) = Some l' ->
  (exists o, In o l' /\ forall k, In k cols -> rget o k = rget x k) /\ (forall o, In o l -> keyof o <> keyof x -> In o l').
Proof.
  intros Hx Hp H. destruct replace_how as [Hkc Hh].
  assert (Happ : l' = l ++ [complete dflt tb l x] -> (exists o, In o l' /\ forall k, In k cols -> rget o k = rget x k) /\ (forall o, In o l -> keyof o <> keyof x -> In o l')).
  { intros ->. split; [|intros o Ho _; apply in_or_app; now left]. eexists. split; [apply in_or_app; right; left; reflexivity|]. intros k Hk. exact (complete_get dflt Hcols l Hx Hk). }
  destruct Hh as [[Eh Hi]|(a & us & Eh & Hus)]; rewrite Eh in H; unfold insert_row in H.
  - destruct (existsb _ _) eqn:Ee; injection H as <-; [|auto]. split; [|auto]. apply existsb_exists in Ee. destruct Ee as (o & Ho & Hc). exists o. split; [exact Ho|].
    unfold table_keys in Hc. rewrite Hun in Hc. intros k Hk. rewrite <- (clashes_pk Hc (Hi k Hk)). exact (complete_get dflt Hcols l Hx Hk).
  - assert (Hks : (if a then all else [tb_pk tb]) = [tb_pk tb]) by (unfold table_keys; rewrite Hun; destruct a; reflexivity). rewrite Hks in H.
    destruct (existsb _ l) eqn:Ee.
    + destruct (update_first_inv H) as (b & o & aft & -> & Hc & ->). cbn [app]. split.
      * eexists. split; [apply in_or_app; right; left; reflexivity|]. intros k Hk. rewrite set_columns_get. destruct (memb k us) eqn:Em; [exact (complete_get dflt Hcols _ Hx Hk)|].
        destruct (Hus k Hk) as [Hkp|Hu]; [rewrite <- (clashes_pk Hc Hkp); exact (complete_get dflt Hcols _ Hx Hk)|apply memb_true in Hu; congruence].
      * intros o' Ho Hne. apply in_app_or in Ho. destruct Ho as [Ho|[<-|Ho]]; [apply in_or_app; now left| |apply in_or_app; right; now right].
        elim Hne. rewrite <- (complete_key (b ++ o :: aft) Hx). apply key_eq. intros k Hk. symmetry. exact (clashes_pk Hc Hk).
    + clear Ee. destruct (existsb _ l); [discriminate|]. injection H as <-. auto.
Qed.
Lemma replace_covers : forall rs l l', (forall x, In x rs -> dkeys x = cols /\ proper (keyof x)) -> NoDup (map (fun r => keyof r) rs) -> insert_rows dflt tb how l rs = Some l' ->
  (forall x, In x rs -> exists o, In o l' /\ forall k, In k cols -> rget o k = rget x k) /\ (forall o, In o l -> ~ In (keyof o) (map (fun r => keyof r) rs) -> In o l').
Proof.
  induction rs as [|x rs IH]; intros l l' Hk Hnd H; cbn [insert_rows] in H; [injection H as <-; split; [intros x []|auto]|].
  destruct (insert_row tb how l (complete dflt tb l x)) as [l1|] eqn:E1; [|discriminate]. inversion Hnd as [|? ? Hni Hnd']. subst.
  destruct (IH l1 l' (fun y Hy => Hk y (or_intror Hy)) Hnd' H) as [A B]. destruct (Hk x (or_introl eq_refl)) as [Hx Hp]. destruct (replace_row Hx Hp E1) as [(o & Ho & Hg) C]. split.
  - intros y [<-|Hy]; [|exact (A y Hy)]. exists o. split; [|exact Hg]. apply (B o Ho). assert (Eo : keyof o = keyof x) by (apply key_eq; intros k Hkk; apply Hg; exact (proj1 replace_how k Hkk)). rewrite Eo. exact Hni.
  - intros o' Ho' Hn'. apply B; [apply C; [exact Ho'|]|]; intros F; apply Hn'; [left; symmetry; exact F|right; exact F].
Qed.

(** Replacing rows by themselves: columns [P] do not change. *)
Variable P : string -> Prop.
Hypothesis HPk : forall k, In k (tb_pk tb) -> P k.
Definition alike (r r' : row) : Prop := forall k, P k -> rget r k = rget r' k.
Lemma alike_key r r' : alike r r' -> keyof r = keyof r'.
Proof. intros H. apply key_eq. intros k Hk. exact (H k (HPk Hk)). Qed.
Lemma Forall2_alike_keyed l l' key : Forall2 alike l l' -> Forall2 alike (keyed tb key l) (keyed tb key l').
Proof.
  induction 1 as [|r r' l l' Hr _ IH]; [constructor|]. unfold keyed in *. cbn. rewrite (alike_key Hr). destruct (eqb _ key); [constructor; assumption|assumption].
Qed.
Lemma replace_same : forall rs l0 l l', (forall x, In x rs -> dkeys x = cols /\ proper (keyof x) /\ exists o, In o l0 /\ forall k, P k -> In k cols /\ rget o k = rget x k) ->
  keys_unique tb l0 -> Forall2 alike l0 l -> insert_rows dflt tb how l rs = Some l' -> Forall2 alike l0 l'.
Proof.
  induction rs as [|x rs IH]; intros l0 l l' Hk Hu Hl H; cbn [insert_rows] in H; [injection H as <-; exact Hl|].
  destruct (insert_row tb how l (complete dflt tb l x)) as [l1|] eqn:E1; [|discriminate]. apply (IH l0 l1 l' (fun y Hy => Hk y (or_intror Hy)) Hu); [|exact H]. clear IH H.
  destruct (Hk x (or_introl eq_refl)) as (Hx & Hp & o & Ho & Hg).
  assert (Hc0 : existsb (clashes [tb_pk tb] (complete dflt tb l x)) l = true).
  { destruct (Forall2_In_l Hl Ho) as (o' & Ho' & Ha). apply existsb_exists. exists o'. split; [exact Ho'|].
    assert (Ek : keyof (complete dflt tb l x) = keyof o') by (rewrite (complete_key l Hx), <- (alike_key Ha); symmetry; apply key_eq; intros k Hkk; exact (proj2 (Hg k (HPk Hkk)))).
    unfold clashes. cbn [existsb]. rewrite orb_false_r. rewrite (@clash_cong (tb_pk tb) (complete dflt tb l x) o' o').
    - apply clash_self; [exact Hpk|]. intros k Hkk F. apply Hp. rewrite <- (complete_key l Hx), Ek. rewrite <- F. apply in_map. exact Hkk.
    - intros k Hkk. exact (proj1 (key_eq _ _) Ek k Hkk). }
  assert (Hks : all = [tb_pk tb]) by (unfold table_keys; now rewrite Hun).
  destruct replace_how as [_ [[Eh _]|(a & us & Eh & Hus)]]; rewrite Eh in E1; unfold insert_row in E1.
  - rewrite Hks, Hc0 in E1. injection E1 as <-. exact Hl.
  - assert (Hka : (if a then all else [tb_pk tb]) = [tb_pk tb]) by (rewrite Hks; destruct a; reflexivity). rewrite Hka, Hc0 in E1.
    destruct (update_first_inv E1) as (b & o1 & aft & -> & Hc & ->). cbn [app].
    apply Forall2_app_inv_r in Hl. destruct Hl as (b0 & m0 & Hb & Hm & ->). assert (Hm' : exists o0 aft0, m0 = o0 :: aft0 /\ alike o0 o1 /\ Forall2 alike aft0 aft) by (clear - Hm; inversion Hm; subst; eauto).
    destruct Hm' as (o0 & aft0 & -> & Ho0 & Haft). apply Forall2_app; [exact Hb|]. constructor; [|exact Haft].
    assert (Eo : o0 = o).
    { assert (Hkx : keyof o0 = keyof x).
      { rewrite (alike_key Ho0), <- (complete_key (b ++ o1 :: aft) Hx). symmetry. apply key_eq. intros k Hkk. exact (clashes_pk Hc Hkk). }
      assert (Hko : keyof o = keyof x) by (apply key_eq; intros k Hkk; exact (proj2 (Hg k (HPk Hkk)))).
      specialize (Hu (keyof x) Hp). assert (H0 : In o0 (keyed tb (keyof x) (b0 ++ o0 :: aft0))) by (apply filter_In; split; [apply in_or_app; right; now left|rewrite Hkx; apply eqb_refl]).
      assert (H1 : In o (keyed tb (keyof x) (b0 ++ o0 :: aft0))) by (apply filter_In; split; [exact Ho|rewrite Hko; apply eqb_refl]).
      destruct (keyed tb (keyof x) (b0 ++ o0 :: aft0)) as [|y [|z q]]; [elim H0| |cbn in Hu; lia]. destruct H0 as [<-|[]], H1 as [<-|[]]. reflexivity. }
    subst o0. intros k Hpk'. rewrite set_columns_get. destruct (memb k us); [|exact (Ho0 k Hpk')]. destruct (Hg k Hpk') as [Hkc Hv]. rewrite Hv. symmetry. exact (complete_get dflt Hcols _ Hx Hkc).
Qed.
End Rows.

(** An interrupted sequence of rows, and then all of them again. *)
Lemma left_out_resumed dflt tb (P : string -> Prop) pa ra xs p2 q2 l0 LA l1 : (forall key k, In key (table_keys tb) -> In k key -> P k) -> tb_pk tb <> [] ->
  insert_rows dflt tb LeaveOut l0 (pa ++ ra) = Some LA -> (forall r k, In r LA -> In k (tb_pk tb) -> rget r k <> VNull) ->
  insert_rows dflt tb LeaveOut l0 xs = Some l1 -> Forall2 (given_alike tb P) pa xs -> Forall2 (given_alike tb P) pa p2 -> Forall2 (given_alike tb P) ra q2 ->
  exists L2, insert_rows dflt tb LeaveOut l1 (p2 ++ q2) = Some L2 /\ Forall2 (agrees_on P) LA L2.
Proof.
  intros HP Hpk HA Hnn H1 Hpx Hp2 Hq2. destruct (insert_rows_split HA) as (M1 & HM & HR).
  assert (Hrefl : Forall2 (agrees_on P) l0 l0) by (clear; induction l0; constructor; [intros k _; reflexivity|assumption]).
  destruct (left_out_step HP Hpx Hrefl HM) as (l1' & H1' & Hal). rewrite H1 in H1'. injection H1' as <-.
  assert (Hsame : insert_rows dflt tb LeaveOut l1 p2 = Some l1).
  { apply left_out_same. intros y l Hy. destruct (Forall2_In_r Hp2 Hy) as (x & Hx & Hxy).
    destruct (left_out_covers Hpk HM (fun r k Hr => Hnn r k (left_out_grow HR Hr)) Hx) as (l3 & r & Hr & Hc). destruct (Forall2_In_l Hal Hr) as (r' & Hr' & Hrr).
    exists r'. split; [exact Hr'|]. rewrite <- Hc. symmetry. apply (clashes_cong2 HP); [apply complete_alike; exact Hxy|exact Hrr]. }
  assert (Happ : forall xs ys l m, insert_rows dflt tb LeaveOut l xs = Some m -> insert_rows dflt tb LeaveOut l (xs ++ ys) = insert_rows dflt tb LeaveOut m ys).
  { clear. induction xs as [|x xs IH]; intros ys l m H; cbn [app insert_rows] in *; [congruence|]. destruct (insert_row tb LeaveOut l (complete dflt tb l x)) as [l1|]; [|discriminate]. exact (IH _ _ _ H). }
  rewrite (Happ _ q2 _ _ Hsame). exact (left_out_step HP Hq2 Hal HR).
Qed.
