From Coq Require Import Lia.
From Verif Require Import Model.Base Model.Value Model.Metadata Model.Dest Model.Output Spec.ConflictSpec Proofs.BaseFacts.
Set Implicit Arguments.
Unset Strict Implicit.
Open Scope list_scope.

Section Conflict.
Variable dflt : tname -> string -> list row -> row -> value.
Variable t : table.
Hypothesis pk_some : tb_pk t <> [].
Hypothesis no_unique : tb_uniques t = [].

Definition keyof (r : row) : list value := map (rget r) (tb_pk t).

Lemma keyed_In k r l : In r (keyed t k l) <-> In r l /\ keyof r = k.
Proof. unfold keyed. rewrite filter_In. unfold keyof. rewrite eqb_true. reflexivity. Qed.
Lemma keyed_app k l l' : keyed t k (l ++ l') = keyed t k l ++ keyed t k l'.
Proof. unfold keyed. apply filter_app. Qed.
Lemma keyed_cons k r l : keyed t k (r :: l) = (if eq_dec (keyof r) k then [r] else []) ++ keyed t k l.
Proof. unfold keyed. cbn [filter]. unfold eqb, keyof. destruct (eq_dec (map (rget r) (tb_pk t)) k); reflexivity. Qed.
Lemma keyed_one k r : keyed t k [r] = if eq_dec (keyof r) k then [r] else [].
Proof. rewrite keyed_cons. cbn. now rewrite app_nil_r. Qed.

Lemma clash_pk x o : clashes (table_keys t) x o = true <-> proper (keyof x) /\ keyof x = keyof o.
Proof.
  unfold table_keys. rewrite no_unique. unfold clashes. cbn [existsb]. rewrite Bool.orb_false_r. unfold clash.
  rewrite !Bool.andb_true_iff. rewrite !Bool.negb_true_iff. unfold keyof. rewrite eqb_true. unfold proper.
  assert (Hn : is_nil (tb_pk t) = false) by (destruct (tb_pk t); [congruence|reflexivity]). rewrite Hn.
  assert (He : existsb (fun c => eqb (rget x c) VNull) (tb_pk t) = false <-> ~ In VNull (map (rget x) (tb_pk t))).
  { split.
    - intros H Hi. apply in_map_iff in Hi. destruct Hi as (c & Hc & Hi).
      assert (existsb (fun c => eqb (rget x c) VNull) (tb_pk t) = true); [|congruence].
      apply existsb_exists. exists c. rewrite Hc. split; [exact Hi|apply eqb_refl].
    - intros H. destruct (existsb _ _) eqn:E; [|reflexivity]. apply existsb_exists in E. destruct E as (c & Hi & Hc).
      apply (proj1 (eqb_true _ _)) in Hc. exfalso. apply H. rewrite <- Hc. now apply in_map. }
  rewrite He. tauto.
Qed.
Lemma clash_any x l : existsb (clashes (table_keys t) x) l = true <-> proper (keyof x) /\ keyed t (keyof x) l <> [].
Proof.
  rewrite existsb_exists. split.
  - intros (o & Ho & Hc). apply clash_pk in Hc. destruct Hc as (Hp & Hk). split; [exact Hp|].
    intros E. assert (H : In o (keyed t (keyof x) l)) by (apply keyed_In; auto). rewrite E in H. destruct H.
  - intros (Hp & Hk). destruct (keyed t (keyof x) l) as [|o q] eqn:E; [congruence|].
    assert (H : In o (keyed t (keyof x) l)) by (rewrite E; now left). apply keyed_In in H. exists o. split; [apply H|].
    apply clash_pk. split; [exact Hp|]. symmetry. apply H.
Qed.
Lemma clash_none x l : existsb (clashes (table_keys t) x) l = false -> proper (keyof x) -> keyed t (keyof x) l = [].
Proof.
  intros H Hp. destruct (keyed t (keyof x) l) eqn:E; [reflexivity|].
  assert (existsb (clashes (table_keys t) x) l = true); [|congruence]. apply clash_any. split; [exact Hp|]. rewrite E. discriminate.
Qed.

Lemma rget_dset (r : row) c v c' : rget (dset r c v) c' = if eq_dec c' c then v else rget r c'.
Proof.
  unfold rget, dget_or. destruct (eq_dec c' c) as [->|Hne]; [now rewrite dget_dset_eq|now rewrite (dget_dset_ne _ _ Hne)].
Qed.
Lemma set_columns_get cs : forall old new c, rget (set_columns cs old new) c = if memb c cs then rget new c else rget old c.
Proof.
  unfold set_columns. induction cs as [|c0 cs IH]; intros old new c; cbn [fold_left]; [reflexivity|].
  rewrite IH, rget_dset, memb_cons. unfold eqb. destruct (eq_dec c c0) as [->|Hne].
  - cbn [orb]. now destruct (memb c0 cs).
  - cbn [orb]. reflexivity.
Qed.

Lemma complete_made l g : made_of t g (complete dflt t l g).
Proof.
  unfold made_of, complete. split.
  - unfold dkeys. rewrite map_map. apply map_id.
  - intros c Hg Hc. unfold rget at 1, dget_or.
    assert (H : forall cs (f : string -> value), In c cs -> dget (map (fun c => (c, f c)) cs) c = Some (f c)).
    { intros cs f. induction cs as [|c0 cs IH]; [intros []|]. intros Hi. cbn [map dget].
      destruct (eq_dec c c0) as [->|Hne].
      - destruct (eq_dec c0 c0); congruence.
      - destruct (eq_dec c0 c); [congruence|]. apply IH. destruct Hi as [E|Hi]; [congruence|exact Hi]. }
    rewrite (H _ (fun c => match dget g c with Some v => v | None => dflt (tb_name t) c l g end) Hc).
    unfold rget, dget_or. destruct (dget g c) eqn:E; [reflexivity|].
    apply dget_None in E. contradiction.
Qed.

(** Updating the row with the key of [x]. *)
Lemma update_first_spec cs x : (forall o, keyof o = keyof x -> keyof (set_columns cs o x) = keyof x) -> proper (keyof x) ->
  forall aft bef, keys_unique t (bef ++ aft) -> keyed t (keyof x) bef = [] -> keyed t (keyof x) aft <> [] ->
  exists l' o, update_first (table_keys t) (table_keys t) cs x bef aft = Some l' /\ keyed t (keyof x) aft = [o] /\
    keyed t (keyof x) l' = [set_columns cs o x] /\ (forall k, k <> keyof x -> keyed t k l' = keyed t k (bef ++ aft)).
Proof.
  intros Hset Hp aft. induction aft as [|o aft IH]; intros bef Hu Hb Ha; [exfalso; apply Ha; reflexivity|].
  cbn [update_first]. destruct (clashes (table_keys t) x o) eqn:Ec.
  - apply clash_pk in Ec. destruct Ec as (_ & Ek). pose proof (Hset o (eq_sym Ek)) as Hk.
    assert (Hrest : keyed t (keyof x) (bef ++ aft) = []).
    { pose proof (Hu _ Hp) as Hlen. rewrite keyed_app, keyed_cons, Hb in Hlen.
      destruct (eq_dec (keyof o) (keyof x)) as [_|Hne]; [|congruence]. cbn [app length] in Hlen.
      rewrite keyed_app, Hb. cbn [app]. destruct (keyed t (keyof x) aft); [reflexivity|cbn in Hlen; lia]. }
    destruct (existsb (clashes (table_keys t) (set_columns cs o x)) (bef ++ aft)) eqn:Ex.
    + apply clash_any in Ex. destruct Ex as (_ & Ex). rewrite Hk in Ex. contradiction.
    + exists (bef ++ set_columns cs o x :: aft), o. split; [reflexivity|].
      rewrite keyed_app, Hb in Hrest. cbn [app] in Hrest.
      rewrite keyed_cons, keyed_app, keyed_cons, Hb, Hrest, !app_nil_r, Hk, <- Ek.
      destruct (eq_dec (keyof x) (keyof x)) as [_|Hne]; [|congruence].
      split; [reflexivity|]. split; [reflexivity|].
      intros k Hne. rewrite !keyed_app, !keyed_cons, Hk, <- Ek. destruct (eq_dec (keyof x) k); [congruence|reflexivity].
  - assert (Hno : keyof o <> keyof x).
    { intros E. assert (clashes (table_keys t) x o = true); [|congruence]. apply clash_pk. auto. }
    assert (Hl : bef ++ o :: aft = (bef ++ [o]) ++ aft) by now rewrite <- app_assoc.
    assert (Hb' : keyed t (keyof x) (bef ++ [o]) = []).
    { rewrite keyed_app, Hb, keyed_one. destruct (eq_dec (keyof o) (keyof x)); [contradiction|reflexivity]. }
    assert (Ha' : keyed t (keyof x) aft = keyed t (keyof x) (o :: aft)).
    { rewrite keyed_cons. destruct (eq_dec (keyof o) (keyof x)); [contradiction|reflexivity]. }
    rewrite Hl in Hu. rewrite <- Ha' in Ha. destruct (IH _ Hu Hb' Ha) as (l' & o' & H1 & H2 & H3 & H4).
    exists l', o'. rewrite Hl, <- Ha'. auto.
Qed.

(** One row with any way of resolving conflicts. *)
Definition settles (how : on_conflict) : Prop :=
  match how with
  | Update _ cs => forall o x, keyof o = keyof x -> keyof (set_columns cs o x) = keyof x
  | _ => True
  end.
Lemma insert_row_spec how l x : settles how -> keys_unique t l ->
  match insert_row t how l x with
  | None => how = Fail /\ proper (keyof x) /\ keyed t (keyof x) l <> []
  | Some l' =>
      (forall k, k <> keyof x -> keyed t k l' = keyed t k l) /\
      (proper (keyof x) ->
       match keyed t (keyof x) l with
       | [] => keyed t (keyof x) l' = [x]
       | o :: _ => match how with
                   | Fail => False
                   | LeaveOut => keyed t (keyof x) l' = [o]
                   | Update _ cs => keyed t (keyof x) l' = [set_columns cs o x]
                   end
       end)
  end.
Proof.
  intros Hs Hu.
  assert (Happ : (forall k, k <> keyof x -> keyed t k (l ++ [x]) = keyed t k l) /\
                 (keyed t (keyof x) l = [] -> keyed t (keyof x) (l ++ [x]) = [x])).
  { split.
    - intros k Hk. rewrite keyed_app, keyed_one. destruct (eq_dec (keyof x) k); [congruence|]. apply app_nil_r.
    - intros H. rewrite keyed_app, keyed_one, H. destruct (eq_dec (keyof x) (keyof x)); [reflexivity|congruence]. }
  destruct Happ as (Hap1 & Hap2).
  assert (Hnew : existsb (clashes (table_keys t) x) l = false ->
                 (forall k, k <> keyof x -> keyed t k (l ++ [x]) = keyed t k l) /\
                 (proper (keyof x) -> keyed t (keyof x) l = [] /\ keyed t (keyof x) (l ++ [x]) = [x])).
  { intros E. split; [exact Hap1|]. intros Hp. pose proof (clash_none E Hp) as Hn. split; [exact Hn|]. apply Hap2; exact Hn. }
  assert (Hone : existsb (clashes (table_keys t) x) l = true -> proper (keyof x) /\ exists o, keyed t (keyof x) l = [o]).
  { intros E. apply clash_any in E. destruct E as (Hp & Hk). split; [exact Hp|]. pose proof (Hu _ Hp) as Hlen.
    destruct (keyed t (keyof x) l) as [|o [|o2 q]]; [congruence|exists o; reflexivity|cbn in Hlen; lia]. }
  destruct how as [| |any cs]; unfold insert_row; cbn beta iota zeta.
  - destruct (existsb (clashes (table_keys t) x) l) eqn:E.
    + destruct (Hone eq_refl) as (Hp & o & Ho). split; [reflexivity|]. split; [exact Hp|]. rewrite Ho. discriminate.
    + destruct (Hnew eq_refl) as (H1 & H2). split; [exact H1|]. intros Hp. destruct (H2 Hp) as (H3 & H4). rewrite H3. exact H4.
  - destruct (existsb (clashes (table_keys t) x) l) eqn:E.
    + destruct (Hone eq_refl) as (Hp & o & Ho). split; [reflexivity|]. intros _. rewrite Ho. reflexivity.
    + destruct (Hnew eq_refl) as (H1 & H2). split; [exact H1|]. intros Hp. destruct (H2 Hp) as (H3 & H4). rewrite H3. exact H4.
  - assert (Hks : (if any then table_keys t else [tb_pk t]) = table_keys t).
    { unfold table_keys. rewrite no_unique. destruct any; reflexivity. }
    rewrite Hks. destruct (existsb (clashes (table_keys t) x) l) eqn:E.
    + destruct (Hone eq_refl) as (Hp & o & Ho).
      destruct (@update_first_spec cs x (fun o => Hs o x) Hp l []) as (l' & o' & H1 & H2 & H3 & H4).
      * exact Hu.
      * reflexivity.
      * rewrite Ho. discriminate.
      * rewrite H1, H2. split; [exact H4|]. intros _. exact H3.
    + destruct (Hnew eq_refl) as (H1 & H2). split; [exact H1|]. intros Hp. destruct (H2 Hp) as (H3 & H4). rewrite H3. exact H4.
Qed.
Lemma insert_row_unique how l x l' : settles how -> keys_unique t l -> insert_row t how l x = Some l' -> keys_unique t l'.
Proof.
  intros Hs Hu Hi k Hk. pose proof (@insert_row_spec how l x Hs Hu) as H. rewrite Hi in H. destruct H as (H1 & H2).
  destruct (eq_dec k (keyof x)) as [E|Hne]; [|rewrite (H1 _ Hne); apply Hu; exact Hk].
  subst k. specialize (H2 Hk). destruct (keyed t (keyof x) l) as [|o q]; [rewrite H2; cbn; lia|].
  destruct how; [destruct H2|rewrite H2; cbn; lia|rewrite H2; cbn; lia].
Qed.

(** The strategies of the program. *)
Variables (dl : dialect) (cs : strategy) (cols : list string) (how : on_conflict).
Hypothesis Hhow : conflict_insert dl cs t cols = Ok how.
Hypothesis Hcols : incl cols (tb_cols t).
Hypothesis Hlite : dl = SQLite -> cs = SReplace -> incl (tb_cols t) cols.

(** What the statement does with a row whose key exists. *)
Lemma remove_keys_In : forall ks s s', forM remove_key ks s = Ok s' -> NoDup s ->
  NoDup s' /\ incl ks s /\ forall c, In c s' <-> In c s /\ ~ In c ks.
Proof.
  induction ks as [|k ks IH]; intros s s' H Hnd; cbn [forM] in H.
  - inv H. split; [exact Hnd|]. split; [intros ? []|]. intros c. cbn. tauto.
  - apply bind_Ok in H. destruct H as (s1 & H1 & H2). unfold remove_key in H1.
    destruct (memb k s) eqn:Em; [|discriminate]. inv H1.
    assert (Hin : forall c, In c (set_remove k s) <-> In c s /\ c <> k).
    { intros c. apply set_remove_In. }
    assert (Hnd1 : NoDup (set_remove k s)) by (apply set_remove_NoDup; exact Hnd).
    destruct (IH _ _ H2 Hnd1) as (Hn & Hi & Hc).
    split; [exact Hn|]. split.
    + intros c [E|Hc']; [subst c; now apply memb_true|]. apply Hi in Hc'. apply Hin in Hc'. apply Hc'.
    + intros c. rewrite Hc, Hin. cbn. firstorder congruence.
Qed.

Definition strategy_eq (a b : strategy) : {a = b} + {a <> b}.
Proof. decide equality. Defined.
Definition how_ok : Prop :=
  match cs, how with
  | SError, Fail => True
  | SSkip, LeaveOut => True
  | SReplace, LeaveOut => incl cols (tb_pk t)
  | SReplace, Update _ us => forall c, ~ In c (tb_pk t) -> (In c us <-> In c cols)
  | _, _ => False
  end.
Lemma how_facts : incl (tb_pk t) cols /\ how_ok /\ settles how.
Proof.
  unfold how_ok. unfold conflict_insert in Hhow.
  assert (Hn : is_nil (tb_pk t) = false) by (destruct (tb_pk t); [congruence|reflexivity]). rewrite Hn in Hhow.
  pose proof Hhow as Hhow'. apply bind_Ok in Hhow'. destruct Hhow' as ((cs' & np) & H1 & H2). apply bind_Ok in H1. destruct H1 as (np' & H1 & H3).
  apply remove_keys_In in H1. 2: { apply set_of_NoDup. } destruct H1 as (Hnd & Hinc & Hnp).
  assert (Hs : forall us, (forall c, In c us -> ~ In c (tb_pk t)) -> settles (Update true us) /\ settles (Update false us)).
  { intros us Hus.
    assert (forall o x, keyof o = keyof x -> keyof (set_columns us o x) = keyof x).
    { intros o x E. rewrite <- E. unfold keyof. apply map_ext_in. intros c Hc. rewrite set_columns_get.
      destruct (memb c us) eqn:Em; [|reflexivity]. apply memb_true in Em. exfalso. exact (Hus _ Em Hc). }
    split; assumption. }
  assert (Hall : forall a us, settles (Update a us)).
  { intros a us o x E. unfold keyof in *. apply map_ext_in. intros c Hc. rewrite set_columns_get.
    destruct (memb c us); [reflexivity|].
    assert (forall l, In c l -> map (rget o) l = map (rget x) l -> rget o c = rget x c).
    { induction l as [|c0 l IHl]; [intros []|]. intros Hi Hm. cbn in Hm. injection Hm as Hm1 Hm2.
      destruct Hi as [->|Hi]; [exact Hm1|apply IHl; assumption]. }
    eauto. }
  split; [intros c Hc; apply Hinc in Hc; exact (proj1 (set_of_In _ _) Hc)|].
  assert (Hnp' : forall c, In c np' <-> In c cols /\ ~ In c (tb_pk t)).
  { intros c. rewrite Hnp, set_of_In. reflexivity. }
  injection H3 as H3 H4. subst np'. clear Hhow.
  assert (Hcs : forall cs', match dl, cs' with
    | _, SError => how = Fail
    | OtherDialect, _ => False
    | _, SSkip => how = LeaveOut
    | MySQL, SReplace => how = Update true np
    | PostgreSQL, SReplace => how = Update false np
    | SQLite, SReplace => how = Update false (tb_cols t)
    end \/ cs' <> match cs with SReplace => if is_nil np then SSkip else SReplace | _ => cs end).
  { intros cs0. destruct (strategy_eq cs0 (match cs with SReplace => if is_nil np then SSkip else SReplace | _ => cs end)) as [E|Hne]; [|right; exact Hne].
    left. rewrite E, H3. destruct dl, cs'; congruence. }
  destruct (Hcs (match cs with SReplace => if is_nil np then SSkip else SReplace | _ => cs end)) as [H|H]; [|exfalso; apply H; reflexivity]. clear Hcs H2 H3.
  destruct cs; cbn beta iota in H |- *.
  - assert (E : how = Fail) by (destruct dl; exact H). rewrite E. split; exact I.
  - destruct (is_nil np) eqn:En.
    + assert (E : how = LeaveOut) by (destruct dl; first [exact H|destruct H]). rewrite E. split; [|exact I].
      intros c Hc. destruct (in_dec eq_dec c (tb_pk t)) as [|Hx]; [assumption|].
      destruct np; [|discriminate]. destruct (proj2 (Hnp' c) (conj Hc Hx)).
    + assert (E : exists a us, how = Update a us /\ forall c, ~ In c (tb_pk t) -> (In c us <-> In c cols)).
      { destruct dl eqn:Ed; [exists true, np|exists false, np|exists false, (tb_cols t)|destruct H]; (split; [exact H|]); intros c Hc.
        - rewrite Hnp'. tauto.
        - rewrite Hnp'. tauto.
        - split; [apply Hlite; reflexivity|apply Hcols]. }
      destruct E as (a & us & E & Hus). rewrite E. split; [exact Hus|apply Hall].
  - assert (E : how = LeaveOut) by (destruct dl; first [exact H|destruct H]). rewrite E. split; exact I.
Qed.

Lemma last_cons A (l : list A) : forall a d, last (a :: l) d = last l a.
Proof. induction l as [|b l IH]; intros a d; [reflexivity|]. change (last (a :: b :: l) d) with (last (b :: l) d). rewrite IH. symmetry. apply IH. Qed.
Lemma overwritten_trans g g' o r r' : (forall c, In c (dkeys g) <-> In c (dkeys g')) ->
  overwritten t g o r -> overwritten t g' r r' -> overwritten t g' o r'.
Proof.
  intros Hg (H1 & H2) (H3 & H4). split; [exact H3|]. intros c Hc. rewrite H4 by exact Hc. apply H2.
  destruct Hc as [Hc|Hc]; [left; now rewrite Hg|right; exact Hc].
Qed.
Lemma overwritten_self g r : incl (dkeys g) (tb_cols t) -> made_of t g r -> overwritten t g r r.
Proof. intros Hi (_ & H). split; [intros c Hc _; apply H; [exact Hc|now apply Hi]|reflexivity]. Qed.

Lemma keyof_complete l g : (forall c, In c (dkeys g) <-> In c cols) -> keyof (complete dflt t l g) = keyof g.
Proof.
  intros Hg. destruct how_facts as (Hpk & _). unfold keyof. apply map_ext_in. intros c Hc.
  apply (complete_made l g); [apply (proj2 (Hg _)); now apply Hpk|apply Hcols; now apply Hpk].
Qed.

(** The row updated by a statement that replaces. *)
Lemma update_over us l g o : (forall c, In c (dkeys g) <-> In c cols) -> (forall c, ~ In c (tb_pk t) -> (In c us <-> In c cols)) ->
  keyof o = keyof (complete dflt t l g) -> overwritten t g o (set_columns us o (complete dflt t l g)).
Proof.
  intros Hg Hus Ho. assert (Hpk : forall c, In c (tb_pk t) -> rget o c = rget (complete dflt t l g) c).
  { unfold keyof in Ho. clear - Ho. revert Ho. generalize (tb_pk t) as q. induction q as [|c0 q IH]; [intros _ ? []|].
    cbn. intros Ho. injection Ho as H1 H2. intros c [E|Hc]; [subst c; exact H1|]. now apply IH. }
  split; intros c Hc.
  - intros Hn. rewrite set_columns_get. rewrite (proj2 (memb_true c us)); [|apply Hus; [exact Hn|exact (proj1 (Hg _) Hc)]].
    apply (complete_made l g); [exact Hc|apply Hcols; exact (proj1 (Hg _) Hc)].
  - rewrite set_columns_get. destruct (memb c us) eqn:Em; [|reflexivity]. symmetry. apply Hpk.
    destruct Hc as [Hc|Hc]; [|exact Hc]. destruct (in_dec eq_dec c (tb_pk t)) as [|Hn]; [assumption|].
    apply memb_true in Em. apply (proj1 (Hus _ Hn)) in Em. apply (proj2 (Hg _)) in Em. contradiction.
Qed.

Theorem insert_resolved : forall rows l,
  Forall (fun g => forall c, In c (dkeys g) <-> In c cols) rows -> keys_unique t l ->
  match insert_rows dflt t how l rows with
  | Some l' => keys_unique t l' /\ forall key, proper key -> resolved t cs (keyed t key l) (keyed t key rows) (keyed t key l')
  | None => cs = SError /\ exists key, proper key /\ 2 <= length (keyed t key l) + length (keyed t key rows)
  end.
Proof.
  destruct how_facts as (Hpk & Hok & Hset).
  assert (Hsame : forall l, resolved t cs l [] l) by (intros l; destruct cs, l; reflexivity).
  induction rows as [|g rows IH]; intros l Hr Hu.
  - cbn [insert_rows]. split; [exact Hu|]. intros key _. apply Hsame.
  - inversion Hr as [|? ? Hg Hr']; subst. pose proof (keyof_complete l Hg) as Hkx.
    pose proof (@insert_row_spec how l (complete dflt t l g) Hset Hu) as Hrow. cbn [insert_rows].
    assert (Hgc : incl (dkeys g) (tb_cols t)) by (intros c Hc; apply Hcols; exact (proj1 (Hg _) Hc)).
    destruct (insert_row t how l (complete dflt t l g)) as [l1|] eqn:E1.
    + pose proof (insert_row_unique Hset Hu E1) as Hu1. specialize (IH l1 Hr' Hu1).
      destruct Hrow as (Hother & Hsamekey). rewrite Hkx in *.
      destruct (insert_rows dflt t how l1 rows) as [l'|] eqn:E2.
      * destruct IH as (Hu' & IH). split; [exact Hu'|]. intros key Hp. specialize (IH key Hp). rewrite keyed_cons.
        destruct (eq_dec (keyof g) key) as [Ek|Hne].
        2: { cbn [app]. rewrite Hother in IH by congruence. exact IH. }
        subst key. specialize (Hsamekey Hp). cbn [app].
        pose proof (complete_made l g) as Hmade.
        destruct (keyed t (keyof g) l) as [|o q] eqn:El.
        -- rewrite Hsamekey in IH. destruct cs; unfold resolved in IH |- *; destruct (keyed t (keyof g) rows) as [|g2 gs] eqn:Eg; try contradiction.
           ++ eauto.
           ++ exists (complete dflt t l g), (complete dflt t l g). split; [exact IH|]. split; [exact Hmade|]. apply overwritten_self; assumption.
           ++ destruct IH as (r & IH1 & IH2). exists (complete dflt t l g), r. split; [exact IH1|]. split; [exact Hmade|].
              rewrite last_cons. exact IH2.
           ++ eauto.
           ++ eauto.
        -- assert (Hq : q = []).
           { pose proof (Hu _ Hp) as Hlen. rewrite El in Hlen. destruct q; [reflexivity|cbn in Hlen; lia]. }
           assert (Hko : keyof o = keyof (complete dflt t l g)).
           { rewrite Hkx. assert (H : In o (keyed t (keyof g) l)) by (rewrite El; now left). apply keyed_In in H. apply H. }
           subst q. unfold how_ok in Hok. destruct cs.
           ++ destruct how; contradiction.
           ++ destruct how as [| |any us]; [contradiction| |].
              ** rewrite Hsamekey in IH.
                 assert (Hself : overwritten t g o o).
                 { split; [|reflexivity]. intros c Hc Hn. exfalso. apply Hn. apply Hok. exact (proj1 (Hg _) Hc). }
                 unfold resolved in IH |- *. destruct (keyed t (keyof g) rows) as [|g2 gs] eqn:Eg.
                 --- exists o. split; [exact IH|exact Hself].
                 --- destruct IH as (r & IH1 & IH2). exists r. split; [exact IH1|]. rewrite last_cons. exact IH2.
              ** rewrite Hsamekey in IH. pose proof (update_over Hg Hok Hko) as Hov.
                 unfold resolved in IH |- *. destruct (keyed t (keyof g) rows) as [|g2 gs] eqn:Eg.
                 --- eexists. split; [exact IH|exact Hov].
                 --- destruct IH as (r & IH1 & IH2). exists r. split; [exact IH1|]. rewrite last_cons.
                     eapply overwritten_trans; [|exact Hov|exact IH2].
                     intros c. rewrite Hg. symmetry.
                     assert (Hl : In (last gs g2) (keyed t (keyof g) rows)).
                     { rewrite Eg. clear. revert g2. induction gs as [|h gs IHg]; intros g2; [left; reflexivity|]. rewrite last_cons. right. apply IHg. }
                     apply keyed_In in Hl. rewrite Forall_forall in Hr'. apply (Hr' _ (proj1 Hl)).
           ++ destruct how; try contradiction. rewrite Hsamekey in IH. unfold resolved in IH |- *.
              destruct (keyed t (keyof g) rows); exact IH.
      * destruct IH as (Hcs & key & Hp & Hlen). split; [exact Hcs|]. exists key. split; [exact Hp|]. rewrite keyed_cons.
        destruct (eq_dec (keyof g) key) as [Ek|Hne].
        -- subst key. specialize (Hsamekey Hp). unfold how_ok in Hok. rewrite Hcs in Hok. destruct how; try contradiction.
           destruct (keyed t (keyof g) l) as [|o q]; [|contradiction]. rewrite Hsamekey in Hlen. cbn in *. lia.
        -- cbn [app]. rewrite Hother in Hlen by congruence. exact Hlen.
    + destruct Hrow as (Hf & Hp & Hk). rewrite Hkx in *. split.
      * unfold how_ok in Hok. rewrite Hf in Hok. destruct cs; [reflexivity|contradiction|contradiction].
      * exists (keyof g). split; [exact Hp|]. rewrite keyed_cons. destruct (eq_dec (keyof g) (keyof g)); [|congruence].
        destruct (keyed t (keyof g) l); [congruence|]. cbn [app length]. lia.
Qed.
End Conflict.
