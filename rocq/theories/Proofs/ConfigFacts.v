(** Proofs about the configuration code. *)
From Coq Require Import Lia.
From Verif Require Import Model.Base Model.Config Spec.ConfigSpec Proofs.BaseFacts.
Set Implicit Arguments. Unset Strict Implicit.
Open Scope string_scope.
Open Scope list_scope.

(** ** extra_fks *)
Lemma set_of_length : forall (l : list string), NoDup l <-> length (set_of l) = length l.
Proof.
  intros l. split.
  - intros H. enough (E : set_of l = l) by now rewrite E.
    unfold set_of, set_update. assert (G : forall l s : list string, NoDup (s ++ l) -> fold_left (fun acc x => set_add x acc) l s = s ++ l).
    { clear. induction l as [|x l IH]; intros s H; simpl. - now rewrite app_nil_r.
      - unfold set_add at 2. destruct (memb x s) eqn:M.
        + exfalso. apply memb_true in M. apply NoDup_remove_2 in H. apply H, in_or_app. now left.
        + rewrite IH; [now rewrite <- app_assoc|]. now rewrite <- app_assoc. }
    exact (G l [] H).
  - intros H. assert (N : NoDup (set_of l)) by apply set_of_NoDup.
    apply NoDup_incl_NoDup with (l := set_of l); auto. + lia. + intros x Hx. exact (proj1 (set_of_In l x) Hx).
Qed.

Theorem check_columns_spec : forall src dst, check_columns_match src dst = Some tt <->
  src <> [] /\ length src = length dst /\ NoDup src /\ NoDup dst.
Proof.
  intros src dst. unfold check_columns_match. rewrite !set_of_length. cbv zeta.
  destruct (Nat.eqb_spec (length src) 0); [split; [discriminate|]; intros (H & _); destruct src; [congruence|discriminate]|].
  destruct (Nat.eqb_spec (length dst) (length src)); cbn; [|split; [discriminate|intros (_ & H & _); congruence]].
  destruct (Nat.eqb_spec (length (set_of src)) (length src)); cbn; [|split; [discriminate|intros (_ & _ & H & _); congruence]].
  destruct (Nat.eqb_spec (length (set_of dst)) (length src)); cbn; [|split; [discriminate|intros (_ & _ & _ & H); congruence]].
  split; auto. intros _. repeat split; try congruence. intros ->. now apply n.
Qed.

(** ** Search *)
Section Search.
Variable heap : nat -> obj.
Notation reachable := (reachable heap).
Notation refers := (refers heap).

Lemma parts_refers : forall u v, In v (parts heap u) <-> refers u v.
Proof.
  intros u v. unfold parts, ConfigSpec.refers. destruct (heap u) as [l|l|l|].
  all: split; intros H; try (exists l; tauto); try (exact (False_ind _ H)); destruct H as (l' & [E|[E|E]] & H); inv E; auto.
Qed.
Lemma refers_container : forall u v, refers u v -> container heap u = true.
Proof. intros u v (l & [E|[E|E]] & _); unfold container; rewrite E; reflexivity. Qed.

(** The state of the search: [done] are the objects already popped. *)
Record inv_search (root : nat) (done vis stack : list nat) : Prop := {
  is_nodup : NoDup (done ++ stack);
  is_vis : forall v, In v vis <-> In v (done ++ stack);
  is_reach : forall v, In v vis -> reachable root v /\ container heap v = true;
  is_closed : forall u v, In u done -> refers u v -> container heap v = true -> In v vis }.

Lemma push_all : forall root done l vis stack,
  NoDup (done ++ stack) -> (forall v, In v vis <-> In v (done ++ stack)) ->
  (forall v, In v vis -> reachable root v /\ container heap v = true) -> (forall v, In v l -> reachable root v) ->
  let '(vis', stack') := fold_left (push heap) l (vis, stack) in
  NoDup (done ++ stack') /\ (forall v, In v vis' <-> In v (done ++ stack')) /\
  (forall v, In v vis' -> reachable root v /\ container heap v = true) /\
  (forall v, In v vis -> In v vis') /\ (forall v, In v l -> container heap v = true -> In v vis').
Proof.
  intros root done. induction l as [|v l IH]; intros vis stack H1 H2 H3 H4; cbn [fold_left].
  { repeat split; auto; try apply H2; try apply H3; auto. intros v []. }
  assert (S : push heap (vis, stack) v = (vis, stack) /\ (container heap v = true -> In v vis) \/
    push heap (vis, stack) v = (set_add v vis, v :: stack) /\ container heap v = true /\ ~ In v vis).
  { unfold push. destruct (container heap v) eqn:C, (memb v vis) eqn:M; cbn.
    - apply memb_true in M. left. auto.
    - right. repeat split; auto. intros H. apply memb_true in H. congruence.
    - left. split; auto. discriminate.
    - left. split; auto. discriminate. }
  destruct S as [(-> & S)|(-> & C & N)].
  - specialize (IH vis stack H1 H2 H3 (fun x Hx => H4 x (or_intror Hx))).
    destruct (fold_left (push heap) l (vis, stack)) as (vis', stack'). destruct IH as (I1 & I2 & I3 & I4 & I5).
    repeat split; auto; try apply I2; try apply I3; auto. intros x [<-|Hx] Hc; auto.
  - assert (In_add : forall x, In x (set_add v vis) <-> x = v \/ In x vis).
    { intros x. unfold set_add. destruct (memb v vis) eqn:M; [apply memb_true in M; tauto|]. rewrite in_app_iff. cbn. intuition. }
    assert (P1 : NoDup (done ++ v :: stack)). { apply NoDup_Add with (a := v) (l := done ++ stack). - apply Add_app. - split; auto. now rewrite <- H2. }
    assert (P2 : forall x, In x (set_add v vis) <-> In x (done ++ v :: stack)).
    { intros x. rewrite In_add, H2, !in_app_iff. cbn. intuition. }
    assert (P3 : forall x, In x (set_add v vis) -> reachable root x /\ container heap x = true).
    { intros x Hx. apply In_add in Hx. destruct Hx as [->|Hx]; auto. split; auto. apply H4. now left. }
    specialize (IH _ _ P1 P2 P3 (fun x Hx => H4 x (or_intror Hx))).
    destruct (fold_left (push heap) l (set_add v vis, v :: stack)) as (vis', stack'). destruct IH as (I1 & I2 & I3 & I4 & I5).
    repeat split; auto; try apply I2; try apply I3; auto.
    + intros x Hx. apply I4. apply In_add. now right.
    + intros x [<-|Hx] Hc; auto. apply I4, In_add. now left.
Qed.

Lemma search_loop_spec : forall root objs, (forall v, reachable root v -> In v objs) ->
  forall fuel done vis stack, inv_search root done vis stack -> length objs < fuel + length done ->
  exists popped, search_loop heap fuel vis stack = Some (filter (fun v => match heap v with OModel _ => true | _ => false end) popped) /\
    (forall v, hd_error stack = Some v -> hd_error popped = Some v) /\
    NoDup (done ++ popped) /\
    (forall v, In v (done ++ popped) -> reachable root v) /\
    (forall v, In v stack -> In v popped) /\
    (forall u v, In u (done ++ popped) -> refers u v -> container heap v = true -> In v (done ++ popped)).
Proof.
  intros root objs HO. induction fuel as [|fuel IH]; intros done vis stack [I1 I2 I3 I4] HF.
  - exfalso. assert (L : length done <= length objs).
    { apply NoDup_incl_length; [now apply NoDup_app_iff in I1|]. intros x Hx. apply HO, I3, I2, in_or_app. now left. } lia.
  - destruct stack as [|v stack]; cbn [search_loop].
    + exists []. rewrite app_nil_r in *. cbn. repeat split; auto; try discriminate.
      * intros x Hx. now apply I3, I2.
      * intros u x Hu Hr Hc. apply I2. eauto.
    + assert (Rv : reachable root v) by (apply I3, I2, in_or_app; right; now left).
      assert (Q1 : NoDup ((done ++ [v]) ++ stack)) by now rewrite <- app_assoc.
      assert (Q2 : forall x, In x vis <-> In x ((done ++ [v]) ++ stack)) by (intros x; rewrite <- app_assoc; apply I2).
      pose proof (push_all Q1 Q2 I3 (l := parts heap v)) as P.
      destruct (fold_left (push heap) (parts heap v) (vis, stack)) as (vis', stack') eqn:EF.
      destruct P as (P1 & P2 & P3 & P4 & P5). { intros x Hx. apply parts_refers in Hx. econstructor; eauto. }
      destruct (IH (done ++ [v]) vis' stack') as (popped & E & _ & N & R & S & C).
      { constructor; auto. intros u x Hu Hr Hc. apply in_app_or in Hu. destruct Hu as [Hu|[<-|[]]].
        - apply P4. eauto. - apply P5; auto. now apply parts_refers. }
      { rewrite app_length. cbn. lia. }
      exists (v :: popped). rewrite E. cbn [option_map filter hd_error].
      rewrite <- !app_assoc in N, R, C. cbn [app] in N, R, C.
      repeat split; auto.
      * destruct (heap v); reflexivity.
      * intros x [->|Hx]; [now left|]. right.
        assert (Hs : In x vis') by (apply P4, I2, in_or_app; right; now right).
        apply P2 in Hs. apply in_app_or in Hs. destruct Hs as [Hs|Hs]; [|now apply S].
        exfalso. apply NoDup_app_iff in Q1. destruct Q1 as (_ & _ & D). exact (D x Hs Hx).
Qed.

Lemma search_loop_mono : forall fuel fuel' vis stack l, search_loop heap fuel vis stack = Some l -> fuel <= fuel' ->
  search_loop heap fuel' vis stack = Some l.
Proof.
  induction fuel as [|fuel IH]; intros fuel' vis stack l H L.
  - destruct stack; [|discriminate]. destruct fuel'; exact H.
  - destruct stack as [|v stack]; [destruct fuel'; exact H|]. destruct fuel' as [|fuel']; [lia|]. cbn [search_loop] in *.
    destruct (fold_left (push heap) (parts heap v) (vis, stack)) as (vis', stack').
    destruct (search_loop heap fuel vis' stack') as [l'|] eqn:E; [|discriminate].
    rewrite (IH fuel' _ _ _ E); [exact H|lia].
Qed.

Lemma reach_leaf : forall root v, reachable root v -> container heap root = false -> v = root.
Proof.
  intros root v H C. induction H as [|u v Hu IH Huv]; auto. subst u. apply refers_container in Huv. congruence.
Qed.

Theorem search_spec : forall root objs, (forall v, reachable root v -> In v objs) ->
  exists l, (forall fuel, length objs < fuel -> pydantic_search heap fuel root = Some l) /\ NoDup l /\
    (forall v, In v l <-> reachable root v /\ is_model heap v) /\ (is_model heap root -> hd_error l = Some root).
Proof.
  intros root objs HO. unfold pydantic_search, push. cbn [memb existsb negb]. rewrite andb_true_r.
  destruct (container heap root) eqn:C.
  - cbn [set_add memb existsb app].
    assert (I : inv_search root [] [root] [root]).
    { constructor; cbn.
      - constructor; [intros []|constructor].
      - tauto.
      - intros v [<-|[]]. split; auto. constructor.
      - intros u v []. }
    assert (HF : length objs < S (length objs) + length (@nil nat)) by (cbn; lia).
    destruct (search_loop_spec HO I HF) as (popped & E & H & N & R & S & Cl). cbn [app] in *.
    eexists. split; [intros fuel L; eapply search_loop_mono; [exact E|lia]|].
    assert (M : forall v, (match heap v with OModel _ => true | _ => false end = true) <-> is_model heap v).
    { intros v. unfold is_model. destruct (heap v) as [l|l|l|]; split; intros X; eauto; try discriminate; destruct X; discriminate. }
    split; [now apply NoDup_filter|]. split.
    + intros v. rewrite filter_In, M. split; intros (Hr & Hm); split; auto.
      assert (Hc : container heap v = true) by (destruct Hm as (l & Hm); unfold container; now rewrite Hm).
      revert Hc. clear Hm. induction Hr as [|u v Hu IH Huv]; intros Hc; [apply S; now left|].
      eapply Cl; eauto. apply IH. eapply refers_container; eauto.
    + intros Hm. specialize (H root eq_refl). destruct popped as [|x popped]; [discriminate|]. inv H. cbn.
      apply M in Hm. now rewrite Hm.
  - assert (Q : ~ is_model heap root) by (intros (l & Hm); unfold container in C; rewrite Hm in C; discriminate).
    exists []. split; [intros fuel _; now destruct fuel|]. split; [constructor|]. split; [|tauto].
    intros v. split; [intros []|]. intros (Hr & Hm). rewrite (reach_leaf Hr C) in Hm. tauto.
Qed.
End Search.

(** ** Merging *)
Fixpoint merge_into (r result : dict string data) : dict string data :=
  match r with
  | [] => result
  | (key, val) :: r' => merge_into r' (dset result key (match dget result key with Some old => dict_merge old val | None => val end))
  end.
Lemma dict_merge_maps : forall r l, dict_merge (DMap l) (DMap r) = DMap (merge_into r l).
Proof.
  reflexivity.
Qed.
Lemma dict_merge_other : forall a b, ~ (mapping a /\ mapping b) -> dict_merge a b = b.
Proof. intros a b H. destruct a, b; auto. exfalso. apply H. split; eexists; reflexivity. Qed.

Lemma merge_into_dget : forall r l k, NoDup (dkeys r) -> dget (merge_into r l) k =
  match dget r k with
  | Some v => Some (match dget l k with Some old => dict_merge old v | None => v end)
  | None => dget l k
  end.
Proof.
  induction r as [|(k', v) r IH]; intros l k N; cbn [merge_into dget]; auto.
  inversion N as [|? ? N1 N2]; subst. rewrite IH by exact N2. destruct (eq_dec k k') as [->|D].
  - assert (Z : dget r k' = None) by (apply dget_None; exact N1).
    rewrite Z, dget_dset_eq. reflexivity.
  - rewrite dget_dset_ne by congruence. reflexivity.
Qed.

Lemma mapping_dec : forall d, mapping d \/ ~ mapping d.
Proof. intros []; try (right; intros (? & ?); discriminate). left. eexists; reflexivity. Qed.
Lemma well_formed_map : forall m, well_formed (DMap m) -> NoDup (dkeys m) /\ forall k v, dget m k = Some v -> well_formed v.
Proof.
  intros m H. inversion H as [m' N W|d N]; subst. - split; auto. intros k v Hk. apply dget_In in Hk. eauto.
  - exfalso. apply N. eexists; reflexivity.
Qed.

(** What a path of the second file holds after merging. *)
Lemma merge_defined : forall p a b vb, well_formed b -> at_path b p = Some vb ->
  at_path (dict_merge a b) p = Some (match at_path a p with Some va => dict_merge va vb | None => vb end).
Proof.
  induction p as [|k p IH]; intros a b vb W H; cbn [at_path] in *.
  - now inv H.
  - destruct b as [| | | | | |r]; try discriminate. destruct (dget r k) as [b'|] eqn:E; [|discriminate].
    apply well_formed_map in W. destruct W as (N & W).
    destruct (mapping_dec a) as [(l & ->)|M].
    + rewrite dict_merge_maps. cbn [at_path]. rewrite merge_into_dget by exact N. rewrite E.
      destruct (dget l k) as [a'|]; [|exact H]. apply IH; eauto.
    + rewrite dict_merge_other by tauto. cbn [at_path]. rewrite E, H. destruct a; auto. exfalso. apply M. eexists; reflexivity.
Qed.
Lemma silent_cons : forall r k p, silent (DMap r) (k :: p) -> forall b', dget r k = Some b' -> silent b' p.
Proof.
  intros r k p (H1 & H2) b' E. split; [cbn in H1; now rewrite E in H1|].
  intros above rest v -> H. apply (H2 (k :: above) rest v); [reflexivity|]. cbn. now rewrite E.
Qed.
Lemma merge_silent : forall p a b, well_formed b -> silent b p -> at_path (dict_merge a b) p = at_path a p.
Proof.
  induction p as [|k p IH]; intros a b W S; [destruct S; discriminate|].
  assert (Mb : mapping b) by (destruct S as (_ & S); apply (S [] (k :: p) b); reflexivity). destruct Mb as (r & ->).
  pose proof (well_formed_map W) as (N & W').
  destruct (mapping_dec a) as [(l & ->)|M].
  - rewrite dict_merge_maps. cbn [at_path]. rewrite merge_into_dget by exact N. destruct (dget r k) as [b'|] eqn:E; auto.
    destruct (dget l k) as [a'|] eqn:El.
    + apply IH; eauto. eapply silent_cons; eauto.
    + exact (proj1 (silent_cons S E)).
  - rewrite dict_merge_other by tauto. destruct S as (S & _). rewrite S. destruct a; auto. exfalso. apply M. eexists; reflexivity.
Qed.
Lemma at_path_app : forall p q d, at_path d (p ++ q) = match at_path d p with Some d' => at_path d' q | None => None end.
Proof.
  induction p as [|k p IH]; intros q d; cbn [app at_path]; auto. destruct d; auto. destruct (dget m k); auto.
Qed.
Lemma at_other : forall d k p, ~ mapping d -> at_path d (k :: p) = None.
Proof. intros d k p H. destruct d; auto. exfalso. apply H. eexists; reflexivity. Qed.
Lemma merge_cut : forall p a b, well_formed b -> cuts b p -> at_path (dict_merge a b) p = None.
Proof.
  intros p a b W (above & key & rest & v & -> & H & M). rewrite at_path_app, (merge_defined a W H).
  destruct (at_path a above) as [va|]; [rewrite dict_merge_other by tauto|]; now apply at_other.
Qed.
(** A file that does not define a path is silent about it or cuts it. *)
Lemma silent_or_cuts : forall d p, at_path d p = None -> silent d p \/ cuts d p.
Proof.
  intros d p H. assert (G : forall p2 p1 v, p = p1 ++ p2 -> at_path d p1 = Some v -> at_path v p2 = None ->
    (forall above rest w, p1 = above ++ rest -> rest <> [] -> at_path d above = Some w -> mapping w) -> silent d p \/ cuts d p).
  { induction p2 as [|k p2 IH]; intros p1 v E H1 H2 H3; [discriminate|].
    destruct (mapping_dec v) as [M|M]; [|right; exists p1, k, p2, v; auto].
    destruct M as (m & ->). cbn in H2. destruct (dget m k) as [v'|] eqn:Ek.
    - apply (IH (p1 ++ [k]) v'); auto.
      + now rewrite <- app_assoc.
      + rewrite at_path_app, H1. cbn. now rewrite Ek.
      + intros above rest w E' NE Hw. destruct (exists_last NE) as (rest' & k' & ->). rewrite app_assoc in E'.
        apply app_inj_tail in E'. destruct E' as (E' & _). destruct rest' as [|x rest'].
        * rewrite app_nil_r in E'. subst above. rewrite H1 in Hw. inv Hw. eexists; reflexivity.
        * eapply (H3 above (x :: rest')); eauto. discriminate.
    - left. split; auto. intros above rest w E' Hw.
      (* above is a prefix of p: either of p1, or longer *)
      destruct (Nat.le_gt_cases (length above) (length p1)) as [L|L].
      + assert (Ea : above = firstn (length above) p1).
        { rewrite E' in E. apply (f_equal (firstn (length above))) in E. rewrite firstn_app, Nat.sub_diag, firstn_all in E. cbn in E.
          rewrite app_nil_r, firstn_app in E. replace (length above - length p1) with 0 in E by lia. cbn in E. now rewrite app_nil_r in E. }
        destruct (skipn (length above) p1) as [|x s] eqn:Es.
        * assert (above = p1) as ->. { rewrite <- (firstn_skipn (length above) p1), Es, app_nil_r. exact Ea. }
          rewrite H1 in Hw. inv Hw. eexists; reflexivity.
        * eapply (H3 above (x :: s) w); auto; [|discriminate]. rewrite <- (firstn_skipn (length above) p1), Es. now rewrite <- Ea.
      + exfalso. assert (Ex : exists s, above = p1 ++ k :: s).
        { rewrite E' in E. apply app_eq_app in E. destruct E as (l & [(Ea & Eb)|(Ea & Eb)]).
          - subst above. destruct l as [|x l]; [rewrite app_nil_r in L; lia|]. inv Eb. eauto.
          - subst p1. rewrite app_length in L. lia. }
        destruct Ex as (s & ->). rewrite at_path_app, H1 in Hw. cbn in Hw. now rewrite Ek in Hw. }
  apply (G p [] d); auto. intros above rest w E NE. destruct above; [|discriminate]. cbn in E. congruence.
Qed.

Lemma config_data_app : forall l1 l2, config_data (l1 ++ l2) = fold_left dict_merge l2 (config_data l1).
Proof. intros. unfold config_data. apply fold_left_app. Qed.
Lemma merge_all_silent : forall post acc p, Forall well_formed post -> Forall (fun f => silent f p) post ->
  at_path (fold_left dict_merge post acc) p = at_path acc p.
Proof.
  induction post as [|f post IH]; intros acc p W S; cbn; auto. inv W; inv S. rewrite IH; auto. now apply merge_silent.
Qed.
Theorem config_last : forall pre f post p, Forall well_formed (pre ++ f :: post) -> Forall (fun g => silent g p) post ->
  let result := config_data (pre ++ f :: post) in
  (forall v, at_path f p = Some v -> ~ mapping v -> at_path result p = Some v) /\
  (forall v, at_path f p = Some v -> mapping v -> exists v', at_path result p = Some v' /\ mapping v') /\
  (cuts f p -> at_path result p = None).
Proof.
  intros pre f post p W S result. apply Forall_app in W. destruct W as (Wp & W). inversion W as [|? ? Wf Wq]; subst.
  assert (R : at_path result p = at_path (dict_merge (config_data pre) f) p).
  { subst result. rewrite config_data_app. cbn. now apply merge_all_silent. }
  rewrite R. split; [|split].
  - intros v H M. rewrite (merge_defined _ Wf H). destruct (at_path (config_data pre) p); auto. rewrite dict_merge_other by tauto. reflexivity.
  - intros v H M. rewrite (merge_defined _ Wf H). destruct (at_path (config_data pre) p) as [va|]; [|eauto].
    destruct (mapping_dec va) as [Ma|Ma]; [|rewrite dict_merge_other by tauto; eauto].
    destruct Ma as (l & ->), M as (m & ->). rewrite dict_merge_maps. eexists. split; [reflexivity|eexists; reflexivity].
  - intros H. now apply merge_cut.
Qed.
Theorem config_silent : forall files p, Forall well_formed files -> Forall (fun g => silent g p) files -> p <> [] ->
  at_path (config_data files) p = None.
Proof. intros files p W S NE. unfold config_data. rewrite merge_all_silent; auto. destruct p; [congruence|reflexivity]. Qed.
Theorem merge_empty : forall d, mapping d -> dict_merge d (DMap []) = d.
Proof. intros d (m & ->). reflexivity. Qed.

(** ** String literals *)
Theorem escape_literal : forall s, literal (escape s) s.
Proof.
  induction s as [|c s IH]; cbn; [constructor|]. destruct (Ascii.eqb_spec c "'").
  - subst. now constructor. - now constructor.
Qed.
Theorem literal_functional : forall t v v', literal t v -> literal t v' -> v = v'.
Proof.
  intros t v v' H. revert v'. induction H as [|t v H IH|c t v N H IH]; intros v' H'; inversion H'; subst; try congruence; f_equal; auto.
Qed.
