(** plan_model.py [simplify]: meaning preservation and totality (C27, C28). *)
From Coq Require Import Lia.
From Verif Require Import Model.Base Model.Value Model.PlanModel Spec.SqlSem Proofs.BaseFacts.
Set Implicit Arguments.
Unset Strict Implicit.

(** Three-valued folds *)
Lemma and3_assoc a b c : and3 a (and3 b c) = and3 (and3 a b) c.
Proof. destruct a, b, c; reflexivity. Qed.
Lemma or3_assoc a b c : or3 a (or3 b c) = or3 (or3 a b) c.
Proof. destruct a, b, c; reflexivity. Qed.
Lemma and3_T a : and3 T3 a = a. Proof. destruct a; reflexivity. Qed.
Lemma or3_F a : or3 F3 a = a. Proof. destruct a; reflexivity. Qed.
Lemma and3_T_r a : and3 a T3 = a. Proof. destruct a; reflexivity. Qed.
Lemma or3_F_r a : or3 a F3 = a. Proof. destruct a; reflexivity. Qed.

Definition all3 (l : list tv) := fold_right and3 T3 l.
Definition any3 (l : list tv) := fold_right or3 F3 l.

Lemma all3_app l l' : all3 (l ++ l') = and3 (all3 l) (all3 l').
Proof.
  induction l as [|a l IH]; cbn [app all3 fold_right]; [symmetry; apply and3_T|].
  unfold all3 in IH. rewrite IH. apply and3_assoc.
Qed.
Lemma any3_app l l' : any3 (l ++ l') = or3 (any3 l) (any3 l').
Proof.
  induction l as [|a l IH]; cbn [app any3 fold_right]; [symmetry; apply or3_F|].
  unfold any3 in IH. rewrite IH. apply or3_assoc.
Qed.
Lemma all3_F l : In F3 l -> all3 l = F3.
Proof.
  induction l as [|a l IH]; intros Hin; [destruct Hin|]. cbn [all3 fold_right].
  destruct Hin as [->|Hin]; [reflexivity|]. unfold all3 in IH. rewrite (IH Hin). destruct a; reflexivity.
Qed.
Lemma any3_T l : any3 l = T3 <-> In T3 l.
Proof.
  induction l as [|a l IH]; cbn [any3 fold_right In]; [split; [discriminate|tauto]|].
  unfold any3 in IH. destruct a, (fold_right or3 F3 l); cbn;
    (split; [intros Hx; try discriminate; try (left; reflexivity); right; apply IH; reflexivity
            | intros [Hx|Hx]; try discriminate; try reflexivity; apply IH in Hx; try discriminate; reflexivity]).
Qed.
Lemma any3_F l : any3 l = F3 <-> (forall x, In x l -> x = F3).
Proof.
  induction l as [|a l IH]; cbn [any3 fold_right In]; [split; [tauto|reflexivity]|].
  unfold any3 in IH. split.
  - intros Hx x [<-|Hin].
    + destruct a, (fold_right or3 F3 l); cbn in Hx; congruence.
    + apply IH; [|exact Hin]. destruct a, (fold_right or3 F3 l); cbn in Hx; congruence.
  - intros Hx. rewrite (Hx a (or_introl eq_refl)). rewrite or3_F. apply IH. intros x Hin; apply Hx; right; exact Hin.
Qed.
Lemma any3_same l l' : (forall x, In x l <-> In x l') -> any3 l = any3 l'.
Proof.
  intros Hs.
  assert (Ht : any3 l = T3 <-> any3 l' = T3) by (rewrite !any3_T; apply Hs).
  assert (Hf : any3 l = F3 <-> any3 l' = F3).
  { rewrite !any3_F. split; intros Hx x Hin; apply Hx; apply Hs; exact Hin. }
  destruct (any3 l), (any3 l'); intuition congruence.
Qed.
Lemma in3_same e xs l l' : (forall x, In x l <-> In x l') -> in3 e xs l = in3 e xs l'.
Proof.
  intros Hs. apply any3_same. intros x. rewrite !in_map_iff.
  split; intros (y & Hy & Hin); exists y; (split; [exact Hy|]); apply Hs; exact Hin.
Qed.

(** Induction over clauses, through AND and OR lists. *)
Lemma wc_ind' (P : wc -> Prop) :
  (forall c, match c with WAnd _ | WOr _ => False | _ => True end -> P c) ->
  (forall l, Forall P l -> P (WAnd l)) ->
  (forall l, Forall P l -> P (WOr l)) ->
  forall c, P c.
Proof.
  intros Hleaf Hand Hor. fix IH 1. intros c.
  destruct c; try (apply Hleaf; exact I).
  - apply Hand. induction conditions as [|c l IHl]; constructor; [apply IH|exact IHl].
  - apply Hor. induction conditions as [|c l IHl]; constructor; [apply IH|exact IHl].
Qed.

Lemma fold_and_map {A} (P : A -> Prop) l : fold_right and True (map P l) <-> Forall P l.
Proof.
  induction l as [|a l IH]; cbn.
  - split; [constructor|trivial].
  - rewrite IH. split; [intros [H1 H2]; constructor; assumption|intros H1; inversion H1; subst; split; assumption].
Qed.

Section Eval.
Variable e : sqlenv.
Variable z : rnd.
Hypothesis z_ok : rnd_ok z.

Notation ev := (eval_wc e z).

Lemma eval_and i r l : ev i r (WAnd l) = all3 (map (ev i r) l).
Proof. reflexivity. Qed.
Lemma eval_or i r l : ev i r (WOr l) = any3 (map (ev i r) l).
Proof. reflexivity. Qed.

Lemma and_simplified_eval i r l : ev i r (and_simplified l) = all3 (map (ev i r) l).
Proof.
  set (l1 := flat_map and_parts (filter (fun c => negb (is_WTrue c)) l)).
  assert (H1 : all3 (map (ev i r) l1) = all3 (map (ev i r) l)).
  { unfold l1. induction l as [|c l IH]; [reflexivity|]. cbn [filter].
    destruct (is_WTrue c) eqn:Ec; cbn [negb].
    - destruct c; try discriminate. cbn [map all3 fold_right]. rewrite IH.
      cbn [eval_wc]. unfold all3. rewrite and3_T. reflexivity.
    - cbn [flat_map]. rewrite map_app, all3_app, IH. cbn [map]. unfold all3 at 3. cbn [fold_right]. f_equal.
      destruct c; try (cbn [and_parts map all3 fold_right]; apply and3_T_r). reflexivity. }
  rewrite <- H1. unfold and_simplified. fold l1.
  destruct (existsb is_WFalse l1) eqn:Ef.
  - symmetry. apply all3_F. apply existsb_exists in Ef. destruct Ef as (c & Hin & Hc).
    apply in_map_iff. exists c. destruct c; try discriminate. split; [reflexivity|exact Hin].
  - destruct l1 as [|c [|c' l']].
    + reflexivity.
    + cbn [map all3 fold_right]. symmetry. apply and3_T_r.
    + reflexivity.
Qed.

Lemma or_simplified_eval i r l : ev i r (or_simplified l) = any3 (map (ev i r) l).
Proof.
  set (l1 := flat_map or_parts (filter (fun c => negb (is_WFalse c)) l)).
  assert (H1 : any3 (map (ev i r) l1) = any3 (map (ev i r) l)).
  { unfold l1. induction l as [|c l IH]; [reflexivity|]. cbn [filter].
    destruct (is_WFalse c) eqn:Ec; cbn [negb].
    - destruct c; try discriminate. cbn [map any3 fold_right]. rewrite IH.
      cbn [eval_wc]. unfold any3. rewrite or3_F. reflexivity.
    - cbn [flat_map]. rewrite map_app, any3_app, IH. cbn [map]. unfold any3 at 3. cbn [fold_right]. f_equal.
      destruct c; try (cbn [or_parts map any3 fold_right]; apply or3_F_r). reflexivity. }
  rewrite <- H1. unfold or_simplified. fold l1.
  destruct (existsb is_WTrue l1) eqn:Ef.
  - symmetry. apply any3_T. apply existsb_exists in Ef. destruct Ef as (c & Hin & Hc).
    apply in_map_iff. exists c. destruct c; try discriminate. split; [reflexivity|exact Hin].
  - destruct l1 as [|c [|c' l']].
    + reflexivity.
    + cbn [map any3 fold_right]. symmetry. apply or3_F_r.
    + reflexivity.
Qed.

Lemma random_simplified_eval i r q : ev i r (random_simplified q) = ev i r (WRandom q).
Proof.
  destruct z_ok as [Hd _]. destruct (Hd q i r) as [Hlo Hhi].
  unfold random_simplified. destruct (Qle_bool q 0) eqn:E0.
  - apply Qle_bool_iff in E0. cbn [eval_wc].
    assert (H1 : Qle_bool q (draw z q i r) = true) by (apply Qle_bool_iff; eapply Qle_trans; eassumption).
    rewrite H1. reflexivity.
  - destruct (Qle_bool 1 q) eqn:E1; [|reflexivity].
    apply Qle_bool_iff in E1. cbn [eval_wc].
    destruct (Qle_bool q (draw z q i r)) eqn:E2; [|reflexivity].
    apply Qle_bool_iff in E2. exfalso.
    apply (Qlt_irrefl 1). eapply Qle_lt_trans; [exact E1|]. eapply Qle_lt_trans; [exact E2|exact Hhi].
Qed.

(** [f] keeps the meaning of where clauses, and their safety. *)
Definition sound (f : wc -> mres wc) : Prop :=
  forall c c', f c = Ok c' -> wc_safe c -> wc_safe c' /\ forall i r, ev i r c' = ev i r c.

Lemma joins_hold_norm js o o' r :
  match js with Some (_ :: _) => False | _ => True end ->
  joins_hold e js o r = joins_hold e None o' r.
Proof. destruct js as [[|j l]|]; cbn; tauto. Qed.

(** What select simplification preserves. *)
Definition sel_same (s s' : sel) : Prop :=
  sem_sel e z s' = sem_sel e z s /\ sel_safe s' /\ s_from s' = s_from s /\ s_columns s' = s_columns s /\
  s_limit s' = s_limit s /\ (no_joins s -> no_joins s').

Lemma sem_sel_eq s : sem_sel e z s =
  map (fun ir => project (s_columns s) (snd ir))
      (limited z (s_limit s)
         (filter (fun ir => joins_hold e (s_joins s) (s_outer s) (snd ir) &&
                    match s_where s with None => true | Some w => is_true (ev (fst ir) (snd ir) w) end)
                 (indexed (contents e (s_from s))))).
Proof. destruct s; reflexivity. Qed.

Lemma simp_sel_sound f : sound f -> forall s s', simp_sel f s = Ok s' -> sel_safe s -> sel_same s s'.
Proof.
  intros Hf s s' Hs Hsafe. destruct s as [cols from [w|] lim js o]; cbn [simp_sel] in Hs.
  2:{ inversion Hs; subst. unfold sel_same. tauto. }
  apply bind_Ok in Hs. destruct Hs as (w' & Hw & Hs).
  cbn [sel_safe] in Hsafe. destruct (Hf _ _ Hw Hsafe) as [Hsafe' Hev].
  assert (Hwh : forall ir : nat * row,
     match (if is_WTrue w' then None else Some w') with None => true | Some w => is_true (ev (fst ir) (snd ir) w) end
     = is_true (ev (fst ir) (snd ir) w)).
  { intros ir. rewrite <- Hev. destruct w'; reflexivity. }
  assert (Hsf : forall ol, sel_safe (Sel cols from (if is_WTrue w' then None else Some w') lim ol o)).
  { intros ol. cbn [sel_safe]. destruct (is_WTrue w'); [exact I|exact Hsafe']. }
  assert (Hsf' : sel_safe (Sel cols from (if is_WTrue w' then None else Some w') lim None false)).
  { cbn [sel_safe]. destruct (is_WTrue w'); [exact I|exact Hsafe']. }
  destruct js as [[|j js]|]; inversion Hs; subst; clear Hs;
    (split; [rewrite !sem_sel_eq; cbn [s_columns s_from s_where s_limit s_joins s_outer];
             f_equal; f_equal; apply filter_ext; intros ir; rewrite Hwh; reflexivity|]);
    (split; [auto|]); cbn [s_columns s_from s_where s_limit s_joins s_outer no_joins];
    repeat (split; [reflexivity|]); unfold no_joins; cbn [s_joins]; tauto.
Qed.

Lemma where_false_sem s : where_is_false s = true -> sem_sel e z s = [].
Proof.
  intros Hs. rewrite sem_sel_eq. unfold where_is_false in Hs. destruct (s_where s) as [w|]; [|discriminate].
  destruct w; try discriminate.
  match goal with |- context [filter ?g ?l] => assert (Hn : filter g l = []) end.
  { induction (indexed (contents e (s_from s))) as [|ir l IH]; [reflexivity|]. cbn [filter].
    cbn [eval_wc is_true]. rewrite andb_false_r. exact IH. }
  rewrite Hn. destruct (s_limit s) as [n|]; cbn [limited map]; [|reflexivity].
  assert (Hp : Permutation (shuffle z []) []) by apply z_ok.
  apply Permutation_sym, Permutation_nil in Hp. rewrite Hp, firstn_nil. reflexivity.
Qed.

Lemma In_sem_nolimit s x :
  s_limit s = None -> no_joins s ->
  In x (sem_sel e z s) <->
  exists i r, In (i, r) (indexed (contents e (s_from s))) /\ x = project (s_columns s) r /\
              ev i r (where_or_true s) = T3.
Proof.
  intros Hl Hj. rewrite sem_sel_eq, Hl. cbn [limited]. rewrite in_map_iff. split.
  - intros ([i r] & <- & Hin). apply filter_In in Hin. destruct Hin as [Hin Hk].
    apply andb_true_iff in Hk. destruct Hk as [_ Hk]. exists i, r. split; [exact Hin|]. split; [reflexivity|].
    unfold where_or_true. cbn [fst snd] in Hk. destruct (s_where s); [|reflexivity].
    destruct (ev i r w); [reflexivity|discriminate|discriminate].
  - intros (i & r & Hin & -> & Hk). exists (i, r). split; [reflexivity|]. apply filter_In. split; [exact Hin|].
    apply andb_true_iff. split.
    + destruct Hj as [->| ->]; reflexivity.
    + cbn [fst snd]. unfold where_or_true in Hk. destruct (s_where s); [|reflexivity]. rewrite Hk. reflexivity.
Qed.

Lemma In_distinct x l : In x (distinct l) <-> In x l.
Proof. apply nodup_In. Qed.

Lemma In_sem_union x l : In x (sem_stmt e z (SUnion l)) <-> exists s, In s l /\ In x (sem_sel e z s).
Proof.
  cbn [sem_stmt]. rewrite In_distinct, in_concat. split.
  - intros (y & Hy & Hx). apply in_map_iff in Hy. destruct Hy as (s & <- & Hs). exists s. tauto.
  - intros (s & Hs & Hx). exists (sem_sel e z s). split; [apply in_map; exact Hs|exact Hx].
Qed.

Lemma simps_In f l simps :
  Forall2 (fun s s' => simp_sel f s = Ok s') l simps -> sound f -> Forall sel_safe l ->
  Forall2 sel_same l simps.
Proof.
  intros H2 Hf. induction H2 as [|s s' l l' H1 H2 IH]; intros Hs; [constructor|].
  inversion Hs; subst. constructor; [eapply simp_sel_sound; eassumption|apply IH; assumption].
Qed.

Lemma union_safe_filter g l l' :
  Forall2 sel_same l l' -> union_safe l -> union_safe (filter g l').
Proof.
  intros H2 Hu. unfold union_safe in *. induction H2 as [|s s' l l' H1 H2 IH]; [constructor|].
  inversion Hu; subst. specialize (IH H4). cbn [filter]. destruct (g s'); [|exact IH]. constructor; [|exact IH].
  apply Forall_forall. intros t' Ht. apply filter_In in Ht. destruct Ht as [Ht _].
  destruct (Forall2_In_r H2 Ht) as (t & Ht0 & Hsame).
  pose proof (proj1 (Forall_forall _ _) H3 t Ht0) as Hp.
  destruct H1 as (_ & _ & Hf1 & Hc1 & Hl1 & Hj1). destruct Hsame as (_ & _ & Hf2 & Hc2 & Hl2 & Hj2).
  intros E1 E2 E3 E4. destruct Hp as [Hp1 Hp2]; [congruence..|]. split; [apply Hj1; exact Hp1|apply Hj2; exact Hp2].
Qed.

Lemma simp_union_sound f : sound f -> forall l s', simp_union f l = Ok s' ->
  stmt_safe (SUnion l) -> stmt_safe s' /\ same_rows (sem_stmt e z s') (sem_stmt e z (SUnion l)).
Proof.
  intros Hf l s' Hs [Hu Hsafe]. apply fold_and_map in Hsafe.
  unfold simp_union in Hs. apply bind_Ok in Hs. destruct Hs as (simps & Hm & Hs).
  apply mapM_Ok in Hm. pose proof (simps_In Hm Hf Hsafe) as H2. 
  set (kept := filter (fun s => negb (where_is_false s)) simps) in *.
  assert (Hrows : forall x, (exists s, In s kept /\ In x (sem_sel e z s)) <-> In x (sem_stmt e z (SUnion l))).
  { intros x. rewrite In_sem_union. split.
    - intros (s & Hin & Hx). apply filter_In in Hin. destruct Hin as [Hin _].
      destruct (Forall2_In_r H2 Hin) as (s0 & Hs0 & Hsame). exists s0. split; [exact Hs0|].
      destruct Hsame as [<- _]. exact Hx.
    - intros (s & Hin & Hx). destruct (Forall2_In_l H2 Hin) as (s0 & Hs0 & Hsame).
      destruct Hsame as [Heq _]. rewrite <- Heq in Hx. exists s0. split; [|exact Hx].
      apply filter_In. split; [exact Hs0|]. destruct (where_is_false s0) eqn:Ew; [|reflexivity].
      rewrite (where_false_sem Ew) in Hx. destruct Hx. }
  assert (Hks : Forall sel_safe kept).
  { apply Forall_forall. intros s Hin. apply filter_In in Hin. destruct Hin as [Hin _].
    destruct (Forall2_In_r H2 Hin) as (s0 & Hs0 & Hsame). apply Hsame. }
  pose proof (union_safe_filter (fun s => negb (where_is_false s)) H2 Hu) as Hku. fold kept in Hku.
  destruct kept as [|s0 [|s1 rest]] eqn:Ek.
  - (* nothing left *)
    destruct l as [|s l]; [discriminate|]. apply bind_Ok in Hs. destruct Hs as (sx & Hsx & Hs).
    inversion Hs; subst s'; clear Hs. inversion Hsafe; subst.
    pose proof (simp_sel_sound Hf Hsx H1) as Hsame. split; [cbn; apply Hsame|].
    intros x. rewrite <- Hrows. cbn [sem_stmt].
    inversion Hm; subst. rewrite Hsx in H4. inversion H4; subst y.
    assert (Ew : where_is_false sx = true).
    { destruct (where_is_false sx) eqn:Ew; [reflexivity|]. exfalso.
      assert (Hin : In sx kept). { apply filter_In. split; [left; reflexivity|rewrite Ew; reflexivity]. }
      rewrite Ek in Hin. destruct Hin. }
    rewrite (where_false_sem Ew). split; [intros []|intros (s1 & [] & _)].
  - inversion Hs; subst s'. inversion Hks; subst. split; [cbn; assumption|].
    intros x. rewrite <- Hrows. cbn [sem_stmt]. split.
    + intros Hx. exists s0. split; [left; reflexivity|exact Hx].
    + intros (s1 & [<-|[]] & Hx). exact Hx.
  - destruct (forallb (mergeable s0) (s0 :: s1 :: rest)) eqn:Em.
    + apply bind_Ok in Hs. destruct Hs as (sx & Hsx & Hs). inversion Hs; subst s'; clear Hs.
      set (ks := s0 :: s1 :: rest) in *.
      assert (Hall : forall s, In s ks -> s_from s = s_from s0 /\ s_columns s = s_columns s0 /\ s_limit s = None).
      { intros s Hin. pose proof (proj1 (forallb_forall _ _) Em s Hin) as Hmg. unfold mergeable in Hmg.
        apply andb_true_iff in Hmg. destruct Hmg as [Hmg Hl]. apply andb_true_iff in Hmg. destruct Hmg as [Hfr Hc].
        apply (proj1 (eqb_true _ _)) in Hfr. apply (proj1 (eqb_true _ _)) in Hc. destruct (s_limit s); [discriminate|]. tauto. }
      assert (Hnj : forall s, In s ks -> no_joins s).
      { inversion Hku; subst. rename H1 into Hp0.
        assert (Hpair : forall s, In s (s1 :: rest) -> no_joins s0 /\ no_joins s).
        { intros s Hin. pose proof (proj1 (Forall_forall _ _) Hp0 s Hin) as Hp.
          destruct (Hall s (or_intror Hin)) as (Hfr & Hco & Hli). destruct (Hall s0 (or_introl eq_refl)) as (_ & _ & Hli0).
          apply Hp; congruence. }
        intros s [<-|Hin]; [apply (Hpair s1); left; reflexivity|apply Hpair; exact Hin]. }
      set (m := Sel (s_columns s0) (s_from s0) (Some (WOr (map where_or_true ks))) None None false) in *.
      assert (Hms : sel_safe m).
      { unfold m. cbn [sel_safe wc_safe]. apply fold_and_map. apply Forall_forall. intros c Hc.
        apply in_map_iff in Hc. destruct Hc as (s & <- & Hin). pose proof (proj1 (Forall_forall _ _) Hks s Hin) as Hss.
        unfold where_or_true. destruct s as [a b [w|] d e' f']; cbn [s_where]; [exact Hss|exact I]. }
      pose proof (simp_sel_sound Hf Hsx Hms) as Hsame. split; [cbn; apply Hsame|].
      intros x. rewrite <- Hrows. cbn [sem_stmt]. destruct Hsame as [-> _].
      rewrite In_sem_nolimit; [|reflexivity|left; reflexivity]. split.
      * intros (i & r & Hin & -> & Hev). unfold where_or_true in Hev. cbn [s_where m] in Hev.
        rewrite eval_or in Hev. apply any3_T in Hev. apply in_map_iff in Hev. destruct Hev as (c & Hc & Hcin).
        apply in_map_iff in Hcin. destruct Hcin as (s & <- & Hs). exists s. split; [exact Hs|].
        destruct (Hall s Hs) as (Hfr & Hco & Hli). apply In_sem_nolimit; [exact Hli|apply Hnj; exact Hs|].
        exists i, r. rewrite Hfr, Hco. cbn [s_from s_columns m] in *. tauto.
      * intros (s & Hs & Hx). destruct (Hall s Hs) as (Hfr & Hco & Hli).
        apply In_sem_nolimit in Hx; [|exact Hli|apply Hnj; exact Hs]. destruct Hx as (i & r & Hin & -> & Hev).
        exists i, r. cbn [s_from s_columns m]. rewrite Hfr in Hin. rewrite Hco. split; [exact Hin|].
        split; [reflexivity|]. unfold where_or_true. cbn [s_where m]. rewrite eval_or. apply any3_T.
        apply in_map_iff. exists (where_or_true s). split; [exact Hev|]. apply in_map. exact Hs.
    + inversion Hs; subst s'; clear Hs. split.
      * split; [exact Hku|apply fold_and_map; exact Hks].
      * intros x. rewrite <- Hrows. apply In_sem_union.
Qed.

Lemma simp_stmt_sound f : sound f -> forall s s', simp_stmt_with f s = Ok s' ->
  stmt_safe s -> stmt_safe s' /\ same_rows (sem_stmt e z s') (sem_stmt e z s).
Proof.
  intros Hf [x|l] s' Hs Hsafe; cbn [simp_stmt_with] in Hs.
  - apply bind_Ok in Hs. destruct Hs as (x' & Hx & Hs). inversion Hs; subst.
    destruct (simp_sel_sound Hf Hx Hsafe) as (Heq & Hsf & _). split; [exact Hsf|].
    cbn [sem_stmt]. rewrite Heq. intros r; tauto.
  - eapply simp_union_sound; eassumption.
Qed.

Lemma and_parts_safe c : wc_safe c -> Forall wc_safe (and_parts c).
Proof. destruct c; cbn [and_parts]; intros Hc; try (constructor; [exact Hc|constructor]). apply fold_and_map. exact Hc. Qed.
Lemma or_parts_safe c : wc_safe c -> Forall wc_safe (or_parts c).
Proof. destruct c; cbn [or_parts]; intros Hc; try (constructor; [exact Hc|constructor]). apply fold_and_map. exact Hc. Qed.

End Eval.

(** Generic: a predicate closed under AND/OR lists survives [and_simplified] and [or_simplified]. *)
Section Closed.
Variable P : wc -> Prop.
Hypothesis P_and : forall l, P (WAnd l) <-> Forall P l.
Hypothesis P_or : forall l, P (WOr l) <-> Forall P l.
Hypothesis P_T : P WTrue.
Hypothesis P_F : P WFalse.
Lemma and_simplified_closed l : Forall P l -> P (and_simplified l).
Proof.
  intros Hl. unfold and_simplified.
  assert (H1 : Forall P (flat_map and_parts (filter (fun c => negb (is_WTrue c)) l))).
  { apply Forall_forall. intros c Hc. apply in_flat_map in Hc. destruct Hc as (d & Hd & Hc).
    apply filter_In in Hd. destruct Hd as [Hd _]. pose proof (proj1 (Forall_forall _ _) Hl d Hd) as HP.
    destruct d; cbn [and_parts] in Hc; try (destruct Hc as [<-|[]]; exact HP).
    apply P_and in HP. exact (proj1 (Forall_forall _ _) HP c Hc). }
  destruct (existsb _ _); [exact P_F|].
  destruct (flat_map _ _) as [|c [|c' l']]; [exact P_T|inversion H1; assumption|apply P_and; exact H1].
Qed.
Lemma or_simplified_closed l : Forall P l -> P (or_simplified l).
Proof.
  intros Hl. unfold or_simplified.
  assert (H1 : Forall P (flat_map or_parts (filter (fun c => negb (is_WFalse c)) l))).
  { apply Forall_forall. intros c Hc. apply in_flat_map in Hc. destruct Hc as (d & Hd & Hc).
    apply filter_In in Hd. destruct Hd as [Hd _]. pose proof (proj1 (Forall_forall _ _) Hl d Hd) as HP.
    destruct d; cbn [or_parts] in Hc; try (destruct Hc as [<-|[]]; exact HP).
    apply P_or in HP. exact (proj1 (Forall_forall _ _) HP c Hc). }
  destruct (existsb _ _); [exact P_T|].
  destruct (flat_map _ _) as [|c [|c' l']]; [exact P_F|inversion H1; assumption|apply P_or; exact H1].
Qed.
End Closed.

Definition simps (f : nat) := mapM (simp_wc f).
Lemma simp_wc_and f l : simp_wc (S f) (WAnd l) = let* l' := mapM (simp_wc (S f)) l in Ok (and_simplified l').
Proof.
  cbn [simp_wc]. f_equal. induction l as [|c l IH]; [reflexivity|]. cbn [mapM]. rewrite <- IH. reflexivity.
Qed.
Lemma simp_wc_or f l : simp_wc (S f) (WOr l) = let* l' := mapM (simp_wc (S f)) l in Ok (or_simplified l').
Proof.
  cbn [simp_wc]. f_equal. induction l as [|c l IH]; [reflexivity|]. cbn [mapM]. rewrite <- IH. reflexivity.
Qed.

Lemma wc_safe_and l : wc_safe (WAnd l) <-> Forall wc_safe l.
Proof. apply fold_and_map. Qed.
Lemma wc_safe_or l : wc_safe (WOr l) <-> Forall wc_safe l.
Proof. apply fold_and_map. Qed.

Lemma simp_wc_sound e z : rnd_ok z -> forall f, sound e z (simp_wc f).
Proof.
  intros Hz. induction f as [|f IHf]; intros c; [intros c' Hc; discriminate|].
  assert (Hlist : forall l l', Forall (fun c => forall c', simp_wc (S f) c = Ok c' -> wc_safe c ->
                     wc_safe c' /\ forall i r, eval_wc e z i r c' = eval_wc e z i r c) l ->
             mapM (simp_wc (S f)) l = Ok l' -> Forall wc_safe l ->
             Forall wc_safe l' /\ forall i r, map (eval_wc e z i r) l' = map (eval_wc e z i r) l).
  { intros l l' HP Hm. apply mapM_Ok in Hm. induction Hm as [|c1 c1' l l' H1 Hm IH]; intros Hs.
    - split; [constructor|reflexivity].
    - apply Forall_cons_iff in HP. destruct HP as [HP1 HP2]. apply Forall_cons_iff in Hs. destruct Hs as [Hc1 Hc2].
      destruct (HP1 _ H1 Hc1) as [Hs1 He1]. destruct (IH HP2 Hc2) as [Hs2 He2]. split; [constructor; assumption|].
      intros i r. cbn [map]. rewrite He1, He2. reflexivity. }
  induction c as [c Hleaf|l IHl|l IHl] using wc_ind'; intros c' Hc Hs.
  - destruct c; try contradiction; cbn [simp_wc] in Hc; try (inversion Hc; subst; split; [assumption|reflexivity]).
    + apply bind_Ok in Hc. destruct Hc as (s' & Hs' & Hc). inversion Hc; subst.
      destruct (simp_stmt_sound Hz IHf Hs' Hs) as [Hsf Hrows]. split; [exact Hsf|].
      intros i r. cbn [eval_wc].
      assert (Heq : in3 e (map (rget r) columns) (map dvals (sem_stmt e z s')) =
                    in3 e (map (rget r) columns) (map dvals (sem_stmt e z values))).
      { apply in3_same. intros x. rewrite !in_map_iff.
        split; intros (y & Hy & Hin); exists y; (split; [exact Hy|]); apply Hrows; exact Hin. }
      rewrite Heq. reflexivity.
    + inversion Hc; subst. split.
      * unfold random_simplified. destruct (Qle_bool _ _); [exact I|]. destruct (Qle_bool _ _); exact I.
      * intros i r. apply random_simplified_eval. exact Hz.
  - rewrite simp_wc_and in Hc. apply bind_Ok in Hc. destruct Hc as (l' & Hl' & Hc). inversion Hc; subst c'.
    destruct (Hlist _ _ IHl Hl' (proj1 (wc_safe_and l) Hs)) as [Hsf Hev]. split.
    + apply (and_simplified_closed wc_safe_and I I). exact Hsf.
    + intros i r. rewrite and_simplified_eval, Hev. reflexivity.
  - rewrite simp_wc_or in Hc. apply bind_Ok in Hc. destruct Hc as (l' & Hl' & Hc). inversion Hc; subst c'.
    destruct (Hlist _ _ IHl Hl' (proj1 (wc_safe_or l) Hs)) as [Hsf Hev]. split.
    + apply (or_simplified_closed wc_safe_or I I). exact Hsf.
    + intros i r. rewrite or_simplified_eval, Hev. reflexivity.
Qed.

Theorem simplify_wc_eval e z c c' :
  rnd_ok z -> wc_safe c -> simplify_wc c = Ok c' -> forall i r, eval_wc e z i r c' = eval_wc e z i r c.
Proof. intros Hz Hs Hc. exact (proj2 (@simp_wc_sound e z Hz _ _ _ Hc Hs)). Qed.
Theorem simplify_stmt_rows e z s s' :
  rnd_ok z -> stmt_safe s -> simplify_stmt s = Ok s' -> same_rows (sem_stmt e z s') (sem_stmt e z s).
Proof. intros Hz Hs Hc. exact (proj2 (simp_stmt_sound Hz (@simp_wc_sound e z Hz _) Hc Hs)). Qed.
Theorem simplify_sel_list e z x s' :
  rnd_ok z -> sel_safe x -> simplify_stmt (SSelect x) = Ok s' -> sem_stmt e z s' = sem_stmt e z (SSelect x).
Proof.
  intros Hz Hs Hc. unfold simplify_stmt in Hc. cbn [simp_stmt_with] in Hc. apply bind_Ok in Hc.
  destruct Hc as (x' & Hx & Hc). inv Hc. exact (proj1 (simp_sel_sound (@simp_wc_sound e z Hz _) Hx Hs)).
Qed.

(** Totality. *)
Lemma nonempty_and l : wc_nonempty (WAnd l) <-> Forall wc_nonempty l.
Proof. apply fold_and_map. Qed.
Lemma nonempty_or l : wc_nonempty (WOr l) <-> Forall wc_nonempty l.
Proof. apply fold_and_map. Qed.
Lemma depth_list n l : list_max (map wc_depth l) <= n <-> Forall (fun c => wc_depth c <= n) l.
Proof. rewrite list_max_le, Forall_map. reflexivity. Qed.

Definition fine n c := wc_nonempty c /\ wc_depth c <= n.
Lemma Forall_and_iff {A} (P Q : A -> Prop) l : Forall (fun x => P x /\ Q x) l <-> Forall P l /\ Forall Q l.
Proof. rewrite !Forall_forall. firstorder. Qed.
Lemma fine_and n l : fine n (WAnd l) <-> Forall (fine n) l.
Proof. unfold fine. rewrite Forall_and_iff, nonempty_and. cbn [wc_depth]. rewrite depth_list. reflexivity. Qed.
Lemma fine_or n l : fine n (WOr l) <-> Forall (fine n) l.
Proof. unfold fine. rewrite Forall_and_iff, nonempty_or. cbn [wc_depth]. rewrite depth_list. reflexivity. Qed.
Lemma fine_T n : fine n WTrue. Proof. split; [exact I|cbn; lia]. Qed.
Lemma fine_F n : fine n WFalse. Proof. split; [exact I|cbn; lia]. Qed.

Definition sel_fine n s := sel_nonempty s /\ sel_depth s <= n.
Definition stmt_fine n s := stmt_nonempty s /\ stmt_depth s <= n.
Lemma sel_fine_where n s : sel_fine n s <-> match s_where s with Some w => fine n w | None => True end.
Proof.
  destruct s as [a b [w|] d e f]; unfold sel_fine, fine; cbn; [reflexivity|].
  split; [trivial|intros _; split; [exact I|lia]].
Qed.
Lemma union_fine n l : stmt_fine n (SUnion l) <-> l <> [] /\ Forall (sel_fine n) l.
Proof.
  unfold stmt_fine. cbn [stmt_nonempty stmt_depth]. rewrite fold_and_map, list_max_le, Forall_map.
  unfold sel_fine. rewrite Forall_and_iff. tauto.
Qed.

Definition total n (f : wc -> mres wc) := forall c, fine n c -> exists c', f c = Ok c' /\ fine n c'.
Lemma simp_sel_total n f : total n f -> forall s, sel_fine n s -> exists s', simp_sel f s = Ok s' /\ sel_fine n s'.
Proof.
  intros Hf s Hs. destruct s as [cols from [w|] lim js o]; cbn [simp_sel].
  2:{ eexists. split; [reflexivity|exact Hs]. }
  rewrite sel_fine_where in Hs. cbn [s_where] in Hs. destruct (Hf w Hs) as (w' & Hw & Hfw). rewrite Hw. cbn [bind].
  destruct js as [[|j js]|]; (eexists; split; [reflexivity|]); apply sel_fine_where; cbn [s_where];
    (destruct (is_WTrue w'); [exact I|exact Hfw]).
Qed.
Lemma mapM_total {E A B} (f : A -> res E B) (P : A -> Prop) (Q : B -> Prop) l :
  (forall a, P a -> exists b, f a = Ok b /\ Q b) -> Forall P l -> exists bs, mapM f l = Ok bs /\ Forall Q bs.
Proof.
  intros Hf. induction 1 as [|a l Ha Hl IH]; cbn [mapM]; [exists []; split; [reflexivity|constructor]|].
  destruct (Hf a Ha) as (b & -> & Hb). destruct IH as (bs & -> & Hbs). cbn [bind].
  exists (b :: bs). split; [reflexivity|constructor; assumption].
Qed.
Lemma simp_stmt_total n f : total n f -> forall s, stmt_fine n s -> exists s', simp_stmt_with f s = Ok s' /\ stmt_fine n s'.
Proof.
  intros Hf [x|l] Hs; cbn [simp_stmt_with].
  - destruct (simp_sel_total Hf Hs) as (x' & -> & Hx). exists (SSelect x'). split; [reflexivity|exact Hx].
  - apply union_fine in Hs. destruct Hs as [Hne Hs]. unfold simp_union.
    destruct (mapM_total (@simp_sel_total n f Hf) Hs) as (ss & -> & Hss). cbn [bind].
    assert (Hk : Forall (sel_fine n) (filter (fun s => negb (where_is_false s)) ss)).
    { apply Forall_forall. intros s Hin. apply filter_In in Hin. eapply Forall_forall; [exact Hss|apply Hin]. }
    destruct (filter _ ss) as [|s0 [|s1 rest]].
    + destruct l as [|s l]; [contradiction|]. apply Forall_cons_iff in Hs. destruct Hs as [Hs0 _].
      destruct (simp_sel_total Hf Hs0) as (x' & -> & Hx). exists (SSelect x'). split; [reflexivity|exact Hx].
    + apply Forall_cons_iff in Hk. exists (SSelect s0). split; [reflexivity|apply Hk].
    + destruct (forallb _ _).
      * assert (Hm : sel_fine n (Sel (s_columns s0) (s_from s0) (Some (WOr (map where_or_true (s0 :: s1 :: rest)))) None None false)).
        { apply sel_fine_where. cbn [s_where]. apply fine_or. apply Forall_map. eapply Forall_impl; [|exact Hk].
          intros s Hss'. apply sel_fine_where in Hss'. unfold where_or_true. destruct (s_where s); [exact Hss'|apply fine_T]. }
        destruct (simp_sel_total Hf Hm) as (x' & -> & Hx). exists (SSelect x'). split; [reflexivity|exact Hx].
      * exists (SUnion (s0 :: s1 :: rest)). split; [reflexivity|]. apply union_fine. split; [discriminate|exact Hk].
Qed.

Lemma simp_wc_total : forall n, total n (simp_wc (S n)).
Proof.
  induction n as [n IHn] using lt_wf_ind. intros c.
  induction c as [c Hleaf|l IHl|l IHl] using wc_ind'; intros Hc.
  - destruct c; try contradiction; try (eexists; split; [reflexivity|exact Hc]).
    + cbn [simp_wc]. destruct Hc as [Hne Hd]. cbn [wc_depth] in Hd. destruct n as [|n]; [lia|].
      assert (Hsf : stmt_fine n values) by (split; [exact Hne|lia]).
      destruct (simp_stmt_total (IHn n (Nat.lt_succ_diag_r n)) Hsf) as (s' & Hs' & Hf').
      rewrite Hs'. cbn [bind]. eexists; split; [reflexivity|]. split; [apply Hf'|].
      cbn [wc_depth]. destruct Hf'. lia.
    + eexists; split; [reflexivity|]. unfold random_simplified.
      destruct (Qle_bool _ _); [apply fine_F|]. destruct (Qle_bool _ _); [apply fine_T|exact Hc].
  - rewrite simp_wc_and. apply fine_and in Hc.
    assert (Hm : exists l', mapM (simp_wc (S n)) l = Ok l' /\ Forall (fine n) l').
    { apply mapM_total with (P := fun c => (fine n c -> exists c', simp_wc (S n) c = Ok c' /\ fine n c') /\ fine n c).
      - intros a [H1 H2]. exact (H1 H2).
      - apply Forall_and_iff. split; [exact IHl|exact Hc]. }
    destruct Hm as (l' & -> & Hl'). cbn [bind]. eexists; split; [reflexivity|].
    apply (and_simplified_closed (fine_and n) (fine_T n) (fine_F n)). exact Hl'.
  - rewrite simp_wc_or. apply fine_or in Hc.
    assert (Hm : exists l', mapM (simp_wc (S n)) l = Ok l' /\ Forall (fine n) l').
    { apply mapM_total with (P := fun c => (fine n c -> exists c', simp_wc (S n) c = Ok c' /\ fine n c') /\ fine n c).
      - intros a [H1 H2]. exact (H1 H2).
      - apply Forall_and_iff. split; [exact IHl|exact Hc]. }
    destruct Hm as (l' & -> & Hl'). cbn [bind]. eexists; split; [reflexivity|].
    apply (or_simplified_closed (fine_or n) (fine_T n) (fine_F n)). exact Hl'.
Qed.

Theorem simplify_wc_total c : wc_nonempty c -> exists c', simplify_wc c = Ok c'.
Proof.
  intros Hc. destruct (@simp_wc_total (wc_depth c) c) as (c' & H1 & _); [split; [exact Hc|lia]|].
  exists c'. exact H1.
Qed.
Theorem simplify_stmt_total s : stmt_nonempty s -> exists s', simplify_stmt s = Ok s'.
Proof.
  intros Hs. destruct (simp_stmt_total (@simp_wc_total (stmt_depth s)) (s := s)) as (s' & H1 & _);
    [split; [exact Hs|lia]|]. exists s'. exact H1.
Qed.
