(** Proofs about toposort_reachable (solver.py:52-107). *)
From Verif Require Import Model.Solver Proofs.GraphFacts Proofs.SolverTopo.
From Coq Require Import Sorting.Sorted.

Set Implicit Arguments.
Unset Strict Implicit.

Section Dfs.
Context {N : Type} `{EqDec N}.
Variable ord : list N -> list N.
Hypothesis ord_perm : any_order ord.
Variable G : dict N (list N).
Hypothesis Gok : graph_ok G.
Variable ignore : list N.
Implicit Types (u v x y : N) (W : dict N Z) (stk : list (N * list N)).

Let R := edge_avoiding G ignore.

(** Sum of the weights of the non-ignored members of a list. *)
Fixpoint wsum W (l : list N) : Z :=
  match l with
  | [] => 0
  | v :: l' => (if memb v ignore then 0 else getz W v) + wsum W l'
  end%Z.

Lemma wsum_app W l1 l2 : (wsum W (l1 ++ l2) = wsum W l1 + wsum W l2)%Z.
Proof. induction l1; cbn; lia. Qed.
Lemma wsum_perm W l1 l2 : Permutation l1 l2 -> wsum W l1 = wsum W l2.
Proof. induction 1; cbn; lia. Qed.
Lemma wsum_ext W W' l : (forall v, In v l -> ~ In v ignore -> getz W' v = getz W v) -> wsum W' l = wsum W l.
Proof.
  induction l as [|v l IH]; cbn; auto. intros Hx. rewrite IH by auto.
  destruct (memb v ignore) eqn:E; auto. apply memb_false in E. now rewrite Hx by auto.
Qed.
Lemma wsum_pos W l : (forall v, In v l -> ~ In v ignore -> 0 <= getz W v)%Z -> (0 <= wsum W l)%Z.
Proof.
  induction l as [|v l IH]; cbn; [lia|]. intros Hx.
  specialize (IH (fun v Hv => Hx v (or_intror Hv))).
  destruct (memb v ignore) eqn:E; [lia|]. apply memb_false in E. specialize (Hx v (or_introl eq_refl) E). lia.
Qed.
Lemma wsum_ge W l v : (forall w, In w l -> ~ In w ignore -> 0 <= getz W w)%Z ->
  In v l -> ~ In v ignore -> (getz W v <= wsum W l)%Z.
Proof.
  intros Hp Hv Hvi. apply in_split in Hv. destruct Hv as (l1 & l2 & ->).
  rewrite wsum_app. cbn. rewrite (proj2 (memb_false v ignore)) by auto.
  assert (0 <= wsum W l1)%Z by (apply wsum_pos; intros; apply Hp; auto; rewrite in_app_iff; auto).
  assert (0 <= wsum W l2)%Z by (apply wsum_pos; intros; apply Hp; auto; rewrite in_app_iff; cbn; auto).
  lia.
Qed.

(** [F] = finished nodes.  One clause per stack frame; [child] is the node of the frame above. *)
Fixpoint frames_ok (F : N -> Prop) W (child : list N) stk : Prop :=
  match stk with
  | [] => True
  | (u, it) :: rest =>
      (exists done, Permutation (done ++ child ++ it) (adj G u) /\
        (forall v, In v done -> ~ In v ignore -> F v) /\
        dget W u = Some (1 + wsum W done)%Z) /\
      frames_ok F W [u] rest
  end.

Lemma frames_mono (F F' : N -> Prop) W W' stk : forall child,
  (forall x, F x -> F' x) -> (forall x, F x -> getz W' x = getz W x) ->
  (forall x, In x (map fst stk) -> dget W' x = dget W x) ->
  frames_ok F W child stk -> frames_ok F' W' child stk.
Proof.
  induction stk as [|[u it] rest IH]; intros child HF HW Hs; cbn [frames_ok]; auto.
  intros [(done & Hp & Hd & Hw) Hr]. split.
  - exists done. split; auto. split; [auto|].
    rewrite Hs by (now left). rewrite Hw. f_equal. f_equal. symmetry. apply wsum_ext. auto.
  - apply IH; auto. intros x Hx. apply Hs. now right.
Qed.

Definition fin W stk x : Prop := In x (dkeys W) /\ ~ In x (map fst stk).

Record dinv (P : N -> Prop) W (on_stk : list N) stk : Prop := {
  di_nd : NoDup (dkeys W);
  di_key : forall x, In x (dkeys W) -> node G x /\ ~ In x ignore /\ P x;
  di_on : forall x, In x on_stk <-> In x (map fst stk);
  di_stk : NoDup (map fst stk);
  di_sub : forall x, In x (map fst stk) -> In x (dkeys W);
  di_fin : forall x, fin W stk x ->
     dget W x = Some (1 + wsum W (adj G x))%Z /\ (forall v, R x v -> fin W stk v);
  di_pos : forall x w, dget W x = Some w -> (1 <= w)%Z;
  di_frames : frames_ok (fin W stk) W [] stk
}.

(** Closed weights: no search in progress. *)
Definition closed P W := dinv P W [] [].

Definition unvis W : nat :=
  list_sum (map (fun ue => if dmem W (fst ue) then 0 else S (length (snd ue))) G).
Definition frames_sz stk : nat := list_sum (map (fun f => S (length (snd f))) stk).

Lemma frames_sz_cons u it stk : frames_sz ((u, it) :: stk) = S (length it) + frames_sz stk.
Proof. reflexivity. Qed.
Lemma unvis_old W x w w' : dget W x = Some w' -> unvis (dset W x w) = unvis W.
Proof.
  intros E. unfold unvis. f_equal. apply map_ext. intros [a b]. cbn. unfold dmem. rewrite dget_dset.
  destruct (eq_dec a x) as [->|]; auto. now rewrite E.
Qed.
Lemma unvis_new_aux W v w es (l : dict N (list N)) : ~ In v (dkeys W) -> NoDup (dkeys l) -> In (v, es) l ->
  list_sum (map (fun ue => if dmem W (fst ue) then 0 else S (length (snd ue))) l)
  = list_sum (map (fun ue => if dmem (dset W v w) (fst ue) then 0 else S (length (snd ue))) l)
    + S (length es).
Proof.
  intros Hw.
  assert (Hd : forall x, dmem (dset W v w) x = if eq_dec x v then true else dmem W x).
  { intros x. unfold dmem. rewrite dget_dset. now destruct (eq_dec x v). }
  unfold list_sum.
  induction l as [|[u us] l IH]; cbn [map fold_right fst snd dkeys]; [intros _ []|].
  intros Hn Hi. inv Hn. rewrite Hd. destruct Hi as [E|Hi].
  - inv E. destruct (eq_dec v v); [|congruence].
    rewrite (proj2 (dmem_false W v)) by auto.
    replace (map (fun ue => if dmem (dset W v w) (fst ue) then 0 else S (length (snd ue))) l)
      with (map (fun ue => if dmem W (fst ue) then 0 else S (length (snd ue))) l); [lia|].
    apply map_ext_in. intros [a b] Hab. cbn. rewrite Hd.
    destruct (eq_dec a v) as [->|]; auto. exfalso. apply H2. change v with (fst (v, b)). now apply in_map.
  - specialize (IH H3 Hi).
    destruct (eq_dec u v) as [->|].
    { exfalso. apply H2. change v with (fst (v, es)). now apply in_map. }
    lia.
Qed.
Lemma unvis_new W v w : node G v -> ~ In v (dkeys W) ->
  unvis W = unvis (dset W v w) + S (length (adj G v)).
Proof.
  intros Hv Hw. apply unvis_new_aux; auto; [apply Gok|]. now apply dget_In, adj_dget'.
Qed.

Lemma getz_dget W x w : dget W x = Some w -> getz W x = w.
Proof. intros E. unfold getz, dget_or. now rewrite E. Qed.
Lemma getz_dset W x w y : getz (dset W x w) y = if eq_dec y x then w else getz W y.
Proof. unfold getz, dget_or. rewrite dget_dset. now destruct (eq_dec y x). Qed.

(** The reported cycle. *)
Fixpoint rchain (l : list N) : Prop :=
  match l with
  | a :: ((b :: _) as l') => R b a /\ rchain l'
  | _ => True
  end.
Lemma rchain_rev l a r : rchain l -> rev l = a :: r -> chain R a r.
Proof.
  revert a r. induction l as [|b l IH]; intros a r Hc Hr; [discriminate|].
  cbn [rev] in Hr. destruct l as [|c l].
  - cbn in Hr. inv Hr. exact I.
  - destruct Hc as [Hbc Hc]. destruct (rev (c :: l)) as [|a' r'] eqn:E.
    { cbn in E. now apply app_eq_nil in E. }
    cbn in Hr. inv Hr. specialize (IH a r' Hc eq_refl).
    (* last element of a :: r' is c *)
    cbn [rev] in E. destruct r' as [|d r'] using rev_ind.
    + destruct (rev l) eqn:El; cbn in E; inv E.
      * cbn. auto.
      * exfalso. destruct l0; discriminate.
    + clear IHr'. assert (Hlast : d = c).
      { rewrite app_comm_cons in E. apply app_inj_tail in E. intuition congruence. }
      subst d. apply chain_app_one; auto.
Qed.
Lemma cyc_collect_spec v stk : In v (map fst stk) ->
  exists l rest, cyc_collect v stk = l ++ [v] /\ map fst stk = (l ++ [v]) ++ rest.
Proof.
  induction stk as [|[w it] stk IH]; cbn; [tauto|]. intros Hi.
  destruct (eq_dec w v) as [->|Hne].
  - exists [], (map fst stk). auto.
  - destruct Hi as [?|Hi]; [congruence|]. destruct (IH Hi) as (l & rest & E1 & E2).
    exists (w :: l), rest. cbn. rewrite E1, E2. auto.
Qed.
Lemma rchain_app_l l1 l2 : rchain (l1 ++ l2) -> rchain l1.
Proof.
  revert l2. induction l1 as [|a l1 IH]; intros l2; cbn; auto.
  destruct l1 as [|b l1]; cbn in *; auto. intros [? ?]. split; auto. eapply IH; eauto.
Qed.
Lemma frames_rchain W stk F : forall child,
  (forall x, In x (map fst stk) -> ~ In x ignore) ->
  (forall x, In x child -> ~ In x ignore) ->
  frames_ok F W child stk -> length child <= 1 -> rchain (child ++ map fst stk).
Proof.
  induction stk as [|[u it] rest IH]; intros child Hig Hc Hf Hl.
  - cbn. rewrite app_nil_r. destruct child as [|a [|b c]]; cbn in *; auto. lia.
  - cbn [frames_ok] in Hf. destruct Hf as [(done & Hp & _ & _) Hr].
    cbn [map fst]. assert (IH' : rchain ([u] ++ map fst rest)).
    { apply IH; auto.
      - intros x Hx. apply Hig. now right.
      - intros x [->|[]]. apply Hig. now left. }
    destruct child as [|a [|b c]]; cbn in *; auto; [|lia].
    split; auto. split.
    + apply edge_adj; [apply Gok|]. eapply Permutation_in; [exact Hp|].
      rewrite in_app_iff. right. now left.
    + apply Hc. now left.
Qed.

Definition reaches_cycle (P : N -> Prop) (c : list N) : Prop :=
  is_cycle R c /\ (forall x, In x c -> P x).

Lemma dfs_loop_spec (P : N -> Prop) :
  (forall a b, P a -> R a b -> P b) ->
  forall fuel W on_stk stk,
  dinv P W on_stk stk -> unvis W + frames_sz stk < fuel ->
  (exists W', dfs_loop ord fuel G ignore W on_stk stk = Ok W' /\ closed P W' /\
      (forall x, In x (dkeys W) -> In x (dkeys W')))
  \/ (exists c, dfs_loop ord fuel G ignore W on_stk stk = Err (CycleExn c) /\ reaches_cycle P c).
Proof.
  intros HP. induction fuel as [|f IH]; intros W on_stk stk Hinv Hfuel; [lia|].
  pose proof Hinv as [Hnd Hkey Hon Hstk Hsub Hfin Hpos Hfr].
  assert (Hnon : forall x, In x (map fst stk) -> ~ In x ignore).
  { intros x Hx. apply Hsub, Hkey in Hx. tauto. }
  destruct stk as [|[u [|v it]] rest].
  - (* done *)
    left. exists W. cbn [dfs_loop]. split; auto. split; [|auto].
    constructor; auto. intros x. cbn. tauto.
  - (* pop *)
    cbn [dfs_loop]. rewrite (proj2 (memb_true u on_stk)) by (apply Hon; now left).
    cbn [frames_ok] in Hfr. destruct Hfr as [(done & Hp & Hd & Hw) Hr].
    cbn [app] in Hp. rewrite app_nil_r in Hp. cbn [map fst] in *. inv Hstk.
    set (on' := set_remove u on_stk).
    assert (Hon' : forall x, In x on' <-> In x (map fst rest)).
    { intros x. unfold on'. rewrite set_remove_In, Hon. cbn. split.
      - intros [[?|?] ?]; congruence.
      - intros Hx. split; auto. intros ->. auto. }
    assert (Hmono : forall x, fin W ((u, []) :: rest) x -> fin W rest x).
    { intros x [Hx1 Hx2]. split; auto. intros Hx. apply Hx2. now right. }
    assert (Hufin : dget W u = Some (1 + wsum W (adj G u))%Z).
    { rewrite Hw. f_equal. f_equal. now apply wsum_perm. }
    assert (Huch : forall v, R u v -> fin W ((u, []) :: rest) v).
    { intros v [He Hv]. apply Hd; auto. apply edge_adj in He; [|apply Gok].
      eapply Permutation_in; [symmetry; exact Hp|auto]. }
    assert (Hfin' : forall x, fin W rest x ->
       dget W x = Some (1 + wsum W (adj G x))%Z /\ (forall v, R x v -> fin W rest v)).
    { intros x [Hx1 Hx2]. destruct (eq_dec x u) as [->|Hne].
      - split; auto.
      - destruct (Hfin x) as [Hx3 Hx4].
        + split; auto. intros [?|?]; [cbn in *; congruence|auto].
        + split; auto. }
    destruct rest as [|[p itp] rest'].
    + destruct (IH W on' []) as [(W' & E & Hc & Hm)|(c & E & Hc)].
      * constructor; auto; cbn; try tauto.
      * cbn in *. lia.
      * left. exists W'. auto.
      * right. exists c. auto.
    + cbn [frames_ok] in Hr. destruct Hr as [(donep & Hpp & Hdp & Hwp) Hr].
      rewrite (proj2 (dfind_Ok _ _ _ _) Hwp). cbn [bind].
      rewrite (proj2 (dfind_Ok _ _ _ _) Hw). cbn [bind].
      set (wp := (1 + wsum W donep)%Z) in *. set (wu := (1 + wsum W done)%Z) in *.
      set (W1 := dset W p (wp + wu)%Z).
      assert (Hk1 : dkeys W1 = dkeys W).
      { apply dkeys_dset_old. eapply dget_Some_key; eauto. }
      assert (Hfin_ne : forall x, fin W ((p, itp) :: rest') x -> x <> p).
      { intros x [_ Hx] ->. apply Hx. now left. }
      assert (Hg1 : forall x, x <> p -> getz W1 x = getz W x).
      { intros x Hx. unfold W1. rewrite getz_dset. destruct (eq_dec x p); congruence. }
      assert (Hfeq : forall x, fin W1 ((p, itp) :: rest') x <-> fin W ((p, itp) :: rest') x).
      { intros x. unfold fin. now rewrite Hk1. }
      assert (Hws : forall l, (forall v, In v l -> ~ In v ignore -> fin W ((p, itp) :: rest') v) ->
                 wsum W1 l = wsum W l).
      { intros l Hl. apply wsum_ext. intros v Hv Hvi. apply Hg1. apply Hfin_ne. auto. }
      destruct (IH W1 on' ((p, itp) :: rest')) as [(W' & E & Hc & Hm)|(c & E & Hc)].
      * constructor; auto.
        -- now rewrite Hk1.
        -- intros x. rewrite Hk1. auto.
        -- intros x Hx. rewrite Hk1. apply Hsub. now right.
        -- intros x Hx. apply Hfeq in Hx. destruct (Hfin' x Hx) as [H4 H5]. split.
           ++ unfold W1. rewrite dget_dset_ne by (now apply Hfin_ne). fold W1. rewrite H4. f_equal. f_equal.
              symmetry. apply Hws. intros v Hv Hvi. apply H5. split; auto. apply edge_adj; [apply Gok|auto].
           ++ intros v Hv. apply Hfeq. auto.
        -- intros x w Hx. unfold W1 in Hx. rewrite dget_dset in Hx. destruct (eq_dec x p).
           ++ inv Hx. apply Hpos in Hwp. apply Hpos in Hw. lia.
           ++ eauto.
        -- cbn [frames_ok]. split.
           ++ exists (donep ++ [u]). split; [|split].
              ** rewrite <- app_assoc. exact Hpp.
              ** intros v Hv Hvi. apply Hfeq. apply in_app_iff in Hv. destruct Hv as [Hv|[<-|[]]]; auto.
                 split; [apply Hsub; now left | auto].
              ** unfold W1. rewrite dget_dset_eq. fold W1. f_equal.
                 rewrite Hws.
                 { rewrite wsum_app. cbn [wsum].
                   rewrite (proj2 (memb_false u ignore)) by (apply Hnon; now left).
                   rewrite (getz_dget Hw). unfold wp. lia. }
                 { intros v Hv Hvi. apply in_app_iff in Hv. destruct Hv as [Hv|[<-|[]]]; auto.
                   split; [apply Hsub; now left | auto]. }
           ++ eapply frames_mono; [| | |exact Hr].
              ** intros x Hx. apply Hfeq. auto.
              ** intros x Hx. apply Hg1. apply Hfin_ne. auto.
              ** intros x Hx. unfold W1. apply dget_dset_ne. intros ->. cbn in H3. inv H3. auto.
      * unfold W1. rewrite (unvis_old _ Hwp). rewrite !frames_sz_cons in *. cbn [length] in *. lia.
      * left. exists W'. split; auto. split; auto. intros x Hx. apply Hm. now rewrite Hk1.
      * right. exists c. auto.
  - (* next edge *)
    cbn [dfs_loop]. cbn [frames_ok] in Hfr. destruct Hfr as [(done & Hp & Hd & Hw) Hr].
    cbn [app] in Hp. cbn [map fst] in *.
    assert (Huv : edge G u v).
    { apply edge_adj; [apply Gok|]. eapply Permutation_in; [exact Hp|]. rewrite in_app_iff. right. now left. }
    assert (Hfr_next : forall W2,
       (forall x, fin W ((u, v :: it) :: rest) x -> getz W2 x = getz W x) ->
       dkeys W2 = dkeys W ->
       dget W2 u = Some (1 + wsum W (done ++ [v]))%Z ->
       (~ In v ignore -> fin W ((u, v :: it) :: rest) v) ->
       (forall x, In x (map fst rest) -> dget W2 x = dget W x) ->
       (forall x, fin W ((u, v :: it) :: rest) x -> dget W2 x = dget W x) ->
       (forall x w, dget W2 x = Some w -> (1 <= w)%Z) ->
       dinv P W2 on_stk ((u, it) :: rest)).
    { intros W2 Hg2 Hk2 Hw2 Hvf Hr2 Hdg2 Hp2.
      assert (Hfeq : forall x, fin W2 ((u, it) :: rest) x <-> fin W ((u, v :: it) :: rest) x).
      { intros x. unfold fin. cbn. now rewrite Hk2. }
      constructor; auto.
      - now rewrite Hk2.
      - intros x. rewrite Hk2. auto.
      - intros x. rewrite Hk2. apply Hsub.
      - intros x Hx. apply Hfeq in Hx. destruct (Hfin x Hx) as [H1 H2]. split.
        + rewrite Hdg2 by auto. rewrite H1. f_equal. f_equal. symmetry. apply wsum_ext.
          intros w Hww Hwi. apply Hg2. apply H2. split; auto. apply edge_adj; [apply Gok|auto].
        + intros w Hww. apply Hfeq. auto.
      - cbn [frames_ok]. split.
        + exists (done ++ [v]). split; [|split].
          * rewrite <- app_assoc. exact Hp.
          * intros w Hw' Hwi. apply Hfeq. apply in_app_iff in Hw'. destruct Hw' as [Hw'|[<-|[]]]; auto.
          * rewrite Hw2. f_equal. f_equal. symmetry. apply wsum_ext.
            intros w Hw' Hwi. apply Hg2. apply in_app_iff in Hw'. destruct Hw' as [Hw'|[<-|[]]]; auto.
        + eapply frames_mono; [| | |exact Hr]; auto.
          intros x Hx. apply Hfeq. auto. }
    destruct (memb v ignore) eqn:Ei.
    { (* ignored *)
      destruct (IH W on_stk ((u, it) :: rest)) as [(W' & E & Hc & Hm)|(c & E & Hc)].
      - apply memb_true in Ei. apply Hfr_next; auto; try tauto.
        rewrite Hw, wsum_app. cbn [wsum]. rewrite (proj2 (memb_true v ignore)) by auto. f_equal. lia.
      - rewrite !frames_sz_cons in *. cbn [length] in *. lia.
      - left. exists W'. auto.
      - right. exists c. auto. }
    apply memb_false in Ei.
    assert (HR : R u v) by (split; auto).
    destruct (memb v on_stk) eqn:Eo.
    { (* cycle *)
      right. eexists. split; [reflexivity|]. apply memb_true, Hon in Eo.
      destruct (@cyc_collect_spec v ((u, v :: it) :: rest) Eo) as (l & r & E1 & E2).
      rewrite E1, rev_app_distr. cbn [rev app].
      assert (Hch : rchain (v :: l ++ [v])).
      { apply rchain_app_l with (l2 := r). cbn [app]. rewrite <- E2. cbn [map fst].
        assert (Hch : rchain ([] ++ map fst ((u, v :: it) :: rest))).
        { apply (frames_rchain (child := []) (stk := (u, v :: it) :: rest) Hnon (fun x h => False_ind _ h) (di_frames Hinv)). cbn. lia. }
        cbn [app map fst] in Hch. split; auto. }
      assert (Hin : forall x, In x (v :: rev l) -> In x (dkeys W)).
      { intros x Hx. apply Hsub. change (u :: map fst rest) with (map fst ((u, v :: it) :: rest)).
        rewrite E2. rewrite !in_app_iff. cbn. destruct Hx as [->|Hx]; auto.
        apply in_rev in Hx. auto. }
      split.
      - split.
        + change (v :: rev l) with ([v] ++ rev l).
          change [v] with (rev [v]) at 1. rewrite <- rev_app_distr. apply NoDup_rev.
          cbn [map fst] in E2. rewrite E2 in Hstk. now apply NoDup_app_iff in Hstk.
        + apply (rchain_rev (l := v :: l ++ [v])); auto. cbn. rewrite rev_app_distr. reflexivity.
      - intros x Hx. apply Hkey. auto. }
    apply memb_false in Eo. rewrite Hon in Eo.
    destruct (dget W v) as [wv|] eqn:Ev.
    { (* already weighted *)
      assert (Hvfin : fin W ((u, v :: it) :: rest) v).
      { split; auto. eapply dget_Some_key; eauto. }
      rewrite (proj2 (dfind_Ok _ _ _ _) Hw). cbn [bind].
      assert (Hfne : forall x, fin W ((u, v :: it) :: rest) x -> x <> u).
      { intros x [_ Hx] ->. apply Hx. now left. }
      destruct (IH (dset W u (1 + wsum W done + wv)%Z) on_stk ((u, it) :: rest)) as [(W' & E & Hc & Hm)|(c & E & Hc)].
      - apply Hfr_next.
        + intros x Hx. rewrite getz_dset. apply Hfne in Hx. destruct (eq_dec x u); congruence.
        + apply dkeys_dset_old. eapply dget_Some_key; eauto.
        + rewrite dget_dset_eq, wsum_app. cbn [wsum]. rewrite (proj2 (memb_false v ignore)) by auto.
          rewrite (getz_dget Ev). f_equal. lia.
        + auto.
        + intros x Hx. apply dget_dset_ne. intros ->. inv Hstk. auto.
        + intros x Hx. apply dget_dset_ne. now apply Hfne.
        + intros x w Hx. rewrite dget_dset in Hx. destruct (eq_dec x u); [|eauto].
          apply Hpos in Ev. apply Hpos in Hw. assert (w = 1 + wsum W done + wv)%Z by congruence. lia.
      - rewrite (unvis_old _ Hw). rewrite !frames_sz_cons in *. cbn [length] in *. lia.
      - left. exists W'. split; auto. split; auto. intros x Hx. apply Hm.
        rewrite dset_In_key. auto.
      - right. exists c. auto. }
    (* push *)
    apply dget_None in Ev.
    assert (Hvn : node G v) by (apply (edge_node_r Gok Huv)).
    rewrite (proj2 (dfind_Ok _ _ _ _) (adj_dget' Hvn)). cbn [bind].
    set (W1 := dset W v 1%Z).
    assert (Hk1 : forall x, In x (dkeys W1) <-> x = v \/ In x (dkeys W)) by (intros; apply dset_In_key).
    assert (Hfne : forall x, fin W ((u, v :: it) :: rest) x -> x <> v).
    { intros x [Hx _] ->. auto. }
    assert (Hfeq : forall x, fin W1 ((v, ord (adj G v)) :: (u, it) :: rest) x <-> fin W ((u, v :: it) :: rest) x).
    { intros x. unfold fin. rewrite Hk1. cbn. split.
      - intros [[->|Hx] Hn]; [exfalso; apply Hn; now left|]. split; auto.
      - intros [Hx Hn]. split; auto. intros [<-|Hx']; auto. }
    assert (Hg1 : forall x, x <> v -> dget W1 x = dget W x).
    { intros x Hx. unfold W1. now apply dget_dset_ne. }
    assert (Hgz1 : forall x, x <> v -> getz W1 x = getz W x).
    { intros x Hx. unfold getz, dget_or. now rewrite Hg1. }
    assert (Huv' : u <> v). { intros ->. apply Eo. now left. }
    destruct (IH W1 (set_add v on_stk) ((v, ord (adj G v)) :: (u, it) :: rest)) as [(W' & E & Hc & Hm)|(c & E & Hc)].
    + constructor.
      * now apply dset_NoDup.
      * intros x Hx. apply Hk1 in Hx. destruct Hx as [->|Hx]; auto.
        split; auto. split; auto. apply HP with (a := u); auto. apply Hkey, Hsub. now left.
      * intros x. rewrite set_add_In, Hon. cbn. intuition congruence.
      * cbn. constructor; auto.
      * intros x Hx. apply Hk1. cbn in Hx. destruct Hx as [<-|Hx]; auto.
      * intros x Hx. apply Hfeq in Hx. destruct (Hfin x Hx) as [H1 H2]. split.
        -- rewrite Hg1 by auto. rewrite H1. f_equal. f_equal. symmetry. apply wsum_ext.
           intros w Hww Hwi. apply Hgz1, Hfne, H2. split; auto. apply edge_adj; [apply Gok|auto].
        -- intros w Hww. apply Hfeq. auto.
      * intros x w Hx. unfold W1 in Hx. rewrite dget_dset in Hx. destruct (eq_dec x v); [inv Hx; lia|eauto].
      * cbn [frames_ok]. split; [|split].
        -- exists []. cbn. split; [apply ord_perm|]. split; [tauto|]. unfold W1. rewrite dget_dset_eq. reflexivity.
        -- exists done. split; [exact Hp|]. split.
           ++ intros w Hw1 Hw2. apply Hfeq. auto.
           ++ rewrite Hg1 by auto. rewrite Hw. f_equal. f_equal. symmetry. apply wsum_ext.
              intros w Hw1 Hw2. apply Hgz1, Hfne. auto.
        -- eapply frames_mono; [| | |exact Hr].
           ++ intros x Hx. apply Hfeq. auto.
           ++ intros x Hx. apply Hgz1, Hfne. auto.
           ++ intros x Hx. apply Hg1. intros ->. apply Eo. now right.
    + rewrite (unvis_new 1%Z Hvn Ev) in Hfuel. fold W1 in Hfuel.
      rewrite !frames_sz_cons in *. cbn [length] in *.
      rewrite (Permutation_length (ord_perm (adj G v))). lia.
    + left. exists W'. split; auto. split; auto. intros x Hx. apply Hm, Hk1. auto.
    + right. exists c. auto.
Qed.

Lemma forM_or {E S A : Type} (Inv : list A -> S -> Prop) (Q : E -> Prop) (f : S -> A -> res E S) l s :
  Inv [] s ->
  (forall done a rest s0, l = done ++ a :: rest -> Inv done s0 ->
     (exists s1, f s0 a = Ok s1 /\ Inv (done ++ [a]) s1) \/ (exists e, f s0 a = Err e /\ Q e)) ->
  (exists s', forM f l s = Ok s' /\ Inv l s') \/ (exists e, forM f l s = Err e /\ Q e).
Proof.
  intros H0 Hstep.
  assert (Hg : forall rest done s0, l = done ++ rest -> Inv done s0 ->
     (exists s', forM f rest s0 = Ok s' /\ Inv l s') \/ (exists e, forM f rest s0 = Err e /\ Q e)).
  { induction rest as [|a rest IH]; intros done s0 Hl Hp; cbn.
    - left. exists s0. split; auto. subst. now rewrite app_nil_r.
    - destruct (Hstep done a rest s0 Hl Hp) as [(s1 & H1 & H2)|(e & H1 & H2)]; rewrite H1; cbn.
      + apply IH with (done := done ++ [a]); auto. now rewrite <- app_assoc.
      + right. eauto. }
  apply (Hg l [] s eq_refl H0).
Qed.

Lemma closed_nil P : closed P [].
Proof.
  constructor; cbn; try tauto; try constructor; try discriminate.
  all: intros; unfold fin in *; cbn in *; tauto.
Qed.

Lemma unvis_le W : unvis W < dfs_fuel G.
Proof.
  unfold unvis, dfs_fuel. apply le_n_S. generalize G as l. clear. intros l. unfold list_sum.
  induction l as [|[u us] l IH]; cbn; [lia|]. destruct (dmem W u); lia.
Qed.

Lemma dfs_root_spec (P : N -> Prop) W u :
  (forall a b, P a -> R a b -> P b) -> closed P W -> node G u -> (~ In u ignore -> P u) ->
  (exists W', dfs_root ord G ignore W u = Ok W' /\ closed P W' /\
     (forall x, In x (dkeys W) -> In x (dkeys W')) /\ (~ In u ignore -> In u (dkeys W')))
  \/ (exists c, dfs_root ord G ignore W u = Err (CycleExn c) /\ reaches_cycle P c).
Proof.
  intros HP Hcl Hu HPu. unfold dfs_root.
  destruct (memb u ignore) eqn:Ei; cbn [orb].
  { left. exists W. apply memb_true in Ei. split; auto. split; auto. split; auto. tauto. }
  apply memb_false in Ei. destruct (dmem W u) eqn:Ed.
  { left. exists W. apply dmem_true in Ed. auto. }
  apply dmem_false in Ed.
  rewrite (proj2 (dfind_Ok _ _ _ _) (adj_dget' Hu)). cbn [bind].
  pose proof Hcl as [Hnd Hkey _ _ _ Hfin Hpos _].
  set (W1 := dset W u 1%Z).
  assert (Hfeq : forall x, fin W1 [(u, ord (adj G u))] x <-> In x (dkeys W)).
  { intros x. unfold fin, W1. rewrite dset_In_key. cbn. split.
    - intros [[->|Hx] Hn]; auto. exfalso. auto.
    - intros Hx. split; auto. intros [->|[]]. auto. }
  assert (Hg1 : forall x, In x (dkeys W) -> dget W1 x = dget W x).
  { intros x Hx. apply dget_dset_ne. intros ->. auto. }
  destruct (@dfs_loop_spec P HP (dfs_fuel G) W1 [u] [(u, ord (adj G u))]) as [(W' & E & Hc & Hm)|(c & E & Hc)].
  - constructor.
    + now apply dset_NoDup.
    + intros x Hx. apply dset_In_key in Hx. destruct Hx as [->|Hx]; auto.
    + intros x. cbn. tauto.
    + cbn. repeat constructor. auto.
    + intros x [<-|[]]. apply dset_In_key. auto.
    + intros x Hx. apply Hfeq in Hx. destruct (Hfin x) as [H1 H2]; [split; auto|]. split.
      * rewrite Hg1 by auto. rewrite H1. f_equal. f_equal. symmetry. apply wsum_ext.
        intros v Hv Hvi. unfold getz, dget_or. rewrite Hg1; auto.
        apply H2. split; auto. apply edge_adj; [apply Gok|auto].
      * intros v Hv. apply Hfeq. apply H2, Hv.
    + intros x w Hx. unfold W1 in Hx. rewrite dget_dset in Hx. destruct (eq_dec x u); [inv Hx; lia|eauto].
    + cbn [frames_ok]. split; auto. exists []. cbn. split; [apply ord_perm|]. split; [tauto|].
      unfold W1. now rewrite dget_dset_eq.
  - rewrite frames_sz_cons. rewrite (Permutation_length (ord_perm (adj G u))).
    pose proof (unvis_le W) as Hle. rewrite (unvis_new 1%Z Hu Ed) in Hle. fold W1 in Hle.
    unfold frames_sz. cbn [map list_sum fold_right]. unfold list_sum. cbn [fold_right]. lia.
  - left. exists W'. rewrite E. split; auto. split; auto.
    assert (Hm' : forall x, x = u \/ In x (dkeys W) -> In x (dkeys W')).
    { intros x Hx. apply Hm. apply dset_In_key. auto. }
    split; auto.
  - right. exists c. auto.
Qed.

Variable sources : list N.
Hypothesis src_node : forall s, In s sources -> node G s.
Hypothesis src_ign : forall s, In s sources -> In s ignore.

Let P := reachable_avoiding G sources ignore.

Lemma reach_closed a b : P a -> R a b -> P b.
Proof. intros (s & Hs & Hp) Hr. exists s. split; auto. eapply t_trans; [exact Hp|]. now apply t_step. Qed.

Lemma dfs_sources_spec :
  (exists W, forM (dfs_source ord G ignore) sources [] = Ok W /\ closed P W /\
      (forall x, In x (dkeys W) <-> P x))
  \/ (exists c, forM (dfs_source ord G ignore) sources [] = Err (CycleExn c) /\ reaches_cycle P c).
Proof.
  destruct (@forM_or (solver_exn N) (dict N Z) N
     (fun done W => closed P W /\ (forall s v, In s done -> R s v -> In v (dkeys W)))
     (fun e => exists c, e = CycleExn c /\ reaches_cycle P c)
     (dfs_source ord G ignore) sources []) as [(W & E & Hc & Hs)|(e & E & c & -> & Hc)].
  - split; [apply closed_nil|]. intros s v [].
  - intros done s rest W Hl (Hc & Hs).
    assert (Hsin : In s sources) by (rewrite Hl, in_app_iff; right; now left).
    unfold dfs_source. rewrite (proj2 (memb_true s ignore)) by auto.
    rewrite (proj2 (dfind_Ok _ _ _ _) (adj_dget' (src_node Hsin))). cbn [bind].
    destruct (@forM_or (solver_exn N) (dict N Z) N
     (fun d W' => closed P W' /\ (forall x, In x (dkeys W) -> In x (dkeys W')) /\
                  (forall v, In v d -> ~ In v ignore -> In v (dkeys W')))
     (fun e => exists c, e = CycleExn c /\ reaches_cycle P c)
     (dfs_root ord G ignore) (ord (adj G s)) W) as [(W' & E & Hc' & Hm & Hv)|(e & E & He)].
    + split; auto. split; auto. intros v [].
    + intros d v r W1 Hl1 (Hc1 & Hm1 & Hv1).
      assert (Hev : edge G s v).
      { apply edge_adj; [apply Gok|]. rewrite <- (ord_In ord_perm). rewrite Hl1, in_app_iff. right. now left. }
      destruct (@dfs_root_spec P W1 v reach_closed Hc1) as [(W' & E & Hc' & Hm & Hv)|(c & E & Hcy)].
      * apply (edge_node_r Gok Hev).
      * intros Hvi. exists s. split; auto. apply t_step. split; auto.
      * left. exists W'. split; auto. split; auto. split; auto.
        intros w Hw Hwi. apply in_app_iff in Hw. destruct Hw as [Hw|[<-|[]]]; auto.
      * right. exists (CycleExn c). split; auto. exists c. auto.
    + left. exists W'. split; auto. split; auto. intros s' v Hs' Hr.
      apply in_app_iff in Hs'. destruct Hs' as [Hs'|[<-|[]]].
      * apply Hm. eauto.
      * apply Hv; [|apply Hr]. rewrite (ord_In ord_perm). apply edge_adj; [apply Gok|apply Hr].
    + right. eauto.
  - left. exists W. split; auto. split; auto. intros x. split.
    + intros Hx. apply (di_key Hc) in Hx. tauto.
    + intros (s & Hsin & Hp). revert x Hp. apply path_ind_r; [eauto|].
      intros y z _ Hy Hr. destruct (di_fin Hc (x := y)) as [_ Hf]; [split; auto|]. apply (Hf z Hr).
  - right. eauto.
Qed.

Lemma closed_weight W x : closed P W -> In x (dkeys W) ->
  dget W x = Some (1 + wsum W (adj G x))%Z /\ (forall v, R x v -> In v (dkeys W)).
Proof.
  intros Hc Hx. destruct (di_fin Hc (x := x)) as [H1 H2]; [split; auto|]. split; auto.
  intros v Hv. apply (H2 v Hv).
Qed.
Lemma closed_pos W x : closed P W -> In x (dkeys W) -> (1 <= getz W x)%Z.
Proof.
  intros Hc Hx. destruct (key_dget Hx) as (w & E). rewrite (getz_dget E). eapply (di_pos Hc); eauto.
Qed.
Lemma closed_decr W x v : closed P W -> In x (dkeys W) -> R x v -> (getz W v < getz W x)%Z.
Proof.
  intros Hc Hx Hr. destruct (closed_weight Hc Hx) as [H1 H2].
  rewrite (getz_dget H1).
  assert (getz W v <= wsum W (adj G x))%Z; [|lia].
  apply wsum_ge.
  - intros w Hw Hwi. assert (R x w) by (split; auto; apply edge_adj; [apply Gok|auto]).
    pose proof (closed_pos Hc (H2 w H0)). lia.
  - apply edge_adj; [apply Gok|apply Hr].
  - apply Hr.
Qed.
Lemma closed_acyclic W x : closed P W -> (forall x, In x (dkeys W) <-> P x) -> P x -> ~ path R x x.
Proof.
  intros Hc Hk Hx Hp.
  apply path_restrict with (P := P) in Hp; [| |auto].
  - apply rank_acyclic with (f := getz W) in Hp; [lia|].
    intros a b (Hr & Ha & Hb). apply closed_decr; auto. now apply Hk.
  - intros a b. apply reach_closed.
Qed.
End Dfs.

(** ** sorted(..., reverse=True) *)
Section Sort.
Context {N : Type} `{EqDec N}.
Variable nlt : N -> N -> bool.
Implicit Types (a b : N * Z).

Lemma insert_desc_perm a l : Permutation (insert_desc nlt a l) (a :: l).
Proof.
  induction l as [|b l IH]; cbn; auto. destruct (item_gt nlt a b); auto.
  rewrite IH. apply perm_swap.
Qed.
Lemma sort_desc_perm l : Permutation (sort_desc nlt l) l.
Proof.
  induction l as [|a l IH]; cbn; auto. rewrite insert_desc_perm. now constructor.
Qed.
Lemma item_gt_true a b : item_gt nlt a b = true -> (snd b <= snd a)%Z.
Proof.
  unfold item_gt. rewrite orb_true_iff, andb_true_iff, Z.ltb_lt, Z.eqb_eq. lia.
Qed.
Lemma item_gt_false a b : item_gt nlt a b = false -> (snd a <= snd b)%Z.
Proof.
  unfold item_gt. rewrite orb_false_iff, Z.ltb_ge. lia.
Qed.
Lemma insert_desc_sorted a l :
  StronglySorted (fun x y => snd y <= snd x)%Z l -> StronglySorted (fun x y => snd y <= snd x)%Z (insert_desc nlt a l).
Proof.
  induction 1 as [|b l Hs IH Hf]; cbn.
  - repeat constructor.
  - destruct (item_gt nlt a b) eqn:E.
    + constructor; [now constructor|]. apply item_gt_true in E. constructor; auto.
      eapply Forall_impl; [|exact Hf]. cbn. intros; lia.
    + constructor; auto. apply item_gt_false in E.
      assert (Hp := insert_desc_perm a l). eapply Permutation_Forall; [symmetry; exact Hp|].
      constructor; auto.
Qed.
Lemma sort_desc_sorted l : StronglySorted (fun x y => snd y <= snd x)%Z (sort_desc nlt l).
Proof. induction l; cbn; [constructor|]. now apply insert_desc_sorted. Qed.

Lemma sorted_before (l : list (N * Z)) x y wx wy :
  StronglySorted (fun x y => snd y <= snd x)%Z l -> In (x, wx) l -> In (y, wy) l -> (wy < wx)%Z ->
  before (map fst l) x y.
Proof.
  induction 1 as [|b l Hs IH Hf]; [intros []|]. intros Hx Hy Hlt.
  rewrite Forall_forall in Hf. cbn [map].
  destruct Hx as [Ex|Hx], Hy as [Ey|Hy]; try subst b.
  - exfalso. assert (wx = wy) by congruence. lia.
  - apply before_cons_hd. change y with (fst (y, wy)). now apply in_map.
  - apply Hf in Hx. cbn in Hx. lia.
  - apply before_cons_tl. auto.
Qed.

Hypothesis nlt_total : strict_total nlt.

Lemma item_gt_irrefl a : item_gt nlt a a = false.
Proof.
  destruct nlt_total as (Hi & _ & _). unfold item_gt. rewrite Z.ltb_irrefl, Hi. now rewrite andb_false_r.
Qed.
Lemma item_gt_trans a b c : item_gt nlt a b = true -> item_gt nlt b c = true -> item_gt nlt a c = true.
Proof.
  destruct nlt_total as (_ & Ht & _). unfold item_gt.
  rewrite !orb_true_iff, !andb_true_iff, !Z.ltb_lt, !Z.eqb_eq.
  intros [?|[? ?]] [?|[? ?]]; try (left; lia). right. split; [lia|]. eauto.
Qed.
Lemma item_gt_total a b : a <> b -> item_gt nlt a b = true \/ item_gt nlt b a = true.
Proof.
  destruct nlt_total as (_ & _ & Ht). unfold item_gt. destruct a as [x wx], b as [y wy]. cbn. intros Hne.
  rewrite !orb_true_iff, !andb_true_iff, !Z.ltb_lt, !Z.eqb_eq.
  destruct (Z.lt_trichotomy wx wy) as [?|[->|?]]; auto.
  assert (x <> y) by congruence. destruct (Ht x y); auto.
Qed.
Lemma insert_desc_gt a l : ~ In a l ->
  StronglySorted (fun x y => item_gt nlt x y = true) l ->
  StronglySorted (fun x y => item_gt nlt x y = true) (insert_desc nlt a l).
Proof.
  intros Hn Hs. induction Hs as [|b l Hs IH Hf]; cbn.
  - repeat constructor.
  - destruct (item_gt nlt a b) eqn:E.
    + constructor; [now constructor|]. constructor; auto.
      eapply Forall_impl; [|exact Hf]. cbn. intros c Hc. eapply item_gt_trans; eauto.
    + assert (Hgt : item_gt nlt b a = true).
      { destruct (@item_gt_total a b); try congruence. intros ->. apply Hn. now left. }
      constructor.
      * apply IH. intros Hi. apply Hn. now right.
      * eapply Permutation_Forall; [symmetry; apply insert_desc_perm|]. constructor; auto.
Qed.
Lemma sort_desc_gt l : NoDup l -> StronglySorted (fun x y => item_gt nlt x y = true) (sort_desc nlt l).
Proof.
  induction 1; cbn; [constructor|]. apply insert_desc_gt; auto.
  intros Hi. apply (Permutation_in _ (sort_desc_perm l)) in Hi. auto.
Qed.
Lemma gt_sorted_unique l1 : forall l2, StronglySorted (fun x y => item_gt nlt x y = true) l1 ->
  StronglySorted (fun x y => item_gt nlt x y = true) l2 -> Permutation l1 l2 -> l1 = l2.
Proof.
  induction l1 as [|a l1 IH]; intros l2 H1 H2 Hp.
  - apply Permutation_nil in Hp. auto.
  - destruct l2 as [|b l2]; [symmetry in Hp; apply Permutation_nil in Hp; discriminate|].
    apply StronglySorted_inv in H1, H2. destruct H1 as [Hs1 Hf1], H2 as [Hs2 Hf2]. rewrite Forall_forall in *.
    assert (a = b).
    { destruct (Permutation_in a Hp (or_introl eq_refl)) as [E|Ha]; auto.
      symmetry in Hp. destruct (Permutation_in b Hp (or_introl eq_refl)) as [E|Hb]; auto.
      exfalso. pose proof (item_gt_trans (Hf1 _ Hb) (Hf2 _ Ha)) as Hc. rewrite item_gt_irrefl in Hc. discriminate. }
    subst b. f_equal. apply IH; auto. eapply Permutation_cons_inv; eauto.
Qed.
End Sort.

Lemma dict_NoDup {K V} (d : dict K V) : NoDup (dkeys d) -> NoDup d.
Proof. apply NoDup_map_inv. Qed.
Lemma dict_perm {K V} `{EqDec K} (d d' : dict K V) : NoDup (dkeys d) -> NoDup (dkeys d') ->
  (forall k, dget d k = dget d' k) -> Permutation d d'.
Proof.
  intros H1 H2 He. apply NoDup_Permutation; try now apply dict_NoDup.
  intros [k v]. rewrite <- !dget_iff by auto. now rewrite He.
Qed.

Section Reachable.
Context {N : Type} `{EqDec N}.
Variable nlt : N -> N -> bool.

Theorem toposort_reachable_spec ord G sources ignore : any_order ord -> graph_ok G ->
  (forall s, In s sources -> node G s) -> (forall s, In s sources -> In s ignore) ->
  (exists l, toposort_reachable ord nlt G sources ignore = Ok l /\ NoDup l /\
     (forall x, In x l <-> reachable_avoiding G sources ignore x) /\
     (forall x y, In x l -> edge_avoiding G ignore x y -> before l x y) /\
     (forall x, reachable_avoiding G sources ignore x -> ~ path (edge_avoiding G ignore) x x))
  \/ (exists c, toposort_reachable ord nlt G sources ignore = Err (CycleExn c) /\
     is_cycle (edge_avoiding G ignore) c /\ (forall x, In x c -> reachable_avoiding G sources ignore x)).
Proof.
  intros Ho Hok Hsn Hsi. unfold toposort_reachable.
  destruct (@dfs_sources_spec N _ ord Ho G Hok ignore sources Hsn Hsi) as [(W & E & Hc & Hk)|(c & E & Hc)];
    rewrite E; cbn [bind].
  - left. eexists. split; [reflexivity|].
    pose proof (sort_desc_perm nlt W) as Hp.
    assert (Hpk : Permutation (map fst (sort_desc nlt W)) (dkeys W)) by (apply Permutation_map, Hp).
    assert (Hin : forall x, In x (map fst (sort_desc nlt W)) <-> In x (dkeys W)).
    { intros x. split; apply Permutation_in; auto. now symmetry. }
    split; [|split; [|split]].
    + eapply Permutation_NoDup; [symmetry; exact Hpk|]. apply (di_nd Hc).
    + intros x. now rewrite Hin.
    + intros x y Hx Hr. apply Hin in Hx.
      destruct (closed_weight Hc Hx) as [_ Hch]. pose proof (Hch y Hr) as Hy.
      pose proof (closed_decr Hok Hc Hx Hr) as Hlt.
      destruct (key_dget Hx) as (wx & Ex), (key_dget Hy) as (wy & Ey).
      rewrite (getz_dget Ex), (getz_dget Ey) in Hlt.
      eapply sorted_before; [apply sort_desc_sorted| | |exact Hlt];
        (eapply Permutation_in; [symmetry; exact Hp|]); now apply dget_In.
    + intros x. eapply closed_acyclic; eauto.
  - right. exists c. split; [auto|]. exact Hc.
Qed.

(** The weight of every node is determined by the edges alone, so neither the iteration order of
    sets nor the representation of the graph influences the result. *)
Theorem toposort_reachable_det ord ord' G G' sources ignore ignore' :
  any_order ord -> any_order ord' -> graph_ok G -> graph_ok G' -> same_graph G G' ->
  (forall x, In x ignore <-> In x ignore') ->
  (forall s, In s sources -> node G s) -> (forall s, In s sources -> In s ignore) ->
  strict_total nlt ->
  (exists l, toposort_reachable ord nlt G sources ignore = Ok l /\
             toposort_reachable ord' nlt G' sources ignore' = Ok l)
  \/ (exists c c', toposort_reachable ord nlt G sources ignore = Err (CycleExn c) /\
                   toposort_reachable ord' nlt G' sources ignore' = Err (CycleExn c')).
Proof.
  intros Ho Ho' Hok Hok' [HN HE] Hig Hsn Hsi Hlt.
  assert (HR : forall a b, edge_avoiding G ignore a b <-> edge_avoiding G' ignore' a b).
  { intros a b. unfold edge_avoiding. now rewrite HE, Hig. }
  assert (HR' : forall a b, edge_avoiding G' ignore' a b <-> edge_avoiding G ignore a b).
  { intros a b. symmetry. apply HR. }
  assert (HP : forall x, reachable_avoiding G sources ignore x <-> reachable_avoiding G' sources ignore' x).
  { intros x. unfold reachable_avoiding. split; intros (s & Hs & Hp); exists s; split; auto;
      revert Hp; apply path_mono; intros a b; apply HR. }
  assert (Hcyc : forall c, is_cycle (edge_avoiding G ignore) c -> exists x, In x c /\ path (edge_avoiding G ignore) x x).
  { intros c. apply cycle_path. }
  assert (Hcyc' : forall c, is_cycle (edge_avoiding G' ignore') c -> exists x, In x c /\ path (edge_avoiding G' ignore') x x).
  { intros c. apply cycle_path. }
  assert (Hsn' : forall s, In s sources -> node G' s) by (intros; apply HN; auto).
  assert (Hsi' : forall s, In s sources -> In s ignore') by (intros; apply Hig; auto).
  unfold toposort_reachable.
  destruct (@dfs_sources_spec N _ ord Ho G Hok ignore sources Hsn Hsi) as [(W & E & Hc & Hk)|(c & E & Hc)];
  destruct (@dfs_sources_spec N _ ord' Ho' G' Hok' ignore' sources Hsn' Hsi') as [(W' & E' & Hc' & Hk')|(c' & E' & Hc')];
    rewrite E, E'; cbn [bind].
  - left. eexists. split; [reflexivity|]. f_equal. f_equal.
    assert (Hkk : forall x, In x (dkeys W) <-> In x (dkeys W')).
    { intros x. now rewrite Hk, Hk', HP. }
    assert (Hadj : forall x, Permutation (adj G' x) (adj G x)).
    { intros x. apply NoDup_Permutation; try now apply adj_NoDup.
      intros v. rewrite <- !edge_adj by (apply Hok || apply Hok'). now rewrite HE. }
    assert (Hw : forall n x, (getz W x <= Z.of_nat n)%Z -> In x (dkeys W) -> getz W x = getz W' x).
    { induction n as [|n IH]; intros x Hn Hx.
      - pose proof (closed_pos Hc Hx). lia.
      - destruct (closed_weight Hc Hx) as [H1 H2].
        pose proof (proj1 (Hkk x) Hx) as Hx'. destruct (closed_weight Hc' Hx') as [H1' H2'].
        rewrite (getz_dget H1), (getz_dget H1'). f_equal.
        transitivity (wsum ignore' W (adj G x)).
        + clear - Hig. induction (adj G x) as [|v l IH]; cbn; auto. rewrite IH. f_equal.
          replace (memb v ignore') with (memb v ignore); auto.
          destruct (memb v ignore) eqn:E1; symmetry; [apply memb_true, Hig, memb_true, E1|].
          apply memb_false. rewrite <- Hig. now apply memb_false.
        + rewrite (wsum_perm ignore' W' (Hadj x)). symmetry. apply wsum_ext. intros v Hv Hvi.
          assert (Hr : edge_avoiding G ignore x v).
          { split; [apply edge_adj; [apply Hok|auto]|]. now rewrite Hig. }
          symmetry. apply IH.
          * pose proof (closed_decr Hok Hc Hx Hr). lia.
          * auto. }
    apply gt_sorted_unique with (nlt := nlt); auto.
    + apply sort_desc_gt; auto. apply dict_NoDup, (di_nd Hc').
    + apply sort_desc_gt; auto. apply dict_NoDup, (di_nd Hc).
    + rewrite !sort_desc_perm. apply dict_perm; [apply (di_nd Hc')|apply (di_nd Hc)|].
      intros k. destruct (In_dec' k (dkeys W)) as [Hi|Hi].
      * pose proof (proj1 (Hkk k) Hi) as Hi'.
        specialize (Hw (Z.to_nat (getz W k)) k).
        pose proof (closed_pos Hc Hi). rewrite Z2Nat.id in Hw by lia. specialize (Hw (Z.le_refl _) Hi).
        destruct (key_dget Hi) as (w & Ew), (key_dget Hi') as (w' & Ew').
        rewrite (getz_dget Ew), (getz_dget Ew') in Hw. congruence.
      * pose proof Hi as Hi'. rewrite Hkk in Hi'. apply dget_None in Hi, Hi'. congruence.
  - exfalso. destruct Hc' as [Hcy Hin]. apply Hcyc' in Hcy. destruct Hcy as (x & Hx & Hp).
    apply Hin, HP in Hx. apply (closed_acyclic Hok Hc Hk Hx). revert Hp. apply path_mono. intros a b. apply HR.
  - exfalso. destruct Hc as [Hcy Hin]. apply Hcyc in Hcy. destruct Hcy as (x & Hx & Hp).
    apply Hin, HP in Hx. apply (closed_acyclic Hok' Hc' Hk' Hx). revert Hp. apply path_mono. intros a b. apply HR.
  - right. eauto.
Qed.
End Reachable.
