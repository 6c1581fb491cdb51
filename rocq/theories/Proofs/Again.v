(** The sample of a sample is the sample (C119). *)
From Coq Require Import Lia QArith Permutation.
From Verif Require Import Model.Base Model.Solver Model.Value Model.Names Model.PlanModel Model.Metadata Model.Planner.
From Verif Require Import Spec.GraphSpec Spec.SchemaSpec Spec.SqlSem Spec.PlannerSpec Spec.WidenSpec.
From Verif Require Import Proofs.BaseFacts Proofs.GraphFacts Proofs.NameFacts Proofs.MetadataFacts Proofs.PlannerEdit Proofs.PlannerGraph Proofs.PlannerTables Proofs.PlannerMain Proofs.PlannerFinal Proofs.PlannerDet Proofs.PlannerWrap Proofs.Widen.
From Verif Require Proofs.BuildFacts.
Set Implicit Arguments. Unset Strict Implicit.
Open Scope string_scope.
Open Scope list_scope.
Open Scope nat_scope.

Lemma filter_all {A} (f : A -> bool) l : (forall x, In x l -> f x = true) -> filter f l = l.
Proof. induction l as [|x l IH]; intros H; [reflexivity|]. cbn. rewrite (H x (or_introl eq_refl)), IH; [reflexivity|]. intros y Hy. apply H. right. exact Hy. Qed.

Lemma holds_again cmpf textf g u u' r : (forall q, tg_percent g = Some q -> Qle 100 q) -> Qlt u' 1 -> target_holds cmpf textf g u r -> target_holds cmpf textf g u' r.
Proof.
  intros Hq Hu [H|(_ & H)]; [left; exact H|right; split; [|exact H]]. intros q Eq. apply (Qlt_le_trans _ _ _ Hu). apply Qle_shift_div_l; [reflexivity|]. rewrite Qmult_1_l. exact (Hq q Eq).
Qed.

Lemma own_again cmpf textf g all l all' l' : (forall q, tg_percent g = Some q -> Qle 100 q) ->
  own_selection cmpf textf g all l -> own_selection cmpf textf g all' l' -> Permutation all' l -> Permutation l' all'.
Proof.
  intros Hq (u & ok & rest & Hu & Hok & P & Hn) (u' & ok' & rest' & Hu' & Hok' & P' & Hn') Hall. cbn zeta in *.
  assert (Hsat : map snd (filter ok' (indexed all')) = all').
  { rewrite filter_all; [apply Verif.Proofs.BuildFacts.indexed_snd|]. intros [j r] Hj. apply Hok'.
    assert (Hr : In r all') by (rewrite <- (Verif.Proofs.BuildFacts.indexed_snd all'); apply in_map_iff; exists (j, r); auto).
    assert (Hl : In r (map snd (filter ok (indexed all)))) by (apply (Permutation_in _ P); apply in_app_iff; left; exact (Permutation_in _ Hall Hr)).
    apply in_map_iff in Hl. destruct Hl as ([i r0] & E0 & Hf). cbn in E0. subst r0. apply filter_In in Hf. destruct Hf as [_ Hf]. apply Hok in Hf.
    exact (holds_again Hq (proj2 (Hu' j)) Hf). }
  rewrite Hsat in *. destruct (tg_amount g) as [a|].
  - assert (rest' = []) as ->; [|rewrite app_nil_r in P'; exact P']. apply Permutation_length in P', Hall. rewrite app_length in P'.
    assert (length all' <= Z.to_nat a) by (rewrite Hall, Hn; apply Nat.le_min_l). rewrite Nat.min_r in Hn' by assumption. destruct rest'; [reflexivity|cbn in P'; lia].
  - subst rest'. rewrite app_nil_r in P'. exact P'.
Qed.

Lemma before_first {A} (l : list A) a b : before l a b -> In a l.
Proof. intros (x & y & z & ->). apply in_app_iff. right. left. reflexivity. Qed.

Section Again.
Variables (fnm : string -> string -> bool) (cfg : config) (db : list table).
Variables (ord ord' : list string -> list string) (ordp ordp' : list tname -> list tname).
Hypothesis Hdb : db_ok db.
Hypothesis Hord : any_order ord.
Hypothesis Hord' : any_order ord'.
Hypothesis Hordp : any_order ordp.
Hypothesis Hordp' : any_order ordp'.
Variables p p' : plan.
Hypothesis Hplan : plan_db ord ordp fnm cfg db = Ok p.
Hypothesis Hplan' : plan_db ord' ordp' fnm cfg db = Ok p'.
Hypothesis Hok : config_ok cfg.
Hypothesis Hxv : extras_valid cfg.
Variables (cmpf : cmpop -> value -> value -> bool) (textf : string -> option (dict string lit) -> row -> tv).
Variables source source' sample sample' : tname -> list row.
Hypothesis Hpop : populated cmpf textf source sample p.
Hypothesis Hpop' : populated cmpf textf source' sample' p'.
Hypothesis Hsym : eq_symmetric cmpf.
Hypothesis Hset : settled fnm cfg db p.
Hypothesis Hsrc : forall n, planned p n -> Permutation (source' n) (sample n).

Lemma same_order_again : exists passl passl' ns, plan_shape fnm cfg db p passl ns /\ good_order fnm cfg db ns /\ plan_shape fnm cfg db p' passl' ns.
Proof.
  destruct (plan_ok_shape Hdb Hord Hordp Hplan) as (passl & ns & Ho & Hs & Hg & _).
  destruct (plan_ok_shape Hdb Hord' Hordp' Hplan') as (passl' & ns' & Ho' & Hs' & Hg' & _).
  rewrite (order_det fnm cfg Hdb Hord' Hord), Ho in Ho'. injection Ho' as E.
  assert (ns' = ns).
  { symmetry. apply map_render_inj; [| |exact E].
    - intros n Hn. apply (all_no_dot Hdb Hs Hg). apply in_app_iff. right. exact Hn.
    - intros n Hn. apply (all_no_dot Hdb Hs' Hg'). apply in_app_iff. right. exact Hn. }
  subst ns'. exists passl, passl', ns. auto.
Qed.

Theorem again n : planned p n -> planned p' n /\ Permutation (sample' n) (sample n).
Proof.
  intros Hpn. enough (H : planned p' n /\ Permutation (sample' n) (source' n)) by (destruct H as [H1 H2]; split; [exact H1|exact (Permutation_trans H2 (Hsrc Hpn))]).
  destruct same_order_again as (passl & passl' & ns & Hs & Hg & Hs').
  apply (planned_iff Hdb Hs Hg) in Hpn. rewrite (planned_iff Hdb Hs' Hg).
  destruct Hpn as [Hp|Hc]; [split; [left; exact Hp|exact (pass_whole Hdb Hord' Hordp' Hplan' Hpop' Hp)]|].
  split; [right; exact Hc|]. apply (ns_iff Hg) in Hc.
  revert n Hc. apply (@before_ind _ ns (fun n => Permutation (sample' n) (source' n)) (proj1 Hg)). intros n Hn IH.
  pose proof (proj1 (ns_iff Hg n) Hn) as Hcn. assert (Hpl : forall m, In m ns -> planned p m) by (intros m Hm; apply (planned_iff Hdb Hs Hg); right; apply (ns_iff Hg); exact Hm).
  assert (Hrow : forall m r, before ns m n -> In r (sample m) -> In r (sample' m)).
  { intros m r Hb Hr. apply (Permutation_in _ (Permutation_sym (IH m Hb))). apply (Permutation_in _ (Permutation_sym (Hsrc (Hpl m (before_first Hb))))). exact Hr. }
  assert (Hdot : no_dot (fst n)) by exact (connected_no_dot Hdb Hcn).
  assert (Hpar : forall fk, earlier_parent fnm cfg db p n fk <-> earlier_parent fnm cfg db p' n fk) by (intros fk; rewrite (parent_iff Hdb Hs Hg), (parent_iff Hdb Hs' Hg); reflexivity).
  assert (Hchi : forall c fk, earlier_child fnm cfg db p n c fk <-> earlier_child fnm cfg db p' n c fk) by (intros c fk; rewrite (child_iff Hdb Hs Hg), (child_iff Hdb Hs' Hg); reflexivity).
  assert (Hbase : forall c fk, earlier_child fnm cfg db p n c fk -> before ns c n) by (intros c fk H; apply (child_iff Hdb Hs Hg) in H; apply H).
  assert (Hbasep : forall fk, earlier_parent fnm cfg db p n fk -> before ns (fk_dst fk) n) by (intros fk H; apply (parent_iff Hdb Hs Hg) in H; apply H).
  assert (Hin : forall r, In r (source' n) -> In r (sample n)) by (intros r; apply Permutation_in; exact (Hsrc (Hpl n Hn))).
  assert (Hown : forall g, is_target cfg n g -> (forall c fk, ~ earlier_child fnm cfg db p n c fk) \/ tg_all g = true -> Permutation (sample' n) (source' n)).
  { intros g Hg0 Hno. assert (Hno' : (forall c fk, ~ earlier_child fnm cfg db p' n c fk) \/ tg_all g = true) by (destruct Hno as [Hno|Hno]; [left; intros c fk H; apply Hchi in H; exact (Hno c fk H)|right; exact Hno]).
    exact (own_again (proj1 (Hset Hg0)) (target_selection Hdb Hord Hordp Hplan Hok Hxv Hpop Hg0 Hno) (target_selection Hdb Hord' Hordp' Hplan' Hok Hxv Hpop' Hg0 Hno') (Hsrc (Hpl n Hn))). }
  destruct (table_kinds Hdb Hord Hordp Hplan Hok Hcn) as [(Hpa & _ & _)|[(_ & Hch)|(_ & Hno & (g & Hg0))]].
  - destruct (from_parents Hdb Hord Hordp Hplan Hok Hxv Hpop Hcn (l := confs_of cfg n)) as (keep & P & Hkeep); [apply (constraints_iff (cfg := cfg)); [apply Hok|exact Hdot|reflexivity]|exact Hpa|].
    assert (Hpa' : exists fk, earlier_parent fnm cfg db p' n fk) by (destruct Hpa as (fk & H); exists fk; apply Hpar; exact H).
    destruct (from_parents Hdb Hord' Hordp' Hplan' Hok Hxv Hpop' Hcn (l := confs_of cfg n)) as (keep' & P' & Hkeep'); [apply (constraints_iff (cfg := cfg)); [apply Hok|exact Hdot|reflexivity]|exact Hpa'|].
    rewrite filter_all in P'; [exact P'|]. intros r Hr. apply Hkeep'. apply Hin, (Permutation_in _ P), filter_In in Hr. destruct Hr as [_ Hr]. apply Hkeep in Hr. destruct Hr as [R1 R2]. split; [exact R1|].
    intros fk Hfk. apply Hpar in Hfk. destruct (R2 fk Hfk) as (r' & Hr' & Href). exists r'. split; [exact (Hrow _ _ (Hbasep _ Hfk) Hr')|exact Href].
  - assert (Hch' : exists c fk, earlier_child fnm cfg db p' n c fk) by (destruct Hch as (c & fk & H); exists c, fk; apply Hchi; exact H).
    destruct (tgt_of cfg n) as [g|] eqn:Et.
    + apply (is_target_iff (cfg := cfg)) in Et; [|apply Hok|exact Hdot]. destruct (Hset Et) as [Hq Ha]. destruct (tg_all g) eqn:Eall; [exact (Hown g Et (or_intror Eall))|].
      destruct Ha as [Ha|[Ha|Ha]]; [|discriminate|destruct Hch as (c & fk & H); elim (Ha c fk H)].
      apply (target_referenced_whole Hdb Hord' Hordp' Hplan' Hok Hxv Hpop' Et Hch' Eall Ha). intros q Eq. apply (Qlt_le_trans _ 100); [reflexivity|exact (Hq q Eq)].
    + assert (Hnt : forall g, ~ is_target cfg n g) by (intros g H; apply (is_target_iff (cfg := cfg)) in H; [congruence|apply Hok|exact Hdot]).
      destruct (from_children Hdb Hord Hordp Hplan Hok Hxv Hpop Hsym Hcn Hnt Hch) as (keep & P & Hkeep).
      destruct (from_children Hdb Hord' Hordp' Hplan' Hok Hxv Hpop' Hsym Hcn Hnt Hch') as (keep' & P' & Hkeep').
      rewrite filter_all in P'; [exact P'|]. intros r Hr. apply Hkeep'. apply Hin, (Permutation_in _ P), filter_In in Hr. destruct Hr as [_ Hr]. apply Hkeep in Hr. destruct Hr as (c & fk & r' & Hec & Hr' & Href).
      exists c, fk, r'. split; [apply Hchi; exact Hec|]. split; [exact (Hrow _ _ (Hbase _ _ Hec) Hr')|exact Href].
  - exact (Hown g Hg0 (or_introl Hno)).
Qed.
End Again.
