(** Every sampled row is linked with a target's (C124); the rows of the targets decide about all others (C125). *)
From Coq Require Import Lia QArith Permutation.
From Verif Require Import Model.Base Model.Solver Model.Value Model.Names Model.PlanModel Model.Metadata Model.Planner.
From Verif Require Import Spec.GraphSpec Spec.SchemaSpec Spec.SqlSem Spec.PlannerSpec Spec.ReasonSpec.
From Verif Require Import Proofs.BaseFacts Proofs.GraphFacts Proofs.NameFacts Proofs.MetadataFacts Proofs.PlannerEdit Proofs.PlannerGraph Proofs.PlannerTables Proofs.PlannerMain Proofs.PlannerFinal Proofs.PlannerDet Proofs.PlannerWrap Proofs.Widen.
Set Implicit Arguments. Unset Strict Implicit.
Open Scope list_scope.

Section Reasons.
Variables (fnm : string -> string -> bool) (cfg : config) (db : list table) (ord : list string -> list string) (ordp : list tname -> list tname).
Hypothesis Hdb : db_ok db.
Hypothesis Hord : any_order ord.
Hypothesis Hordp : any_order ordp.
Variable p : plan.
Hypothesis Hplan : plan_db ord ordp fnm cfg db = Ok p.
Hypothesis Hok : config_ok cfg.
Hypothesis Hxv : extras_valid cfg.
Variables (cmpf : cmpop -> value -> value -> bool) (textf : string -> option (dict string lit) -> row -> tv) (source : tname -> list row).
Hypothesis Hsym : eq_symmetric cmpf.

Lemma kinds n : connected fnm cfg db n -> (exists g, is_target cfg n g) \/
  (forall g, ~ is_target cfg n g) /\ ((exists fk, earlier_parent fnm cfg db p n fk) \/ (exists c fk, earlier_child fnm cfg db p n c fk)).
Proof.
  intros Hcn. assert (Hdot : no_dot (fst n)) by exact (connected_no_dot Hdb Hcn).
  destruct (table_kinds Hdb Hord Hordp Hplan Hok Hcn) as [(Hpa & _ & Hnt)|[(_ & Hch)|(_ & _ & Ht)]]; [right; auto| |left; exact Ht].
  destruct (tgt_of cfg n) as [g|] eqn:Et.
  - left. exists g. apply (is_target_iff (cfg := cfg)); [apply Hok|exact Hdot|exact Et].
  - right. split; [|right; exact Hch]. intros g H. apply (is_target_iff (cfg := cfg)) in H; [congruence|apply Hok|exact Hdot].
Qed.
Lemma along (P : tname -> Prop) :
  (forall n, connected fnm cfg db n -> (forall fk, earlier_parent fnm cfg db p n fk -> P (fk_dst fk)) -> (forall c fk, earlier_child fnm cfg db p n c fk -> P c) -> P n) ->
  forall n, connected fnm cfg db n -> P n.
Proof.
  intros Hstep n Hc. destruct (plan_ok_shape Hdb Hord Hordp Hplan) as (passl & ns & _ & Hs & Hg & _). apply (ns_iff Hg) in Hc. revert n Hc.
  apply (before_ind (proj1 Hg)). intros n Hn IH. apply Hstep; [apply (ns_iff Hg); exact Hn| |].
  - intros fk H. apply IH. apply (parent_iff Hdb Hs Hg) in H. apply H.
  - intros c fk H. apply IH. apply (child_iff Hdb Hs Hg) in H. apply H.
Qed.

Section One.
Variable sample : tname -> list row.
Hypothesis Hpop : populated cmpf textf source sample p.
Lemma reason n r : connected fnm cfg db n -> In r (sample n) -> (exists g, is_target cfg n g) \/
  (exists fk r', earlier_parent fnm cfg db p n fk /\ In r' (sample (fk_dst fk)) /\ refers cmpf fk r r') \/
  (exists c fk r', earlier_child fnm cfg db p n c fk /\ In r' (sample c) /\ refers cmpf fk r' r).
Proof.
  intros Hcn Hr. destruct (kinds Hcn) as [Hg|[Hnt [Hp|Hcs]]]; [left; exact Hg| |].
  - right. left. assert (Hdot : no_dot (fst n)) by exact (connected_no_dot Hdb Hcn). pose proof Hp as Hp0. destruct Hp0 as (fk & Hfk).
    destruct (from_parents Hdb Hord Hordp Hplan Hok Hxv Hpop Hcn (l := confs_of cfg n)) as (keep & P & Hkeep); [apply (constraints_iff (cfg := cfg)); [apply Hok|exact Hdot|reflexivity]|exact Hp|].
    apply (Permutation_in _ P) in Hr. apply filter_In in Hr. destruct Hr as [_ Hr]. apply Hkeep in Hr. destruct (proj2 Hr _ Hfk) as (r' & Hr' & Href). exists fk, r'. auto.
  - right. right. destruct (from_children Hdb Hord Hordp Hplan Hok Hxv Hpop Hsym Hcn Hnt Hcs) as (keep & P & Hkeep).
    apply (Permutation_in _ P) in Hr. apply filter_In in Hr. destruct Hr as [_ Hr]. apply Hkeep in Hr. exact Hr.
Qed.
Theorem all_linked n r : connected fnm cfg db n -> In r (sample n) -> linked fnm cfg db cmpf sample n r.
Proof.
  intros Hc. revert r. revert n Hc. apply (along (P := fun n => forall r, In r (sample n) -> linked fnm cfg db cmpf sample n r)). intros n Hcn Hpa Hch r Hr.
  destruct (reason Hcn Hr) as [(g & Hg)|[(fk & r' & Hfk & Hr' & Href)|(c & fk & r' & Hec & Hr' & Href)]]; [eapply linked_target; eassumption| |].
  - eapply linked_referring; [apply Hfk|exact (Hpa _ Hfk _ Hr')|exact Hr|exact Href].
  - pose proof Hec as (_ & _ & Hcons & Hd & _). rewrite <- Hd in Hr |- *. eapply linked_referred; [exact Hcons|exact (Hch _ _ Hec _ Hr')|exact Hr|exact Href].
Qed.
Theorem nothing n : (forall m g, is_target cfg m g -> sample m = []) -> connected fnm cfg db n -> sample n = [].
Proof.
  intros Hno Hc. destruct (sample n) as [|r l] eqn:E; [reflexivity|]. exfalso. assert (Hl : linked fnm cfg db cmpf sample n r) by (apply all_linked; [exact Hc|rewrite E; left; reflexivity]).
  clear - Hl Hno. induction Hl as [n g r Ht Hr| |]; auto. rewrite (Hno _ _ Ht) in Hr. destruct Hr.
Qed.
End One.

Section Two.
Variables sample sample' : tname -> list row.
Hypothesis Hpop : populated cmpf textf source sample p.
Hypothesis Hpop' : populated cmpf textf source sample' p.
Hypothesis Hts : forall n g, planned p n -> is_target cfg n g -> Permutation (sample n) (sample' n).
Theorem targets_decide n : planned p n -> Permutation (sample n) (sample' n).
Proof.
  intros Hpn. destruct (plan_ok_shape Hdb Hord Hordp Hplan) as (passl & ns & _ & Hs & Hg & _). apply (planned_iff Hdb Hs Hg) in Hpn.
  assert (Hpl : forall m, connected fnm cfg db m -> planned p m) by (intros m Hm; apply (planned_iff Hdb Hs Hg); right; exact Hm). clear passl ns Hs Hg.
  destruct Hpn as [Hp|Hc]. { eapply Permutation_trans; [exact (pass_whole Hdb Hord Hordp Hplan Hpop Hp)|apply Permutation_sym; exact (pass_whole Hdb Hord Hordp Hplan Hpop' Hp)]. }
  revert n Hc. apply along. intros n Hcn Hpa Hch. destruct (kinds Hcn) as [(g & Hg)|[Hnt [Hp|Hcs]]]; [exact (Hts (Hpl _ Hcn) Hg)| |].
  - assert (Hdot : no_dot (fst n)) by exact (connected_no_dot Hdb Hcn).
    assert (Hl : constraints_of cfg n (confs_of cfg n)) by (apply (constraints_iff (cfg := cfg)); [apply Hok|exact Hdot|reflexivity]).
    destruct (from_parents Hdb Hord Hordp Hplan Hok Hxv Hpop Hcn Hl Hp) as (keep & P & Hkeep).
    destruct (from_parents Hdb Hord Hordp Hplan Hok Hxv Hpop' Hcn Hl Hp) as (keep' & P' & Hkeep').
    rewrite P, P'. rewrite (filter_ext keep keep'); [reflexivity|]. intros r. apply eq_true_iff_eq. rewrite Hkeep, Hkeep'.
    assert (Hx : forall fk, earlier_parent fnm cfg db p n fk -> (exists r', In r' (sample (fk_dst fk)) /\ refers cmpf fk r r') <-> exists r', In r' (sample' (fk_dst fk)) /\ refers cmpf fk r r').
    { intros fk Hfk. split; intros (r' & H1 & H2); exists r'; (split; [|exact H2]); [exact (Permutation_in _ (Hpa _ Hfk) H1)|exact (Permutation_in _ (Permutation_sym (Hpa _ Hfk)) H1)]. }
    split; intros [A B]; (split; [exact A|]); intros fk Hfk; apply Hx; auto.
  - destruct (from_children Hdb Hord Hordp Hplan Hok Hxv Hpop Hsym Hcn Hnt Hcs) as (keep & P & Hkeep).
    destruct (from_children Hdb Hord Hordp Hplan Hok Hxv Hpop' Hsym Hcn Hnt Hcs) as (keep' & P' & Hkeep').
    rewrite P, P'. rewrite (filter_ext keep keep'); [reflexivity|]. intros r. apply eq_true_iff_eq. rewrite Hkeep, Hkeep'.
    split; intros (c & fk & r' & H1 & H2 & H3); exists c, fk, r'; (split; [exact H1|split; [|exact H3]]); [exact (Permutation_in _ (Hch _ _ H1) H2)|exact (Permutation_in _ (Permutation_sym (Hch _ _ H1)) H2)].
Qed.
End Two.
End Reasons.
