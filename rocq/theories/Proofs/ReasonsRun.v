(** The rows a run leaves at the destination: linked with the targets' rows, decided by them, whole where asked for (C124, C125, C126). *)
From Coq Require Import Lia QArith Permutation.
From Verif Require Import Model.Base Model.Value Model.Names Model.PlanModel Model.SqlAlgebra Model.PlanBuild Model.Metadata Model.Planner Model.Filters Model.Multiply Model.Materialize Model.Dest Model.Output Model.Sampler.
From Verif Require Import Spec.GraphSpec Spec.SchemaSpec Spec.SqlSem Spec.PlannerSpec Spec.FilterSpec Spec.OutputSpec Spec.RunSpec Spec.SampleSpec Spec.WholeSpec Spec.WidenSpec Spec.AgainSpec Spec.ReasonSpec.
From Verif Require Import Proofs.BaseFacts Proofs.NameFacts Proofs.MetadataFacts Proofs.PlanRun Proofs.PlannerFinal Proofs.PlannerWrap Proofs.Widen Proofs.Again Proofs.AgainRun Proofs.PlannerExamples Proofs.Reasons.
From Verif Require Import Model.Dest.
Set Implicit Arguments.
Unset Strict Implicit.
Open Scope list_scope.
#[local] Arguments cp_planned {G E pcfg cfg c p truncate create w w'} _.

Lemma Forall2_partner {A B} (R : A -> B -> Prop) l m x : Forall2 R l m -> In x l -> exists y, In y m /\ R x y.
Proof. induction 1 as [|a b l m Hab _ IH]; intros Hin; [destruct Hin|]. destruct Hin as [->|Hx]; [exists b; split; [left; reflexivity|exact Hab]|]. destruct (IH Hx) as (y & H1 & H2). exists y. split; [right; exact H1|exact H2]. Qed.

Section One.
Context {G : Type}.
Variables (E : env G) (pcfg : config) (cfg : sampler_config) (c : db_config) (p : plan) (truncate create : bool) (w w' : world).
Hypothesis H : copies E pcfg cfg c p truncate create w w'.
Notation fnm := (en_fnm E).
Notation db := (en_source_schema E).

Lemma refers_same cmpf fk r r' s s' cols cols' : incl (fk_cols fk) cols -> incl (fk_dst_cols fk) cols' -> same_values cols r s -> same_values cols' r' s' ->
  refers cmpf fk r r' -> refers cmpf fk s s'.
Proof.
  unfold refers. intros Hi Hi' Hs Hs' HF. induction HF as [|a b l l' (H1 & H2 & H3) _ IH]; constructor.
  - rewrite (Hs a), (Hs' b); [auto|apply Hi'; left; reflexivity|apply Hi; left; reflexivity].
  - apply IH; intros x Hx; [apply Hi|apply Hi']; right; exact Hx.
Qed.

Variable arr : tname -> tname.
Hypothesis Harr : forall n, planned p n -> arrives E cfg c p truncate w w' n (arr n).
Theorem dest_linked : eq_symmetric (en_cmp E) ->
  forall n r, connected fnm pcfg db n -> In r (rows_of (w_dest w') (arr n)) -> linked fnm pcfg db (en_cmp E) (fun n => rows_of (w_dest w') (arr n)) n r.
Proof.
  intros Hsym n r Hc Hr. destruct (copies_populated H) as (smp & Hpop & Hrows).
  pose proof (cp_planned H) as (B1 & B2 & B3 & _ & (ord & ordp & B5 & B6 & B7) & _).
  assert (Hpl : forall m, connected fnm pcfg db m -> planned p m).
  { intros m Hm. destruct (plan_ok_shape B3 B5 B6 B7) as (passl & ns & _ & Hs & Hg & _). apply (planned_iff B3 Hs Hg). right. exact Hm. }
  assert (Hmain : forall m, connected fnm pcfg db m -> forall x, In x (smp m) -> forall tb y, table_of db m tb -> In y (rows_of (w_dest w') (arr m)) -> same_values (tb_cols tb) x y ->
    linked fnm pcfg db (en_cmp E) (fun n => rows_of (w_dest w') (arr n)) m y).
  { refine (along B3 B5 B6 B7 (P := fun m => forall x, In x (smp m) -> forall tb y, table_of db m tb -> In y (rows_of (w_dest w') (arr m)) -> same_values (tb_cols tb) x y ->
      linked fnm pcfg db (en_cmp E) (fun n => rows_of (w_dest w') (arr n)) m y) _). intros m Hm Hpa Hch x Hx tb y Htb Hy Hxy.
    destruct (reason B3 B5 B6 B7 B1 B2 Hsym Hpop Hm Hx) as [(g & Hg)|[(fk & x' & Hfk & Hx' & Href)|(d & fk & x' & Hec & Hx' & Href)]]; [eapply linked_target; eassumption| |].
    - pose proof Hfk as (Ha & _ & Hcons & _). destruct (considered_fits B3 Hcons) as (t & td & Ht & Htd & Hi & Hi').
      assert (Hpd : planned p (fk_dst fk)) by (apply Hpl; eapply connected_step; [exact Hm|]; left; split; [exact Ha|split; [apply Hfk|exists fk; auto]]).
      destruct (Forall2_partner (Hrows _ _ _ Hpd Htd (Harr Hpd)) Hx') as (y' & Hy' & Hsv). rewrite (MetadataFacts.table_of_fun B3 Ht Htb) in Hi.
      eapply linked_referring; [exact Hcons|exact (Hpa _ Hfk _ Hx' _ _ Htd Hy' Hsv)|exact Hy|exact (refers_same Hi Hi' Hxy Hsv Href)].
    - pose proof Hec as (Ha & Hac & Hcons & Hd & _). destruct (considered_fits B3 Hcons) as (t & td & Ht & Htd & Hi & Hi'). rewrite Hd in Htd. rewrite (MetadataFacts.table_of_fun B3 Htd Htb) in Hi'.
      assert (Hpd : planned p d) by (apply Hpl; eapply connected_step; [exact Hm|]; right; split; [exact Hac|split; [exact Ha|exists fk; auto]]).
      destruct (Forall2_partner (Hrows _ _ _ Hpd Ht (Harr Hpd)) Hx') as (y' & Hy' & Hsv). pose proof (Hch _ _ Hec _ Hx' _ _ Ht Hy' Hsv) as Hl. clear Hpa Hch.
      pose proof (refers_same Hi Hi' Hsv Hxy Href) as Href'. rewrite <- Hd in Hy |- *. eapply linked_referred; [exact Hcons|exact Hl|exact Hy|exact Href']. }
  destruct (planned_table B3 B5 B6 B7 (Hpl _ Hc)) as (tb & Htb).
  destruct (Forall2_partner (flip_Forall2 (Hrows _ _ _ (Hpl _ Hc) Htb (Harr (Hpl _ Hc)))) Hr) as (x & Hx & Hxy). exact (Hmain _ Hc _ Hx _ _ Htb Hr Hxy).
Qed.
End One.

(** tables that are asked for as a whole *)
Theorem whole_arrives {G} (E : env G) pcfg cfg c p truncate create w w' n n' tb : copies E pcfg cfg c p truncate create w w' ->
  passed_through (en_fnm E) pcfg (en_source_schema E) n \/ (planned p n /\ exists g, is_target pcfg n g /\ tg_all g = true /\ tg_amount g = None) ->
  table_of (en_source_schema E) n tb -> arrives E cfg c p truncate w w' n n' ->
  exists l, Permutation l (en_source E n) /\ Forall2 (same_values (tb_cols tb)) l (rows_of (w_dest w') n').
Proof.
  intros H Hn Htb Ha. destruct (copies_populated H) as (smp & Hpop & Hrows). pose proof (cp_planned H) as (B1 & B2 & B3 & _ & (ord & ordp & B5 & B6 & B7) & _).
  exists (smp n). destruct Hn as [Hn|(Hp & g & Hg & Hall & Ham)].
  - split; [exact (pass_whole B3 B5 B6 B7 Hpop Hn)|]. apply Hrows; [|exact Htb|exact Ha].
    destruct (plan_ok_shape B3 B5 B6 B7) as (passl & ns & _ & Hs & Hgo & _). apply (planned_iff B3 Hs Hgo). left. exact Hn.
  - split; [exact (target_all B3 B5 B6 B7 B1 B2 Hpop Hg Hall Ham)|]. exact (Hrows _ _ _ Hp Htb Ha).
Qed.

(** two runs of the same plan *)
Section Two.
Context {G G' : Type}.
Variables (E : env G) (E' : env G') (pcfg : config) (cfg cfg' : sampler_config) (c c' : db_config) (p : plan) (truncate truncate' create create' : bool) (w w' v v' : world).
Hypothesis H : copies E pcfg cfg c p truncate create w w'.
Hypothesis H' : copies E' pcfg cfg' c' p truncate' create' v v'.
Hypothesis Hschema : en_source_schema E' = en_source_schema E.
Hypothesis Hcmp : en_cmp E' = en_cmp E.
Hypothesis Htext : en_text E' = en_text E.
Hypothesis Hsource : en_source E' = en_source E.
Hypothesis Hsym : eq_symmetric (en_cmp E).
Hypothesis Hshape : forall n tb r, planned p n -> table_of (en_source_schema E) n tb -> In r (en_source E n) -> map fst r = tb_cols tb.
Hypothesis Htargets : forall n g tb, planned p n -> is_target pcfg n g -> table_of (en_source_schema E) n tb ->
  exists n1 n2 l, arrives E cfg c p truncate w w' n n1 /\ arrives E' cfg' c' p truncate' v v' n n2 /\
    Permutation l (rows_of (w_dest w') n1) /\ Forall2 (same_values (tb_cols tb)) l (rows_of (w_dest v') n2).

Lemma shaped_same (cols : list string) l l' : NoDup cols -> (forall r, In r l -> map fst r = cols) -> (forall r, In r l' -> map fst r = cols) -> Forall2 (same_values cols) l l' -> l' = l.
Proof.
  intros Hnd H1 H2 HF. induction HF as [|a b l l' Hab _ IH]; [reflexivity|]. f_equal; [|apply IH; intros r Hr; [apply H1|apply H2]; right; exact Hr].
  pose proof (H1 a (or_introl eq_refl)) as Ea. pose proof (H2 b (or_introl eq_refl)) as Eb. apply shaped_eq; [congruence|rewrite Ea; exact Hnd|]. intros k Hk. rewrite Ea in Hk. exact (Hab k Hk).
Qed.
Theorem runs_decided n n1 n2 tb : planned p n -> table_of (en_source_schema E) n tb ->
  arrives E cfg c p truncate w w' n n1 -> arrives E' cfg' c' p truncate' v v' n n2 ->
  exists l, Permutation l (rows_of (w_dest w') n1) /\ Forall2 (same_values (tb_cols tb)) l (rows_of (w_dest v') n2).
Proof.
  intros Hp Htb Ha Ha'. destruct (copies_populated H) as (smp & Hpop & Hrows). destruct (copies_populated H') as (smp' & Hpop' & Hrows'). rewrite Hcmp, Htext, Hsource in Hpop'. rewrite Hschema in Hrows'.
  pose proof (cp_planned H) as (B1 & B2 & B3 & _ & (ord & ordp & B5 & B6 & B7) & _).
  assert (Hperm : Permutation (smp n) (smp' n)).
  { refine (targets_decide B3 B5 B6 B7 B1 B2 Hsym Hpop Hpop' _ Hp). intros m g Hm Hg. destruct (planned_table B3 B5 B6 B7 Hm) as (t & Ht).
    destruct (Htargets Hm Hg Ht) as (m1 & m2 & l & A1 & A2 & HP & HF).
    destruct (perm_Forall2 (Hrows _ _ _ Hm Ht A1) (Permutation_sym HP)) as (k & HPk & HFk).
    replace (smp' m) with k; [exact HPk|]. symmetry. apply (@shaped_same (tb_cols t)).
    - exact (proj1 (proj2 (proj2 B3 _ (proj1 Ht)))).
    - intros r Hr. apply (Hshape Hm Ht), (rows_from_source B3 B5 B6 B7 Hpop Hm). exact (Permutation_in _ (Permutation_sym HPk) Hr).
    - intros r Hr. apply (Hshape Hm Ht), (rows_from_source B3 B5 B6 B7 Hpop' Hm). exact Hr.
    - pose proof (Hrows' _ _ _ Hm Ht A2) as F'. apply flip_Forall2 in F'. apply flip_Forall2 in HFk. apply flip_Forall2 in HF.
      revert F' HF HFk. generalize (rows_of (w_dest v') m2), (smp' m). clear. intros z y F'. revert l k. induction F' as [|b a z y Hab _ IH]; intros l k HF HFk; inversion HF as [|? b' ? l' Hb Hl]; subst; inversion HFk as [|? a' ? k' Ha Hk]; subst; constructor; [|exact (IH _ _ Hl Hk)].
      intros x Hx. rewrite <- (Hab x Hx), (Hb x Hx), (Ha x Hx). reflexivity. }
  pose proof (Hrows _ _ _ Hp Htb Ha) as F. pose proof (Hrows' _ _ _ Hp Htb Ha') as F'.
  destruct (perm_Forall2 (flip_Forall2 F) Hperm) as (l & HP & HF). apply flip_Forall2 in HF. exists l. split; [apply Permutation_sym; exact HP|].
  eapply two_Forall2; [|exact HF|exact F']. intros x y z Hxy Hxz. exact (same_trans Hxy Hxz).
Qed.
End Two.
