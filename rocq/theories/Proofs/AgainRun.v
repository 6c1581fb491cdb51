(** Runs that just copy, compared (C115, C119). *)
From Coq Require Import Lia QArith Permutation.
From Verif Require Import Model.Base Model.Value Model.Names Model.PlanModel Model.SqlAlgebra Model.PlanBuild Model.Metadata Model.Planner Model.Filters Model.Multiply Model.Materialize Model.Dest Model.Output Model.Sampler.
From Verif Require Import Spec.GraphSpec Spec.SchemaSpec Spec.SqlSem Spec.PlannerSpec Spec.FilterSpec Spec.OutputSpec Spec.RunSpec Spec.SampleSpec Spec.WholeSpec Spec.WidenSpec Spec.AgainSpec.
From Verif Require Import Proofs.BaseFacts Proofs.NameFacts Proofs.MetadataFacts Proofs.MaterializeRun Proofs.SampleRun Proofs.SampleTotal Proofs.CompactRun Proofs.SampleFinal Proofs.PlanRun Proofs.OutputMain Proofs.OutputMore Proofs.WholeRun Proofs.WholeFk Proofs.PlannerFinal Proofs.PlannerWrap Proofs.Widen Proofs.Again.
From Verif Require Import Model.Dest.
Set Implicit Arguments.
Unset Strict Implicit.
Open Scope list_scope.
#[local] Arguments rn_names {id reopen ms source compact queries} _.
#[local] Arguments cp_planned {G E pcfg cfg c p truncate create w w'} _.
#[local] Arguments rn_meta {id reopen ms source compact queries} _.
#[local] Arguments rn_keys {id reopen ms source compact queries} _.
#[local] Arguments rn_reads {id reopen ms source compact queries} _ [s q n] _ _.

Lemma mapM_in {A B E} (f : A -> res E B) l ys x : mapM f l = Ok ys -> In x l -> exists y, f x = Ok y /\ In y ys.
Proof.
  revert ys. induction l as [|a l IH]; intros ys H Hx; [destruct Hx|]. cbn [mapM] in H. apply bind_Ok in H. destruct H as (b & Hb & H). apply bind_Ok in H. destruct H as (bs & Hbs & H). injection H as <-.
  destruct Hx as [<-|Hx]; [exists b; cbn; auto|]. destruct (IH bs Hbs Hx) as (y & H1 & H2). exists y. cbn. auto.
Qed.

Lemma Forall2_weak {A B} (P Q : A -> B -> Prop) l l' : (forall a b, P a b -> Q a b) -> Forall2 P l l' -> Forall2 Q l l'.
Proof. induction 2; constructor; auto. Qed.

Section Run.
Context {G : Type}.
Variables (E : env G) (cfg : sampler_config) (p : plan) (pcfg : config).
Hypothesis Henv : env_ok E.
Hypothesis Hby : planned_by E p pcfg.
Hypothesis Hnc : no_compaction (sc_compact cfg).

(** What is copied is a sample. *)
Theorem run_populated : exists smp, populated (en_cmp E) (en_text E) (en_source E) smp p /\
  forall ms compact st mults t co n, computed_by E cfg p ms compact st mults -> In t (dkeys (p_queries p)) -> named t n -> result_of E cfg p ms compact st t co ->
    co_rows co = smp n /\ exists tb, table_of (en_source_schema E) n tb /\ co_cols co = tb_cols tb.
Proof.
  destruct Henv as (A1 & A2 & A3). destruct Hby as (B1 & B2 & B3 & B4 & (ord & ordp & B5 & B6 & B7) & B8 & B9).
  destruct (sampler_meta_spec (en_fnm E) (p_queries p) (sc_infer cfg) B3) as (ms & Hms & _ & Htab & _).
  pose proof (@plain_runnable G E cfg p pcfg ord ordp B5 B6 B1 B2 B3 B4 B7 B8 B9 ms Hms) as HR.
  assert (Hi : forall s, In s (dkeys (p_queries p)) -> exists n, named s n).
  { exact (proj2 (rn_names HR)). }
  destruct (runnable_total (en_cmp E) (en_text E) (en_raw E) (en_raw_cols E) (cp_start (sc_compact cfg)) A3 A1 A2 HR Hi) as (st & outs & Ex).
  assert (Hnil : NoDup (dkeys (@nil (tname * list string)))) by constructor.
  destruct (run_sees A1 (rn_meta HR) (rn_keys HR) (rn_names HR) (runnable_wf HR) Hnil A3 Ex) as (Hn & smp & rows & Hsel & Hsr & Hout).
  exists smp. split.
  - intros s q n Hq Hs. destruct (Hsel s q n Hq Hs) as ((w & (ph & ->) & Hw) & _). destruct (rn_reads HR Hq Hs) as (Hsql & stm & Hst & _).
    exists stm, (en_rnd E ph n). split; [exact Hst|]. split; [apply A2|]. rewrite (Hsr n), Hw; [|intros []]. unfold query_result. rewrite Hsql, Hst. apply Permutation_refl.
  - intros ms1 compact st1 mults t co n (Hms1 & _ & Hcc & Hmat) Ht Hnt Hres. rewrite Hms in Hms1. injection Hms1 as <-. apply (no_compaction_nil Hnc) in Hcc. subst compact.
    unfold extract in Ex. rewrite Hmat in Ex. cbn [bind] in Ex. apply bind_Ok in Ex. destruct Ex as (os & Hos & Ex). injection Ex as <- <-.
    destruct (mapM_in Hos Ht) as (y & Hy & Hin). unfold result_of in Hres. rewrite Hres in Hy. injection Hy as <-.
    destruct (copied_columns A1 A2 A3 HR Hmat Hres) as (Hnc1 & m & Hmm & Hcols). assert (En : co_name co = n) by exact (named_fun Hnc1 Hnt).
    split; [|exists (tm_table m); split; [rewrite <- En; exact (Htab _ _ (dget_In Hmm))|exact Hcols]].
    assert (Hx : In co (flat_map (fun o => match o with Some x => [x] | None => [] end) os)) by (apply in_flat_map; exists (Some co); split; [exact Hin|now left]).
    rewrite <- En, (Hsr (co_name co)); [|intros []]. apply (Hout co Hx). split; [intros []|]. intros x d dc (m1 & f & _ & _ & _ & _ & cs & [] & _).
Qed.
End Run.

Section Copies.
Context {G : Type}.
Variables (E : env G) (pcfg : config) (cfg : sampler_config) (c : db_config) (p : plan) (truncate create : bool) (w w' : world).
Hypothesis H : copies E pcfg cfg c p truncate create w w'.

Theorem copies_populated : exists smp, populated (en_cmp E) (en_text E) (en_source E) smp p /\
  forall n n' tb, planned p n -> table_of (en_source_schema E) n tb -> arrives E cfg c p truncate w w' n n' ->
    Forall2 (same_values (tb_cols tb)) (smp n) (rows_of (w_dest w') n').
Proof.
  destruct H as [Henv Hby Hnc Hok Htr (Hm & Hst & Hmu) (g & g' & Hs)]. destruct (run_populated Henv Hby Hnc) as (smp & Hpop & Hrows). exists smp. split; [exact Hpop|].
  intros n n' tb (t & Hn & Ht) Htb (Hg & (tb' & Htb') & He & Hunt).
  assert (Hto : lands (en_resub E) (oc_remap c) t n') by (exists n; split; assumption).
  destruct (destination_holds Hok Htr Hs Ht Hto Htb' Hm Hst Hmu He) as (ms & compact & st & mults & co & Hcb & Hres & HF).
  destruct (Hrows _ _ _ _ _ _ _ Hcb Ht Hn Hres) as (Er & tb1 & Htb1 & Ec). destruct Hby as (_ & _ & Hdb & _). rewrite (MetadataFacts.table_of_fun Hdb Htb1 Htb) in Ec.
  rewrite Er, Ec in HF. eapply Forall2_weak; [|exact HF]. intros r row Hr k Hk. destruct (Hunt t tb k Hn Htb Hk) as (A1 & A2). apply Hr; assumption.
Qed.
End Copies.

Section Two.
Context {G G' : Type}.
Variables (E : env G) (E' : env G') (pcfg : config) (cfg cfg' : sampler_config) (c c' : db_config) (p p' : plan) (truncate truncate' create create' : bool) (w w' v v' : world).
Hypothesis Hschema : en_source_schema E' = en_source_schema E.
Hypothesis Hfnm : en_fnm E' = en_fnm E.
Hypothesis Hcmp : en_cmp E' = en_cmp E.
Hypothesis Htext : en_text E' = en_text E.
Hypothesis Hsym : eq_symmetric (en_cmp E).
Hypothesis H : copies E pcfg cfg c p truncate create w w'.

Lemma same_trans cols r1 r2 r3 : same_values cols r1 r2 -> same_values cols r1 r3 -> same_values cols r2 r3.
Proof. intros A B k Hk. rewrite (B k Hk), (A k Hk). reflexivity. Qed.

Theorem runs_larger ts cs : copies E' (retargeted pcfg ts cs) cfg' c' p' truncate' create' v v' ->
  widened (en_cmp E) (en_text E) pcfg (retargeted pcfg ts cs) -> (forall n, planned p n -> incl (en_source E n) (en_source E' n)) ->
  forall n n' n2 tb, planned p n -> table_of (en_source_schema E) n tb -> arrives E cfg c p truncate w w' n n' -> arrives E' cfg' c' p' truncate' v v' n n2 ->
  planned p' n /\ forall r, In r (rows_of (w_dest w') n') -> exists r', In r' (rows_of (w_dest v') n2) /\ same_values (tb_cols tb) r r'.
Proof.
  intros H' Hw Hsrc n n' n2 tb Hp Htb Ha Ha'.
  destruct (copies_populated H) as (smp & Hpop & Hrows). destruct (copies_populated H') as (smp' & Hpop' & Hrows'). rewrite Hcmp, Htext in Hpop'.
  pose proof (cp_planned H) as (B1 & B2 & B3 & _ & (ord & ordp & B5 & B6 & B7) & _). pose proof (cp_planned H') as (D1 & D2 & _ & _ & (ord' & ordp' & D5 & D6 & D7) & _). rewrite Hschema, Hfnm in D7.
  assert (Hin : forall m, planned p m -> incl (smp m) (en_source E' m)) by (intros m Hm r Hr; apply (Hsrc m Hm); exact (rows_from_source B3 B5 B6 B7 Hpop Hm Hr)).
  destruct (@larger (en_fnm E) pcfg (en_source_schema E) ts cs ord ord' ordp ordp' B3 B5 D5 B6 D6 p p' B7 D7 B1 D1 B2 (en_cmp E) (en_text E) (en_source E) (en_source E') smp smp' Hpop Hpop' Hsym Hw n Hin Hp) as (Hp' & Hincl).
  split; [exact Hp'|]. intros r Hr. pose proof (Hrows _ _ _ Hp Htb Ha) as F. rewrite <- Hschema in Htb. pose proof (Hrows' _ _ _ Hp' Htb Ha') as F'.
  destruct (Forall2_In_r F Hr) as (r0 & Hr0 & Hs0). destruct (Forall2_In_l F' (Hincl _ Hr0)) as (r' & Hr' & Hs'). exists r'. split; [exact Hr'|exact (same_trans Hs0 Hs')].
Qed.

Lemma shaped_eq : forall (r r' : row), map fst r' = map fst r -> NoDup (map fst r) -> (forall k, In k (map fst r) -> rget r' k = rget r k) -> r' = r.
Proof.
  induction r as [|[k x] r IH]; intros [|[k' x'] r'] Hm Hnd Hv; try discriminate; [reflexivity|]. cbn in Hm. injection Hm as -> Hm. inversion Hnd as [|? ? Hni Hnd']; subst.
  pose proof (Hv k (or_introl eq_refl)) as Hk. unfold rget, dget_or in Hk. cbn [dget] in Hk. destruct (eq_dec k k); [|congruence]. rewrite Hk. f_equal.
  apply IH; [exact Hm|exact Hnd'|]. intros y Hy. specialize (Hv y (or_intror Hy)). unfold rget, dget_or in Hv |- *. cbn [dget] in Hv.
  destruct (eq_dec y k); [subst y; contradiction|exact Hv].
Qed.


Lemma perm_Forall2 {A B} (R : A -> B -> Prop) l m m' : Forall2 R l m -> Permutation m m' -> exists l', Permutation l l' /\ Forall2 R l' m'.
Proof.
  intros HF HP. revert l HF. induction HP; intros l0 HF.
  - inversion HF; subst. exists []. auto.
  - inversion HF as [|a b la lb Ha Hla]; subst. destruct (IHHP _ Hla) as (k1 & P1 & F1). exists (a :: k1). auto.
  - inversion HF as [|a b la lb Ha Hla]; subst. inversion Hla as [|a' b' la' lb' Ha' Hla']; subst. exists (a' :: a :: la'). split; [apply perm_swap|auto].
  - destruct (IHHP1 _ HF) as (k1 & P1 & F1). destruct (IHHP2 _ F1) as (k2 & P2 & F2). exists k2. split; [exact (Permutation_trans P1 P2)|exact F2].
Qed.
Lemma flip_Forall2 {A B} (R : A -> B -> Prop) l m : Forall2 R l m -> Forall2 (fun b a => R a b) m l.
Proof. induction 1; constructor; auto. Qed.
Lemma two_Forall2 {A B C} (P : A -> B -> Prop) (Q : A -> C -> Prop) (R : B -> C -> Prop) : forall l m k,
  (forall a b c0, P a b -> Q a c0 -> R b c0) -> Forall2 P l m -> Forall2 Q l k -> Forall2 R m k.
Proof. intros l m k HR HP. revert k. induction HP; intros k HQ; inversion HQ; subst; constructor; eauto. Qed.

Theorem runs_again : copies E' pcfg cfg' c' p' truncate' create' v v' -> settled (en_fnm E) pcfg (en_source_schema E) p ->
  (forall n tb r, planned p n -> table_of (en_source_schema E) n tb -> In r (en_source E n) -> map fst r = tb_cols tb) ->
  reads_result E cfg c p truncate w w' E' ->
  forall n n' n2 tb, planned p n -> table_of (en_source_schema E) n tb -> arrives E cfg c p truncate w w' n n' -> arrives E' cfg' c' p' truncate' v v' n n2 ->
  planned p' n /\ exists l, Permutation l (rows_of (w_dest w') n') /\ Forall2 (same_values (tb_cols tb)) l (rows_of (w_dest v') n2).
Proof.
  intros H' Hset Hshape Hread n n' n2 tb Hp Htb Ha Ha'.
  destruct (copies_populated H) as (smp & Hpop & Hrows). destruct (copies_populated H') as (smp' & Hpop' & Hrows'). rewrite Hcmp, Htext in Hpop'.
  pose proof (cp_planned H) as (B1 & B2 & B3 & _ & (ord & ordp & B5 & B6 & B7) & _). pose proof (cp_planned H') as (D1 & D2 & _ & _ & (ord' & ordp' & D5 & D6 & D7) & _). rewrite Hschema, Hfnm in D7.
  assert (Hsrc : forall m, planned p m -> Permutation (en_source E' m) (smp m)).
  { intros m Hm. destruct (planned_table B3 B5 B6 B7 Hm) as (t & Ht). destruct (Hread m t Hm Ht) as (m' & stored & Hma & HP & HF).
    destruct (perm_Forall2 (Hrows _ _ _ Hm Ht Hma) (Permutation_sym HP)) as (l & HP' & HF'). apply Permutation_sym. replace (en_source E' m) with l; [exact HP'|].
    assert (Hl : forall r, In r l -> map fst r = tb_cols t) by (intros r Hr; apply (Hshape m t r Hm Ht), (rows_from_source B3 B5 B6 B7 Hpop Hm); exact (Permutation_in _ (Permutation_sym HP') Hr)).
    assert (Hnd : NoDup (tb_cols t)) by exact (proj1 (proj2 (proj2 B3 _ (proj1 Ht)))).
    unfold reads in HF. clear - HF HF' Hl Hnd. revert l HF' Hl. induction HF as [|r r' st rd (Hm & Hv) _ IH]; intros l HF' Hl; inversion HF' as [|x y lx ly Hxy Hlxy]; subst; [reflexivity|]. f_equal.
    - symmetry. assert (Hc : map fst x = tb_cols t) by (apply Hl; left; reflexivity). apply shaped_eq; [congruence|rewrite Hc; exact Hnd|]. intros k Hk. rewrite Hc in Hk. rewrite (Hv k Hk). apply Hxy. exact Hk.
    - apply IH; [exact Hlxy|]. intros y Hy. apply Hl. right. exact Hy. }
  destruct (@again (en_fnm E) pcfg (en_source_schema E) ord ord' ordp ordp' B3 B5 D5 B6 D6 p p' B7 D7 B1 B2 (en_cmp E) (en_text E) (en_source E) (en_source E') smp smp' Hpop Hpop' Hsym Hset Hsrc n Hp) as (Hp' & Hperm).
  split; [exact Hp'|]. pose proof (Hrows _ _ _ Hp Htb Ha) as F. rewrite <- Hschema in Htb. pose proof (Hrows' _ _ _ Hp' Htb Ha') as F'.
  destruct (perm_Forall2 (flip_Forall2 F) (Permutation_sym Hperm)) as (l & HP & HF). apply flip_Forall2 in HF. exists l. split; [apply Permutation_sym; exact HP|].
  eapply two_Forall2; [|exact HF|exact F']. intros a b d Hab Had. exact (same_trans Hab Had).
Qed.
End Two.
