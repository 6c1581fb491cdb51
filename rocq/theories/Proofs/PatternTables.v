(** Patterns that choose tables (C127), tables found by their names (C128). *)
From Coq Require Import String Ascii List.
From Verif Require Import Model.Base Model.Value Model.Names Model.PlanModel Model.Metadata Model.Planner Model.Sampler Model.Fnmatch.
From Verif Require Import Spec.GraphSpec Spec.SchemaSpec Spec.PlannerSpec Spec.PatternSpec.
From Verif Require Import Proofs.BaseFacts Proofs.NameFacts Proofs.MetadataFacts Proofs.MetadataMain Proofs.PlannerWrap Proofs.PlanRun Proofs.PatternFacts.
Set Implicit Arguments.
Unset Strict Implicit.
Open Scope string_scope.
Open Scope list_scope.

Theorem by_name db p n : plain p -> matching fnmatch db [p] n <-> named p n /\ exists t, table_of db n t.
Proof.
  intros Hp. split.
  - intros (t & s & q & Ht & Hs & [<-|[]] & Hm). apply (fnmatch_plain s Hp) in Hm. subst s. eauto.
  - intros (Hn & t & Ht). exists t, p, p. split; [exact Ht|]. split; [exact Hn|]. split; [left; reflexivity|]. apply fnmatch_plain; auto.
Qed.
Lemma plain_dot a : plain a -> plain (a ++ ".").
Proof.
  induction a as [|c a IH]; intros Ha; cbn [append]; [|apply plain_cons in Ha; apply plain_cons; split; [apply Ha|apply IH, Ha]].
  intros [|x [|y b]] d r E; cbn in E; injection E as E1 E2; try discriminate. subst d. unfold special. intros [H|[H|H]]; discriminate H.
Qed.
Lemma dot_split a x t : no_dot a -> no_dot (fst x) -> ((fst x ++ "." ++ snd x) = (a ++ ".") ++ t)%string -> fst x = a.
Proof.
  destruct x as [b c]. cbn [fst snd]. rewrite app_assoc_s. cbn [append]. intros Ha Hb E. assert (H1 : parse_table_name (b ++ String "." c) = Some (b, c)) by (apply parse_named; split; [reflexivity|exact Hb]).
  assert (H2 : parse_table_name (a ++ String "." t) = Some (a, t)) by (apply parse_named; split; [reflexivity|exact Ha]). cbn [append] in E. rewrite E, H2 in H1. congruence.
Qed.
Theorem by_schema db a n : plain a -> no_dot a -> matching fnmatch db [(a ++ ".*")%string] n <-> fst n = a /\ exists t, table_of db n t.
Proof.
  intros Ha Hd. replace (a ++ ".*")%string with ((a ++ ".") ++ "*")%string by (rewrite app_assoc_s; reflexivity). split.
  - intros (t & s & q & Ht & (Hs & Hn) & [<-|[]] & Hm). apply (fnmatch_prefix s (plain_dot Ha)) in Hm. destruct Hm as (u & Hu). split; [|eauto]. eapply dot_split; [exact Hd|exact Hn|]. rewrite <- Hs. exact Hu.
  - intros (Hn & t & Ht). exists t, (fst n ++ "." ++ snd n)%string, ((a ++ ".") ++ "*")%string. split; [exact Ht|]. split; [split; [reflexivity|rewrite Hn; exact Hd]|]. split; [left; reflexivity|].
    apply (fnmatch_prefix _ (plain_dot Ha)). exists (snd n). rewrite Hn, app_assoc_s. reflexivity.
Qed.
Theorem by_star db n t : db_ok db -> table_of db n t -> matching fnmatch db ["*"] n.
Proof.
  intros Hdb Ht. exists t, (fst n ++ "." ++ snd n)%string, "*". split; [exact Ht|]. split; [|split; [left; reflexivity|]].
  - split; [reflexivity|]. destruct Ht as [H1 <-]. apply (proj2 Hdb _ H1).
  - apply (@fnmatch_prefix "" _). { intros [|x a] c b E; discriminate E. } eexists. reflexivity.
Qed.

Theorem passthrough_found cfg db ord ordp p s n t : db_ok db -> any_order ord -> any_order ordp -> plan_db ord ordp fnmatch cfg db = Ok p ->
  In s (c_passthrough cfg) -> named s n -> table_of db n t -> unbracketed s -> In s (p_passthrough p) /\ In s (dkeys (p_queries p)).
Proof.
  intros Hdb H1 H2 Hp Hs Hn Ht Ho. destruct (plan_covers Hdb H1 H2 Hp) as (_ & Hq & _ & _ & Hpt).
  assert (Hpass : passed_through fnmatch cfg db n).
  { split; [|exists s; auto]. exists n. split; [|apply Relation_Operators.rt_refl]. exists t, s, s. split; [exact Ht|]. split; [exact Hn|]. split; [apply in_or_app; right; exact Hs|apply fnmatch_self; exact Ho]. }
  split; [apply Hpt|apply Hq]; exists n; auto.
Qed.
Theorem sampler_finds db queries infer ms s n t : db_ok db -> sampler_meta fnmatch db queries infer = Ok ms ->
  In s (dkeys queries) -> named s n -> table_of db n t -> unbracketed s -> exists m, In (n, m) ms /\ tm_table m = t.
Proof.
  intros Hdb Hms Hs Hn Ht Ho. destruct (sampler_meta_spec fnmatch queries infer Hdb) as (ms' & Hms' & Hok & Htab & Hin). rewrite Hms in Hms'. injection Hms' as <-.
  assert (H : In n (dkeys ms)) by (apply Hin; exists t, s, s; split; [exact Ht|]; split; [exact Hn|]; split; [exact Hs|apply fnmatch_self; exact Ho]).
  unfold dkeys in H. apply in_map_iff in H. destruct H as ((n' & m) & E & H). cbn in E. subst n'. exists m. split; [exact H|]. exact (MetadataFacts.table_of_fun Hdb (Htab _ _ H) Ht).
Qed.
