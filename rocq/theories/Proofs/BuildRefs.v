(** plan_model.py [build]: which tables the SQL refers to, and when building succeeds. *)
From Verif Require Import Model.Base Model.Value Model.PlanModel Spec.SqlSem Model.SqlAlgebra Model.PlanBuild
  Model.Metadata Model.Materialize Spec.SampleSpec Proofs.BaseFacts Proofs.SimplifyFacts Proofs.BuildFacts.
Set Implicit Arguments.
Unset Strict Implicit.

Section Calls.
Context {S : Type}.
Variable context : ident -> S -> res build_exn (tobj * S).

Fixpoint call_all (ids : list ident) (s : S) : res build_exn (list tobj * S) :=
  match ids with
  | [] => Ok ([], s)
  | i :: r => let* (t, s) := context i s in let* (ts, s) := call_all r s in Ok (t :: ts, s)
  end.

Lemma call_all_app l l' s ts ts' s1 s2 : call_all l s = Ok (ts, s1) -> call_all l' s1 = Ok (ts', s2) ->
  call_all (l ++ l') s = Ok (ts ++ ts', s2).
Proof.
  revert s ts. induction l as [|i l IH]; intros s ts H1 H2; cbn [call_all app] in *.
  - inv H1. exact H2.
  - apply bind_Ok in H1. destruct H1 as ([t s0] & Ht & H1). apply bind_Ok in H1. destruct H1 as ([tr s3] & Hr & H1). inv H1.
    rewrite Ht. cbn [bind]. rewrite (IH _ _ Hr H2). reflexivity.
Qed.
Lemma call_all_app_inv l l' s ts s2 : call_all (l ++ l') s = Ok (ts, s2) ->
  exists t1 t2 s1, call_all l s = Ok (t1, s1) /\ call_all l' s1 = Ok (t2, s2) /\ ts = t1 ++ t2.
Proof.
  revert s ts. induction l as [|i l IH]; intros s ts H1; cbn [call_all app] in *.
  - exists [], ts, s. auto.
  - apply bind_Ok in H1. destruct H1 as ([t s0] & Ht & H1). apply bind_Ok in H1. destruct H1 as ([tr s3] & Hr & H1). inv H1.
    destruct (IH _ _ Hr) as (t1 & t2 & s1 & A & B & C). exists (t :: t1), t2, s1. rewrite Ht. cbn [bind]. rewrite A. cbn [bind].
    subst. auto.
Qed.

Definition refs_match (refs : list tref) (ts : list tobj) : Prop := Permutation refs (map t_ref ts).
Lemma refs_match_app a b x y : refs_match a x -> refs_match b y -> refs_match (a ++ b) (x ++ y).
Proof. unfold refs_match. intros. rewrite map_app. apply Permutation_app; assumption. Qed.

Lemma concat_refs_app l l' : concat (map cond_refs (l ++ l')) = concat (map cond_refs l) ++ concat (map cond_refs l').
Proof. rewrite map_app, concat_app. reflexivity. Qed.

Lemma joins_calls t outer js n from cols exs s from' cols' exs' s' :
  build_joins context t outer js n from cols exs s = Ok ((from', cols', exs'), s') ->
  exists ts, call_all (map j_right js) s = Ok (ts, s') /\
    Permutation (from_refs from' ++ concat (map cond_refs exs'))
                (from_refs from ++ concat (map cond_refs exs) ++ map t_ref ts).
Proof.
  revert n from cols exs s. induction js as [|j js IH]; intros n from cols exs s Hb; cbn [build_joins] in Hb.
  - inv Hb. exists []. cbn. split; [reflexivity|]. rewrite app_nil_r. reflexivity.
  - apply bind_Ok in Hb. destruct Hb as ([rt s0] & Hc & Hb). apply bind_Ok in Hb. destruct Hb as (on & Hon & Hb).
    cbn [map call_all]. rewrite Hc. cbn [bind].
    destruct (j_half_unique j && negb (is_nil (t_pk t))).
    + apply bind_Ok in Hb. destruct Hb as (u & Hu & Hb). apply IH in Hb. destruct Hb as (ts & Hts & HP).
      rewrite Hts. cbn [bind]. exists (rt :: ts). split; [reflexivity|]. rewrite HP. cbn [from_refs map].
      rewrite <- !app_assoc. apply Permutation_app_head. cbn [app]. rewrite Permutation_middle. reflexivity.
    + apply IH in Hb. destruct Hb as (ts & Hts & HP). rewrite Hts. cbn [bind]. exists (rt :: ts). split; [reflexivity|].
      rewrite HP, concat_refs_app. cbn [map concat cond_refs app]. rewrite <- !app_assoc. reflexivity.
Qed.

Lemma notnull_refs (cols : list (nat * string)) : concat (map cond_refs (map (fun nc => QNotNull (fst nc) (snd nc)) cols)) = [].
Proof. induction cols as [|c l IH]; [reflexivity|]. cbn. exact IH. Qed.

Lemma join_part_calls t js outer s f gb ws s' :
  build_join_part context t js outer s = Ok ((f, gb, ws), s') ->
  exists ts, call_all (joins_ids js) s = Ok (ts, s') /\
    Permutation (from_refs f ++ concat (map cond_refs ws)) (t_ref t :: map t_ref ts).
Proof.
  unfold build_join_part. destruct js as [[|j js]|]; intros Hb.
  - inv Hb. exists []. cbn. auto.
  - apply bind_Ok in Hb. destruct Hb as ([[[from cols] exs] s1] & Hj & Hb). inv Hb.
    apply joins_calls in Hj. destruct Hj as (ts & Hts & HP). exists ts. split; [exact Hts|].
    cbn [from_refs map concat app] in HP. rewrite <- HP. apply Permutation_app_head.
    destruct outer.
    + cbn [map concat cond_refs]. rewrite app_nil_r, concat_refs_app, notnull_refs, app_nil_r. reflexivity.
    + destruct exs; [reflexivity|]. cbn [map concat cond_refs]. rewrite app_nil_r. reflexivity.
  - inv Hb. exists []. cbn. auto.
Qed.

Definition wc_calls (c : wc) : Prop := forall t s q s', build_wc context t c s = Ok (q, s') ->
  exists ts, call_all (wc_ids c) s = Ok (ts, s') /\ refs_match (cond_refs q) ts.
Definition sel_calls (x : sel) : Prop := forall s q s', build_sel context x s = Ok (q, s') ->
  exists ts, call_all (sel_ids x) s = Ok (ts, s') /\ refs_match (query_refs q) ts.
Definition stmt_calls (st : stmt) : Prop := forall s q s', build_stmt context st s = Ok (q, s') ->
  exists ts, call_all (stmt_ids st) s = Ok (ts, s') /\ refs_match (query_refs q) ts.

Lemma wcs_calls l : Forall wc_calls l -> forall t s qs s', build_wcs context t l s = Ok (qs, s') ->
  exists ts, call_all (concat (map wc_ids l)) s = Ok (ts, s') /\ refs_match (concat (map cond_refs qs)) ts.
Proof.
  induction l as [|c l IH]; intros HP t s qs s' Hb; cbn [build_wcs] in Hb.
  - inv Hb. exists []. split; [reflexivity|]. apply Permutation_refl.
  - apply Forall_cons_iff in HP. destruct HP as [HP1 HP2].
    apply bind_Ok in Hb. destruct Hb as ([q s1] & Hq & Hb). apply bind_Ok in Hb. destruct Hb as ([qs1 s2] & Hqs & Hb). inv Hb.
    apply HP1 in Hq. destruct Hq as (ts & Ht & HM). apply (IH HP2) in Hqs. destruct Hqs as (ts' & Ht' & HM').
    exists (ts ++ ts'). split; [exact (call_all_app Ht Ht')|]. cbn [map concat]. apply refs_match_app; assumption.
Qed.
Lemma sels_calls l : Forall sel_calls l -> forall s qs s', build_sels context l s = Ok (qs, s') ->
  exists ts, call_all (concat (map sel_ids l)) s = Ok (ts, s') /\ refs_match (concat (map query_refs qs)) ts.
Proof.
  induction l as [|c l IH]; intros HP s qs s' Hb; cbn [build_sels] in Hb.
  - inv Hb. exists []. split; [reflexivity|]. apply Permutation_refl.
  - apply Forall_cons_iff in HP. destruct HP as [HP1 HP2].
    apply bind_Ok in Hb. destruct Hb as ([q s1] & Hq & Hb). apply bind_Ok in Hb. destruct Hb as ([qs1 s2] & Hqs & Hb). inv Hb.
    apply HP1 in Hq. destruct Hq as (ts & Ht & HM). apply (IH HP2) in Hqs. destruct Hqs as (ts' & Ht' & HM').
    exists (ts ++ ts'). split; [exact (call_all_app Ht Ht')|]. cbn [map concat]. apply refs_match_app; assumption.
Qed.

Lemma calls_nil s : call_all [] s = Ok ([], s).
Proof. reflexivity. Qed.

Theorem build_calls st : stmt_calls st.
Proof.
  apply (@stmt_i wc_calls sel_calls stmt_calls).
  1,2,3,4,8,9: unfold wc_calls; cbn [build_wc wc_ids]; intros; exists []; split.
  all: try (match goal with H : Ok _ = Ok _ |- _ => inv H end; try reflexivity; apply Permutation_refl).
  1: { apply bind_Ok in H. destruct H as (u & Hu & H). inv H. reflexivity. }
  1: { apply bind_Ok in H. destruct H as (u & Hu & H). inv H. destruct op; apply Permutation_refl. }
  1: { apply bind_Ok in H. destruct H as (u & Hu & H). inv H. reflexivity. }
  1: { apply bind_Ok in H. destruct H as (u & Hu & H). inv H. destruct n; apply Permutation_refl. }
  - intros cs s neg IH t s0 q s' H. cbn [build_wc wc_ids] in *. apply bind_Ok in H. destruct H as (u & Hu & H).
    apply bind_Ok in H. destruct H as ([q0 s1] & Hq & H). inv H. apply IH in Hq. destruct Hq as (ts & A & B).
    exists ts. split; [exact A|]. destruct neg; exact B.
  - intros l HP t s q s' H. rewrite build_wc_and in H. cbn [wc_ids]. destruct l as [|c l]; [inv H; exists []; split; [reflexivity|apply Permutation_refl]|].
    apply bind_Ok in H. destruct H as ([qs s1] & Hq & H). inv H. apply (wcs_calls HP) in Hq. exact Hq.
  - intros l HP t s q s' H. rewrite build_wc_or in H. cbn [wc_ids]. destruct l as [|c l]; [inv H; exists []; split; [reflexivity|apply Permutation_refl]|].
    apply bind_Ok in H. destruct H as ([qs s1] & Hq & H). inv H. apply (wcs_calls HP) in Hq. exact Hq.
  - intros cs f w lim js o Hw s q s' H. cbn [build_sel sel_ids] in *.
    apply bind_Ok in H. destruct H as ([t s1] & Ht & H). apply bind_Ok in H. destruct H as (u & Hu & H).
    apply bind_Ok in H. destruct H as ([[[f1 gb] ws] s2] & Hj & H). apply bind_Ok in H. destruct H as ([ws' s3] & Hws & H). inv H.
    apply join_part_calls in Hj. destruct Hj as (ts & Hts & HP). cbn [call_all]. rewrite Ht. cbn [bind].
    destruct w as [w|]; cbn [opt_P] in Hw.
    + apply bind_Ok in Hws. destruct Hws as ([qw s4] & Hqw & Hws). inv Hws. apply Hw in Hqw. destruct Hqw as (ts' & Hts' & HM).
      rewrite (call_all_app Hts Hts'). cbn [bind]. exists (t :: ts ++ ts'). split; [reflexivity|].
      unfold refs_match in *. cbn [query_refs]. rewrite concat_refs_app. cbn [map concat]. rewrite app_nil_r, app_assoc.
      rewrite HP, HM, map_app. reflexivity.
    + inv Hws. rewrite app_nil_r, Hts. cbn [bind]. exists (t :: ts). split; [reflexivity|exact HP].
  - intros x IH s q s' H. apply IH in H. exact H.
  - intros l HP s q s' H. rewrite build_union in H. apply bind_Ok in H. destruct H as ([qs s1] & Hq & H). inv H.
    apply (sels_calls HP) in Hq. exact Hq.
Qed.

Theorem build_query_calls q s b s' : build_query context q s = Ok (b, s') ->
  exists ts, call_all (query_ids q) s = Ok (ts, s') /\ refs_match (query_refs b) ts.
Proof.
  unfold build_query, query_ids. destruct (q_sql q) as [sql|].
  - intros H. inv H. exists []. split; [reflexivity|apply Permutation_refl].
  - destruct (q_stmt q) as [st|]; [apply build_calls|discriminate].
Qed.
End Calls.

(** * When building succeeds *)
Section Fit.
Context {S : Type}.
Variable context : ident -> S -> res build_exn (tobj * S).
Variable cols : ident -> option (list string).
Hypothesis Hsound : forall id s t s', context id s = Ok (t, s') -> cols id = Some (t_cols t).

Lemma has_cols_total t cs : incl cs (t_cols t) -> has_cols t cs = Ok tt.
Proof.
  induction cs as [|c cs IH]; intros Hi; [reflexivity|]. cbn [has_cols]. unfold has_col.
  rewrite (proj2 (memb_true _ _)); [|apply Hi; left; reflexivity]. cbn [bind]. apply IH. intros x Hx. apply Hi. right. exact Hx.
Qed.
Lemma join_on_ok t rt j on : join_wf j -> join_on t rt j = Ok on -> incl (j_left_cols j) (t_cols t) /\ incl (j_right_cols j) (t_cols rt).
Proof.
  intros [_ Hlen] H. unfold join_on in H. apply bind_Ok in H. destruct H as (u & Hu & H). apply bind_Ok in H. destruct H as (v & Hv & H).
  apply has_cols_ok in Hu. apply has_cols_ok in Hv.
  assert (Hc : forall (a b : list string), length a = length b -> map fst (combine a b) = a /\ map snd (combine a b) = b).
  { clear. induction a as [|x a IH]; intros [|y b] Hl; try discriminate; [auto|]. cbn. destruct (IH b) as [E1 E2]; [cbn in Hl; congruence|].
    rewrite E1, E2. auto. }
  destruct (Hc _ _ Hlen) as [E1 E2]. rewrite E1 in Hu. rewrite E2 in Hv. auto.
Qed.
Lemma join_on_total t rt j : incl (j_left_cols j) (t_cols t) -> incl (j_right_cols j) (t_cols rt) -> exists on, join_on t rt j = Ok on.
Proof.
  intros Hl Hr. unfold join_on.
  assert (H1 : incl (map fst (combine (j_left_cols j) (j_right_cols j))) (t_cols t)).
  { intros x Hx. apply in_map_iff in Hx. destruct Hx as ([a b] & <- & Hx). apply Hl. exact (in_combine_l _ _ _ _ Hx). }
  assert (H2 : incl (map snd (combine (j_left_cols j) (j_right_cols j))) (t_cols rt)).
  { intros x Hx. apply in_map_iff in Hx. destruct Hx as ([a b] & <- & Hx). apply Hr. exact (in_combine_r _ _ _ _ Hx). }
  rewrite (has_cols_total H1), (has_cols_total H2). cbn. eauto.
Qed.

Lemma joins_fit t outer js n from cs exs s r s' : Forall join_wf js ->
  build_joins context t outer js n from cs exs s = Ok (r, s') -> Forall (join_fits cols (t_cols t)) js.
Proof.
  revert n from cs exs s. induction js as [|j js IH]; intros n from cs exs s Hwf Hb; [constructor|]. cbn [build_joins] in Hb.
  apply Forall_cons_iff in Hwf. destruct Hwf as [Hwf1 Hwf2].
  apply bind_Ok in Hb. destruct Hb as ([rt s0] & Hc & Hb). apply bind_Ok in Hb. destruct Hb as (on & Hon & Hb).
  constructor.
  - destruct (join_on_ok Hwf1 Hon) as [A B]. split; [exact A|]. exists (t_cols rt). split; [exact (Hsound Hc)|exact B].
  - destruct (j_half_unique j && negb (is_nil (t_pk t))).
    + apply bind_Ok in Hb. destruct Hb as (u & Hu & Hb). exact (IH _ _ _ _ _ Hwf2 Hb).
    + exact (IH _ _ _ _ _ Hwf2 Hb).
Qed.
Lemma joins_total t outer js n from cs exs s ts s' :
  Forall (join_fits cols (t_cols t)) js -> call_all context (map j_right js) s = Ok (ts, s') ->
  exists r, build_joins context t outer js n from cs exs s = Ok (r, s').
Proof.
  revert n from cs exs s ts. induction js as [|j js IH]; intros n from cs exs s ts Hf Hc; cbn [map call_all build_joins] in *.
  - inv Hc. eauto.
  - apply Forall_cons_iff in Hf. destruct Hf as [[Hl (rc & Hrc & Hr)] Hf2].
    apply bind_Ok in Hc. destruct Hc as ([rt s0] & Hrt & Hc). apply bind_Ok in Hc. destruct Hc as ([ts' s1] & Hts & Hc). inv Hc.
    rewrite Hrt. cbn [bind]. pose proof (Hsound Hrt) as E. rewrite Hrc in E. inv E.
    destruct (join_on_total Hl Hr) as (on & Eon). rewrite Eon. cbn [bind].
    destruct (j_half_unique j && negb (is_nil (t_pk t))).
    + rewrite (has_cols_total Hr). cbn [bind]. eapply IH; eassumption.
    + eapply IH; eassumption.
Qed.

Lemma join_part_fit t js outer s r s' : joins_wf js -> build_join_part context t js outer s = Ok (r, s') ->
  match js with Some l => Forall (join_fits cols (t_cols t)) l | None => True end.
Proof.
  unfold build_join_part. destruct js as [[|j js]|]; intros Hwf Hb; [constructor| |exact I].
  apply bind_Ok in Hb. destruct Hb as ([fce s1] & Hj & Hb). eapply joins_fit; eassumption.
Qed.
Lemma join_part_total t js outer s ts s' :
  match js with Some l => Forall (join_fits cols (t_cols t)) l | None => True end ->
  call_all context (joins_ids js) s = Ok (ts, s') -> exists r, build_join_part context t js outer s = Ok (r, s').
Proof.
  unfold build_join_part. destruct js as [[|j js]|]; intros Hf Hc; [inv Hc; eauto| |inv Hc; eauto].
  destruct (joins_total outer 0 (FTable t) [] [] Hf Hc) as ([[f c] x] & E). rewrite E. cbn [bind]. eauto.
Qed.

Definition wc_fit (c : wc) : Prop := wc_wf c -> forall t s q s', build_wc context t c s = Ok (q, s') -> wc_fits cols (t_cols t) c.
Definition sel_fit (x : sel) : Prop := sel_wf x -> forall s q s', build_sel context x s = Ok (q, s') -> sel_fits cols x.
Definition stmt_fit (st : stmt) : Prop := stmt_wf st -> forall s q s', build_stmt context st s = Ok (q, s') -> stmt_fits cols st.

Lemma fold_and_Forall {A} (P : A -> Prop) l : fold_right and True (map P l) <-> Forall P l.
Proof.
  induction l as [|a l IH]; cbn [map fold_right]; [split; [constructor|trivial]|]. rewrite IH.
  split; [intros [H1 H2]; constructor; assumption|intros H; apply Forall_cons_iff in H; exact H].
Qed.

Lemma wcs_fit l : Forall wc_fit l -> Forall wc_wf l -> forall t s qs s', build_wcs context t l s = Ok (qs, s') ->
  Forall (wc_fits cols (t_cols t)) l.
Proof.
  induction l as [|c l IH]; intros HP Hwf t s qs s' Hb; cbn [build_wcs] in Hb; [constructor|].
  apply Forall_cons_iff in HP. destruct HP as [HP1 HP2]. apply Forall_cons_iff in Hwf. destruct Hwf as [Hwf1 Hwf2].
  apply bind_Ok in Hb. destruct Hb as ([q s1] & Hq & Hb). apply bind_Ok in Hb. destruct Hb as ([qs1 s2] & Hqs & Hb). inv Hb.
  constructor; [exact (HP1 Hwf1 _ _ _ _ Hq)|exact (IH HP2 Hwf2 _ _ _ _ Hqs)].
Qed.
Lemma sels_fit l : Forall sel_fit l -> Forall sel_wf l -> forall s qs s', build_sels context l s = Ok (qs, s') ->
  Forall (sel_fits cols) l.
Proof.
  induction l as [|c l IH]; intros HP Hwf s qs s' Hb; cbn [build_sels] in Hb; [constructor|].
  apply Forall_cons_iff in HP. destruct HP as [HP1 HP2]. apply Forall_cons_iff in Hwf. destruct Hwf as [Hwf1 Hwf2].
  apply bind_Ok in Hb. destruct Hb as ([q s1] & Hq & Hb). apply bind_Ok in Hb. destruct Hb as ([qs1 s2] & Hqs & Hb). inv Hb.
  constructor; [exact (HP1 Hwf1 _ _ _ Hq)|exact (IH HP2 Hwf2 _ _ _ Hqs)].
Qed.

Theorem build_fit st : stmt_fit st.
Proof.
  apply (@stmt_i wc_fit sel_fit stmt_fit).
  1,2,8,9: unfold wc_fit; cbn; auto.
  - intros op c v _ t s q s' H. cbn [build_wc wc_fits] in *. apply bind_Ok in H. destruct H as (u & Hu & H).
    unfold has_col in Hu. destruct (memb c (t_cols t)) eqn:E; [|discriminate]. apply (proj1 (memb_true _ _)). exact E.
  - intros cs vs neg _ t s q s' H. cbn [build_wc wc_fits] in *. apply bind_Ok in H. destruct H as (u & Hu & H). exact (has_cols_ok Hu).
  - intros cs st' neg IH Hwf t s q s' H. cbn [build_wc wc_fits] in *. apply bind_Ok in H. destruct H as (u & Hu & H).
    apply bind_Ok in H. destruct H as ([q0 s1] & Hq & H). split; [exact (has_cols_ok Hu)|exact (IH Hwf _ _ _ Hq)].
  - intros l HP Hwf t s q s' H. rewrite build_wc_and in H. cbn [wc_fits wc_wf] in *. apply fold_and_Forall. apply fold_and_Forall in Hwf.
    destruct l as [|c l]; [constructor|]. apply bind_Ok in H. destruct H as ([qs s1] & Hq & H). exact (wcs_fit HP Hwf Hq).
  - intros l HP Hwf t s q s' H. rewrite build_wc_or in H. cbn [wc_fits wc_wf] in *. apply fold_and_Forall. apply fold_and_Forall in Hwf.
    destruct l as [|c l]; [constructor|]. apply bind_Ok in H. destruct H as ([qs s1] & Hq & H). exact (wcs_fit HP Hwf Hq).
  - intros cs f w lim js o Hw Hwf s q s' H. cbn [build_sel sel_fits sel_wf] in *.
    apply bind_Ok in H. destruct H as ([t s1] & Ht & H). apply bind_Ok in H. destruct H as (u & Hu & H).
    apply bind_Ok in H. destruct H as ([[[f1 gb] ws] s2] & Hj & H). apply bind_Ok in H. destruct H as ([ws' s3] & Hws & H).
    exists (t_cols t). split; [exact (Hsound Ht)|]. split; [destruct cs; [exact (has_cols_ok Hu)|exact I]|].
    assert (Hjs : joins_wf js) by (destruct w; [exact (proj1 Hwf)|exact Hwf]).
    split; [exact (join_part_fit Hjs Hj)|]. destruct w as [w|]; [|exact I].
    apply bind_Ok in Hws. destruct Hws as ([qw s4] & Hqw & Hws). exact (Hw (proj2 Hwf) _ _ _ _ Hqw).
  - intros x IH Hwf s q s' H. exact (IH Hwf _ _ _ H).
  - intros l HP Hwf s q s' H. rewrite build_union in H. cbn [stmt_fits stmt_wf] in *. apply fold_and_Forall. apply fold_and_Forall in Hwf.
    apply bind_Ok in H. destruct H as ([qs s1] & Hq & H). exact (sels_fit HP Hwf Hq).
Qed.

Definition wc_tot (c : wc) : Prop := forall t s ts s', wc_fits cols (t_cols t) c -> call_all context (wc_ids c) s = Ok (ts, s') ->
  exists q, build_wc context t c s = Ok (q, s').
Definition sel_tot (x : sel) : Prop := forall s ts s', sel_fits cols x -> call_all context (sel_ids x) s = Ok (ts, s') ->
  exists q, build_sel context x s = Ok (q, s').
Definition stmt_tot (st : stmt) : Prop := forall s ts s', stmt_fits cols st -> call_all context (stmt_ids st) s = Ok (ts, s') ->
  exists q, build_stmt context st s = Ok (q, s').

Lemma wcs_tot l : Forall wc_tot l -> forall t s ts s', Forall (wc_fits cols (t_cols t)) l ->
  call_all context (concat (map wc_ids l)) s = Ok (ts, s') -> exists qs, build_wcs context t l s = Ok (qs, s').
Proof.
  induction l as [|c l IH]; intros HP t s ts s' Hf Hc; cbn [build_wcs map concat] in *; [inv Hc; eauto|].
  apply Forall_cons_iff in HP. destruct HP as [HP1 HP2]. apply Forall_cons_iff in Hf. destruct Hf as [Hf1 Hf2].
  apply call_all_app_inv in Hc. destruct Hc as (t1 & t2 & s1 & H1 & H2 & ->).
  destruct (HP1 _ _ _ _ Hf1 H1) as (q & E). rewrite E. cbn [bind]. destruct (IH HP2 _ _ _ _ Hf2 H2) as (qs & Eq). rewrite Eq. cbn [bind]. eauto.
Qed.
Lemma sels_tot l : Forall sel_tot l -> forall s ts s', Forall (sel_fits cols) l ->
  call_all context (concat (map sel_ids l)) s = Ok (ts, s') -> exists qs, build_sels context l s = Ok (qs, s').
Proof.
  induction l as [|c l IH]; intros HP s ts s' Hf Hc; cbn [build_sels map concat] in *; [inv Hc; eauto|].
  apply Forall_cons_iff in HP. destruct HP as [HP1 HP2]. apply Forall_cons_iff in Hf. destruct Hf as [Hf1 Hf2].
  apply call_all_app_inv in Hc. destruct Hc as (t1 & t2 & s1 & H1 & H2 & ->).
  destruct (HP1 _ _ _ Hf1 H1) as (q & E). rewrite E. cbn [bind]. destruct (IH HP2 _ _ _ Hf2 H2) as (qs & Eq). rewrite Eq. cbn [bind]. eauto.
Qed.

Theorem build_total st : stmt_tot st.
Proof.
  apply (@stmt_i wc_tot sel_tot stmt_tot).
  1,2,8,9: unfold wc_tot; cbn; intros t; intros; try (inv H0); eauto.
  - intros op c v t s ts s' Hf H. cbn [build_wc wc_fits wc_ids call_all] in *. inv H. unfold has_col. rewrite (proj2 (memb_true _ _) Hf). cbn. eauto.
  - intros cs vs neg t s ts s' Hf H. cbn [build_wc wc_fits wc_ids call_all] in *. inv H. rewrite (has_cols_total Hf). cbn. eauto.
  - intros cs st' neg IH t s ts s' [Hf1 Hf2] H. cbn [build_wc wc_ids] in *. rewrite (has_cols_total Hf1). cbn [bind].
    destruct (IH _ _ _ Hf2 H) as (q & E). exists (if neg then QNot (QIn cs q) else QIn cs q).
    change (bind (build_stmt context st' s) (fun qs => let (q, s) := qs in Ok (if neg then QNot (QIn cs q) else QIn cs q, s)) =
            Ok (if neg then QNot (QIn cs q) else QIn cs q, s')). rewrite E. reflexivity.
  - intros l HP t s ts s' Hf H. rewrite build_wc_and. cbn [wc_fits wc_ids] in *. apply fold_and_Forall in Hf.
    destruct l as [|c l]; [inv H; eauto|]. destruct (wcs_tot HP Hf H) as (qs & E). rewrite E. cbn [bind]. eauto.
  - intros l HP t s ts s' Hf H. rewrite build_wc_or. cbn [wc_fits wc_ids] in *. apply fold_and_Forall in Hf.
    destruct l as [|c l]; [inv H; eauto|]. destruct (wcs_tot HP Hf H) as (qs & E). rewrite E. cbn [bind]. eauto.
  - intros cs f w lim js o Hw s ts s' (tc & Htc & Hcs & Hjs & Hwf) H. cbn [build_sel sel_ids call_all] in *.
    apply bind_Ok in H. destruct H as ([t s1] & Ht & H). apply bind_Ok in H. destruct H as ([ts1 s2] & Hc & H). inv H.
    pose proof (Hsound Ht) as E. rewrite Htc in E. inv E. rewrite Ht. cbn [bind].
    assert (Ec : (match cs with Some cs => has_cols t cs | None => Ok tt end) = Ok tt)
      by (destruct cs; [exact (has_cols_total Hcs)|reflexivity]).
    rewrite Ec. cbn [bind]. apply call_all_app_inv in Hc. destruct Hc as (t1 & t2 & s3 & H1 & H2 & ->).
    destruct (join_part_total o Hjs H1) as ([[f1 gb] ws] & E). rewrite E. cbn [bind].
    destruct w as [w|].
    + destruct (Hw _ _ _ _ Hwf H2) as (q & Eq). exists (QSelect cs f1 gb (ws ++ [q]) lim).
      change (bind (bind (build_wc context t w s3) (fun qs => let (q, s) := qs in Ok (ws ++ [q], s)))
                (fun x => let (ws, s) := x in Ok (QSelect cs f1 gb ws lim, s)) = Ok (QSelect cs f1 gb (ws ++ [q]) lim, s')).
      rewrite Eq. reflexivity.
    + inv H2. cbn [bind]. eauto.
  - intros x IH s ts s' Hf H. exact (IH _ _ _ Hf H).
  - intros l HP s ts s' Hf H. rewrite build_union. cbn [stmt_fits stmt_ids] in *. apply fold_and_Forall in Hf.
    destruct (sels_tot HP Hf H) as (qs & E). rewrite E. cbn [bind]. eauto.
Qed.

Theorem build_query_total q s ts s' : query_fits cols q -> call_all context (query_ids q) s = Ok (ts, s') ->
  exists b, build_query context q s = Ok (b, s').
Proof.
  unfold query_fits, build_query, query_ids. destruct (q_sql q).
  - intros _ H. inv H. eauto.
  - intros (st & -> & _ & Hf) H. exact (build_total Hf H).
Qed.
End Fit.
