(** Two runs that differ in the statements the destination refuses go the same way until one of these statements. *)
From Coq Require Import Lia.
From Verif Require Import Model.Base Model.Value Model.Names Model.PlanModel Model.Metadata Model.Filters Model.Multiply Model.Materialize Model.Dest Model.Output Model.Sampler.
From Verif Require Import Spec.OutputSpec Spec.RerunSpec.
From Verif Require Import Proofs.BaseFacts Proofs.OutputRows Proofs.OutputMain.
Set Implicit Arguments. Unset Strict Implicit.
Open Scope list_scope.

Section Lock.
Variable dflt : tname -> string -> list row -> row -> value.
Variables accepts1 accepts2 : dest -> event -> bool.
Notation replay := (replay dflt).

(** Both destinations accept every statement. *)
Definition both (d : dest) (tr : list event) : Prop :=
  forall tr1 e tr2 d', tr = tr1 ++ e :: tr2 -> replay d tr1 d' -> accepts1 d' e = true /\ accepts2 d' e = true.
(** The run that did [tr] and ended in [d] was refused [e]; the other one did [tr'], and was not. *)
Definition stopped {X A} (a a' : dest -> event -> bool) (d : dest) (r : res X A) (tr tr' : list event) : Prop :=
  exists e, (exists x, r = Err x) /\ a d e = false /\ a' d e = true /\ exists more, tr' = tr ++ e :: more.
Definition lock {X A} (m1 m2 : io X A) : Prop :=
  forall w w1 r1 w2 r2, m1 w = (w1, r1) -> m2 w = (w2, r2) -> exists tr1 tr2,
    trace w1 = trace w ++ tr1 /\ replay (w_dest w) tr1 (w_dest w1) /\ trace w2 = trace w ++ tr2 /\ replay (w_dest w) tr2 (w_dest w2) /\
    ((w1 = w2 /\ r1 = r2 /\ both (w_dest w) tr1) \/ stopped accepts1 accepts2 (w_dest w1) r1 tr1 tr2 \/ stopped accepts2 accepts1 (w_dest w2) r2 tr2 tr1).

Lemma both_nil d : both d [].
Proof. intros tr1 e tr2 d' F _. destruct tr1; discriminate. Qed.
Lemma both_app d tr tr' d' : both d tr -> replay d tr d' -> both d' tr' -> both d (tr ++ tr').
Proof.
  intros H1 Hr H2 a e b d2 Heq Hrep. apply app_eq_app in Heq. destruct Heq as (l & [[-> E2]|[-> E2]]).
  - destruct l as [|x l].
    + rewrite app_nil_r in Hr. cbn in E2. rewrite (replay_fun Hrep Hr). exact (H2 [] e b d' (eq_sym E2) (replay_nil _ _)).
    + injection E2 as <- ->. exact (H1 a e l d2 eq_refl Hrep).
  - apply replay_inv_app in Hrep. destruct Hrep as (d3 & Ha & Hb). rewrite (replay_fun Ha Hr) in Hb. exact (H2 l e b d2 E2 Hb).
Qed.

Lemma lock_end {X A} w (r : res X A) : exists tr1 tr2,
    trace w = trace w ++ tr1 /\ replay (w_dest w) tr1 (w_dest w) /\ trace w = trace w ++ tr2 /\ replay (w_dest w) tr2 (w_dest w) /\
    ((w = w /\ r = r /\ both (w_dest w) tr1) \/ stopped accepts1 accepts2 (w_dest w) r tr1 tr2 \/ stopped accepts2 accepts1 (w_dest w) r tr2 tr1).
Proof.
  exists [], []. rewrite app_nil_r. split; [reflexivity|]. split; [constructor|]. split; [reflexivity|]. split; [constructor|]. left. split; [reflexivity|]. split; [reflexivity|apply both_nil].
Qed.
Lemma lock_still {X A} (m : io X A) : (forall w, fst (m w) = w) -> lock m m.
Proof.
  intros Hm w w1 r1 w2 r2 H1 H2. rewrite H1 in H2. injection H2 as <- <-. assert (w1 = w) by (rewrite <- (Hm w), H1; reflexivity). subst w1. apply lock_end.
Qed.
Lemma lock_ret {X A} (a : A) : lock (X := X) (ret a) (ret a).
Proof. now apply lock_still. Qed.
Lemma lock_lift {X A} (x : res X A) : lock (lift x) (lift x).
Proof. now apply lock_still. Qed.
Lemma lock_reading {X A} (f : dest -> res X A) : lock (reading f) (reading f).
Proof. now apply lock_still. Qed.
Lemma lock_send {X} (err : X) e : lock (send dflt accepts1 err e) (send dflt accepts2 err e).
Proof.
  intros w w1 r1 w2 r2 H1 H2. unfold send in *.
  destruct (exec dflt (w_dest w) e) as [d|] eqn:Ex.
  - assert (Hone : replay (w_dest w) [e] d) by (econstructor; [exact Ex|constructor]).
    destruct (accepts1 (w_dest w) e) eqn:Ea1, (accepts2 (w_dest w) e) eqn:Ea2; injection H1 as <- <-; injection H2 as <- <-; cbn [w_dest trace].
    + exists [e], [e]. split; [reflexivity|]. split; [exact Hone|]. split; [reflexivity|]. split; [exact Hone|]. left. split; [reflexivity|]. split; [reflexivity|]. intros [|x a] e' b d' Eq Hr.
      * injection Eq as <- _. inversion Hr; subst. split; assumption.
      * destruct a; discriminate.
    + exists [e], []. rewrite app_nil_r. split; [reflexivity|]. split; [exact Hone|]. split; [reflexivity|]. split; [constructor|]. right. right. exists e. split; [eauto|]. split; [exact Ea2|]. split; [exact Ea1|]. exists []. reflexivity.
    + exists [], [e]. rewrite app_nil_r. split; [reflexivity|]. split; [constructor|]. split; [reflexivity|]. split; [exact Hone|]. right. left. exists e. split; [eauto|]. split; [exact Ea1|]. split; [exact Ea2|]. exists []. reflexivity.
    + apply lock_end.
  - assert (Hw : w1 = w /\ r1 = Err err) by (destruct (accepts1 _ _); injection H1 as <- <-; auto). assert (Hw2 : w2 = w /\ r2 = Err err) by (destruct (accepts2 _ _); injection H2 as <- <-; auto).
    destruct Hw as [-> ->], Hw2 as [-> ->]. apply lock_end.
Qed.
Lemma lock_bind {X A B} (m1 m2 : io X A) (k1 k2 : A -> io X B) : lock m1 m2 -> (forall a, lock (k1 a) (k2 a)) -> lock (bind_io m1 k1) (bind_io m2 k2).
Proof.
  intros Hm Hk w w1 r1 w2 r2 H1 H2. unfold bind_io in *. destruct (m1 w) as [wa ra] eqn:Ea. destruct (m2 w) as [wb rb] eqn:Eb.
  destruct (Hm _ _ _ _ _ Ea Eb) as (ta & tb & Ta & Ra & Tb & Rb & Hcase).
  assert (Hx1 : exists t1, trace w1 = trace wa ++ t1 /\ replay (w_dest wa) t1 (w_dest w1) /\ ((exists x, ra = Err x) -> t1 = [] /\ w1 = wa /\ exists x, r1 = Err x)).
  { destruct ra as [a|x].
    - destruct (k2 a wa) as [w3 r3] eqn:E3. destruct (Hk a _ _ _ _ _ H1 E3) as (t1 & _ & T1 & R1 & _). exists t1. split; [exact T1|]. split; [exact R1|]. intros (x & F). discriminate.
    - injection H1 as <- <-. exists []. rewrite app_nil_r. repeat split; [constructor|eauto]. }
  assert (Hx2 : exists t2, trace w2 = trace wb ++ t2 /\ replay (w_dest wb) t2 (w_dest w2) /\ ((exists x, rb = Err x) -> t2 = [] /\ w2 = wb /\ exists x, r2 = Err x)).
  { destruct rb as [a|x].
    - destruct (k1 a wb) as [w3 r3] eqn:E3. destruct (Hk a _ _ _ _ _ E3 H2) as (_ & t2 & _ & _ & T2 & R2 & _). exists t2. split; [exact T2|]. split; [exact R2|]. intros (x & F). discriminate.
    - injection H2 as <- <-. exists []. rewrite app_nil_r. repeat split; [constructor|eauto]. }
  destruct Hcase as [(Ew & Er & Hb)|Hcase].
  - subst wb rb. destruct ra as [a|x].
    + destruct (Hk a _ _ _ _ _ H1 H2) as (t1 & t2 & T1 & R1 & T2 & R2 & Hcase). exists (ta ++ t1), (ta ++ t2). rewrite T1, T2, Ta, !app_assoc. split; [reflexivity|].
      split; [exact (replay_app Ra R1)|]. split; [reflexivity|]. split; [exact (replay_app Ra R2)|].
      destruct Hcase as [(Ew & Er & Hb2)|Hcase]; [left; split; [exact Ew|]; split; [exact Er|]; exact (both_app Hb Ra Hb2)|].
      right. destruct Hcase as [(e & A1 & A2 & A3 & A4)|(e & A1 & A2 & A3 & A4)]; [left|right]; exists e; (split; [exact A1|]); (split; [exact A2|]); (split; [exact A3|]);
        (destruct A4 as (more & ->); exists more; rewrite app_assoc; reflexivity).
    + injection H1 as <- <-. injection H2 as <- <-. exists ta, ta. split; [exact Ta|]. split; [exact Ra|]. split; [exact Ta|]. split; [exact Ra|]. left. split; [reflexivity|]. split; [reflexivity|exact Hb].
  - destruct Hx1 as (t1 & T1 & R1 & X1). destruct Hx2 as (t2 & T2 & R2 & X2). exists (ta ++ t1), (tb ++ t2). rewrite T1, T2, Ta, Tb, !app_assoc. split; [reflexivity|].
    split; [exact (replay_app Ra R1)|]. split; [reflexivity|]. split; [exact (replay_app Rb R2)|]. right.
    destruct Hcase as [(e & A1 & A2 & A3 & A4)|(e & A1 & A2 & A3 & A4)]; [left|right]; exists e.
    + destruct (X1 A1) as (-> & -> & A1'). split; [exact A1'|]. split; [exact A2|]. split; [exact A3|]. rewrite app_nil_r.
      destruct A4 as (more & ->). exists (more ++ t2). rewrite <- app_assoc. reflexivity.
    + destruct (X2 A1) as (-> & -> & A1'). split; [exact A1'|]. split; [exact A2|]. split; [exact A3|]. rewrite app_nil_r.
      destruct A4 as (more & ->). exists (more ++ t1). rewrite <- app_assoc. reflexivity.
Qed.
Lemma lock_for {X S A} (f1 f2 : S -> A -> io X S) : (forall s a, lock (f1 s a) (f2 s a)) -> forall l s, lock (for_io f1 l s) (for_io f2 l s).
Proof. intros Hf. induction l as [|a l IH]; intros s; cbn [for_io]; [apply lock_ret|]. apply lock_bind; auto. Qed.
End Lock.

Section Run.
Context {G : Type}.
Variable E : env G.
Variable accepts : dest -> event -> bool.
Variables (cfg : sampler_config) (p : plan).
Notation E2 := (later E accepts (en_currval E)).
Notation lock := (lock (en_dflt E) (en_accepts E) accepts).

Lemma lock_output o ps n chain cols rows m mult g : lock (output_result_set E o ps n chain cols rows m mult g) (output_result_set E2 o ps n chain cols rows m mult g).
Proof.
  destruct o as [dir|c o]; cbn [output_result_set later en_filters en_dflt en_accepts en_resub en_computed en_autoinc en_currval en_buffer].
  - unfold directory_output. apply lock_bind; [apply lock_send|]. intros u. apply lock_for. intros s a. apply lock_bind; [apply lock_lift|].
    intros [out g']. apply lock_bind; [apply lock_send|]. intros v. apply lock_ret.
  - unfold database_output. assert (Hfl : forall cs t cs' b, lock (flush (en_dflt E) (en_accepts E) c cs t cs' b) (flush (en_dflt E) accepts c cs t cs' b)).
    { intros. unfold flush. apply lock_bind; [apply lock_lift|]. intros. apply lock_send. }
    apply lock_bind; [apply lock_lift|]. intros n'. apply lock_bind; [apply lock_lift|]. intros tm. destruct (negb _); [apply lock_lift|].
    apply lock_bind. { destruct (is_nil _); [apply lock_ret|]. apply lock_bind; [apply lock_lift|]. intros. apply lock_ret. }
    intros [chain' cols']. apply lock_bind.
    { apply lock_for. intros s a. unfold loop_body. apply lock_bind; [apply lock_lift|]. intros [out g']. apply lock_bind.
      { destruct (match needs_updating c with true => _ | false => _ end); [|apply lock_ret]. apply lock_bind; [apply lock_lift|]. intros. apply lock_lift. }
      intros mx. destruct (Nat.ltb _ _); [|apply lock_ret]. apply lock_bind; [apply Hfl|]. intros. apply lock_ret. }
    intros s. apply lock_bind. { destruct (is_nil _); [apply lock_ret|apply Hfl]. } intros u. apply lock_bind; [|intros; apply lock_ret].
    unfold autoincrement_update. destruct (needs_updating c); [|apply lock_ret]. destruct (en_autoinc E n') as [ac|]; [|apply lock_ret].
    destruct (lp_max s); try apply lock_ret; try apply lock_lift. destruct (en_currval E n') as [cv|]; [destruct (z <? cv)%Z; [apply lock_bind; [apply lock_reading|intros [sm|]; [apply lock_ret|apply lock_send]]|]|]; apply lock_send.
Qed.
Lemma lock_copy o ms compact st mults order g : lock (copy_results E cfg o p ms compact st mults order g) (copy_results E2 cfg o p ms compact st mults order g).
Proof.
  unfold copy_results. apply lock_for. intros s a. unfold copy_one. cbn [later en_filters en_source en_cmp en_text en_raw en_raw_cols en_rnd en_rank en_reopen].
  apply lock_bind; [apply lock_lift|]. intros [co|]; [|apply lock_ret]. apply lock_bind; [apply lock_lift|]. intros [chain cols]. apply lock_output.
Qed.
Theorem lock_sample truncate create g : lock (sample E cfg p truncate create g) (sample E2 cfg p truncate create g).
Proof.
  unfold sample. cbn [later en_filters en_fnm en_source_schema en_src_int en_ord_str en_src_autoinc en_source en_cmp en_text en_raw en_rnd en_rank en_reopen en_ord_name].
  apply lock_bind; [apply lock_lift|]. intros ms. apply lock_bind; [apply lock_lift|]. intros u. apply lock_bind; [apply lock_lift|].
  intros mults. apply lock_bind. { unfold open_output. destruct (sc_output cfg); [apply lock_ret|]. apply lock_bind; [apply lock_reading|]. intros. apply lock_ret. }
  intros o. apply lock_bind.
  { destruct create; [|apply lock_ret]. destruct o as [dir|c o]; cbn [create_tables]; [apply lock_ret|]. apply lock_bind; [|intros; apply lock_ret].
    unfold db_create. apply lock_bind; [apply lock_lift|]. intros [objs cr]. apply lock_bind; [apply lock_lift|]. intros ts. destruct (is_nil ts); [apply lock_ret|].
    apply lock_bind; [apply lock_send|]. intros. apply lock_ret. }
  intros o'. apply lock_bind; [apply lock_lift|]. intros order. apply lock_bind.
  { destruct truncate; [|apply lock_ret]. destruct o' as [dir|c o']; cbn [truncate_tables]; [apply lock_ret|]. unfold db_truncate. apply lock_bind; [apply lock_lift|].
    intros ord. apply lock_for. intros s a. apply lock_send. }
  intros u'. apply lock_bind.
  { destruct o' as [dir|c o']; cbn [prepare]; [apply lock_ret|]. apply lock_bind; [apply lock_reading|]. intros. apply lock_ret. }
  intros o2. apply lock_bind; [apply lock_lift|]. intros compact. apply lock_bind; [apply lock_lift|]. intros st. apply lock_copy.
Qed.
End Run.
