(** Foreign keys of the destination hold between any two statements of a run. *)
From Coq Require Import Lia.
From Verif Require Import Model.Base Model.Value Model.Names Model.PlanModel Model.Metadata Model.Planner Model.Filters Model.Multiply Model.Materialize Model.Dest Model.Output Model.Sampler.
From Verif Require Import Spec.GraphSpec Spec.SchemaSpec Spec.SqlSem Spec.PlannerSpec Spec.FilterSpec Spec.OutputSpec Spec.RunSpec Spec.RerunSpec Spec.SampleSpec Spec.WholeSpec Spec.CompactWholeSpec Spec.CopiesSpec Spec.MomentsSpec.
From Verif Require Import Proofs.BaseFacts Proofs.GraphFacts Proofs.NameFacts Proofs.MetadataFacts Proofs.OutputRows Proofs.OutputDb Proofs.OutputCreate
  Proofs.OutputCopy Proofs.OutputSample Proofs.OutputMain Proofs.OutputEvents Proofs.OutputMore Proofs.OutputRerun Proofs.WholeRun Proofs.WholeCopies Proofs.Lockstep.
From Verif Require Import Model.Dest.
Set Implicit Arguments. Unset Strict Implicit.
Open Scope list_scope.

#[local] Instance EqDec_table : EqDec table.
Proof. intros x y. assert (Hf := @eq_dec fkey _). assert (Hs := @eq_dec (list string) _). assert (Hu := @eq_dec (list (list string)) _). assert (Hn := @eq_dec tname _). assert (Hfs := @eq_dec (list fkey) _). decide equality. Qed.
#[local] Instance EqDec_dest : EqDec dest.
Proof.
  intros x y. assert (H1 := @eq_dec (list table) _). assert (H2 := @eq_dec (list (tname * list row)) _). assert (H3 := @eq_dec (list (tname * Z)) _). assert (H4 := @eq_dec (list (string * list row)) _).
  decide equality.
Qed.

Section Final.
Context {G : Type}.
Variables (E : env G) (cfg : sampler_config) (p : plan) (c : db_config) (w : world).
Notation queries := (dkeys (p_queries p)).
Notation to := (lands (en_resub E) (oc_remap c)).
Notation tgt := (target (en_resub E) (oc_remap c) queries).
Hypothesis Hok : run_ok E cfg c p (w_dest w).
Hypothesis Hnil : trace w = [].
Variables (truncate create : bool) (g : G) (w' : world) (rr : res out_exn G).
Hypothesis Hs : sample E cfg p truncate create g w = (w', rr).
Notation schema := (ds_tables (w_dest w')).
Notation affects := (affected (en_resub E) (oc_remap c) schema queries).

(** A table into which no rows go. *)
Lemma bystander n : began w' rr -> (forall tb, tgt n -> table_of schema n tb -> False) ->
  (rows_of (w_dest w') n = [] \/ rows_of (w_dest w') n = rows_of (w_dest w) n) /\
  (truncate = true -> affects n -> rows_of (w_dest w') n = []) /\ (truncate = false \/ ~ affects n -> rows_of (w_dest w') n = rows_of (w_dest w) n).
Proof.
  intros Hbeg Hno. destruct (run_trace Hok Hnil Hs) as (ts & dn & tw & d1 & d2 & o1 & Htr & Hi & Hdb & (Hd1 & _ & Hd1t & Hr1 & Hr2) & _ & _ & Hrest).
  assert (Hc : exists created, trace w' = (created ++ map EvDelete dn) ++ tw /\ (forall e, In e created -> exists ts, e = EvCreate ts)).
  { destruct Htr as [[Htr _]|Htr]; [exists []; split; [exact Htr|intros e []]|]. exists [EvCreate ts]. split; [exact Htr|]. intros e [<-|[]]. eauto. }
  destruct Hc as (created & Htc & Hc).
  assert (Hb : tw <> [] \/ exists g', rr = Ok g').
  { destruct Hbeg as [(e & He & Hne)|Hr]; [left|right; exact Hr]. intros ->. rewrite app_nil_r in Htc. rewrite Htc in He. apply Hne. apply in_app_or in He.
    destruct He as [He|He]; [destruct (Hc e He) as (x & ->); exact I|]. apply in_map_iff in He. destruct He as (x & <- & _). exact I. }
  assert (Hb2 : map EvDelete dn ++ tw <> [] \/ exists g', rr = Ok g').
  { destruct Hb as [Hb|Hb]; [left|right; exact Hb]. intros F. apply app_eq_nil in F. exact (Hb (proj2 F)). }
  destruct (Hrest Hb2) as (_ & del & l2 & Edel & Hdel & Hcopy). destruct (Hcopy Hb) as (-> & Hk & order & samples & ms & compact & st & mults & o2 & (Hno2 & Hin & _) & _ & _ & (_ & g1 & Htrs) & Hnd & Hprog & _).
  rewrite app_nil_r in Edel. subst del. rewrite <- Hdb in *.
  destruct (progress_written Hprog Hnd) as (_ & Hnone & _).
  assert (Hsame : rows_of (w_dest w') n = rows_of d2 n).
  { apply (replay_untouched Hr2 Hi). apply Hnone. intros F. destruct (transfers_names Htrs) as (ts1 & (ts2 & Ets) & _ & HF). apply in_map_iff in F. destruct F as ([n0 rows] & En & F). cbn in En. subst n0.
    destruct (Forall2_In_r HF F) as (t & Ht & Hl). cbn in Hl. assert (Hto : In t order) by (rewrite Ets; apply in_or_app; now left). apply Hin in Hto. destruct Hto as (Hq & n' & tb & Hto & Htb).
    rewrite (lands_fun Hto Hl) in Htb. exact (Hno tb (to_tgt Hq Hl) Htb). }
  rewrite Hsame. destruct (replay_deletes Hr1) as (A & B & _). assert (Hd : forall n, rows_of d1 n = rows_of (w_dest w) n) by (intros m; unfold rows_of; now rewrite Hd1).
  unfold deletes in Hdel. destruct truncate.
  - destruct Hdel as (_ & Hmem & _). split; [destruct (in_dec (@eq_dec _ _) n dn) as [Hn|Hn]; [left; exact (A n Hn)|right; rewrite (B n Hn); apply Hd]|].
    split; [intros _ Ha; apply A; apply Hmem; exact Ha|]. intros [F|Ha]; [discriminate|]. rewrite (B n); [apply Hd|]. intros F. apply Ha. apply Hmem. exact F.
  - subst dn. split; [right; rewrite B by (intros []); apply Hd|]. split; [discriminate|]. intros _. rewrite B by (intros []). apply Hd.
Qed.
End Final.

Lemma fk_same cmpf fk fk' l l' : fk_cols fk = fk_cols fk' -> fk_dst_cols fk = fk_dst_cols fk' -> fk_holds cmpf fk l l' -> fk_holds cmpf fk' l l'.
Proof. unfold fk_holds, refers. intros -> ->. exact (fun H => H). Qed.
Lemma fk_none cmpf fk l' : fk_holds cmpf fk [] l'.
Proof. intros r []. Qed.

Section Any.
Context {G : Type}.
Variables (E : env G) (cfg : sampler_config) (c : db_config) (p : plan).
Notation queries := (dkeys (p_queries p)).
Notation tgt := (target (en_resub E) (oc_remap c) queries).

Lemma target_dec n : {tgt n} + {~ tgt n}.
Proof.
  assert (H : {Exists (fun s => lands (en_resub E) (oc_remap c) s n) queries} + {~ Exists (fun s => lands (en_resub E) (oc_remap c) s n) queries}).
  { apply Exists_dec. intros s. destruct (parse_table_name s) as [m|] eqn:Hm.
    - destruct (remap_table (en_resub E) c m) as [m'|] eqn:Hr.
      + destruct (eq_dec m' n) as [->|Hne]; [left; exists m; split; [now apply parse_named|now apply remap_goes]|].
        right. intros (m2 & H1 & H2). apply parse_named in H1. apply remap_goes in H2. congruence.
      + right. intros (m2 & H1 & H2). apply parse_named in H1. apply remap_goes in H2. congruence.
    - right. intros (m2 & H1 & _). apply parse_named in H1. congruence. }
  destruct H as [H|H]; [left|right].
  - apply Exists_exists in H. destruct H as (s & Hs & m & H1 & H2). exists s, m. auto.
  - intros (s & m & H1 & H2 & H3). apply H. apply Exists_exists. exists s. split; [exact H1|]. exists m. auto.
Qed.

Theorem final_fk pcfg truncate create g w w' rr n' tb fk' : good_start E cfg c p pcfg w -> sample E cfg p truncate create g w = (w', rr) ->
  table_of (ds_tables (w_dest w')) n' tb -> In fk' (tb_fks tb) -> respected E cfg c p pcfg truncate w (ds_tables (w_dest w')) n' fk' ->
  fk_holds (en_cmp E) fk' (rows_of (w_dest w) n') (rows_of (w_dest w) (fk_dst fk')) ->
  fk_holds (en_cmp E) fk' (rows_of (w_dest w') n') (rows_of (w_dest w') (fk_dst fk')).
Proof.
  intros (A1 & A2 & A3 & A4 & A5 & A6 & A7 & A8) Hs Htb Hfk [Hcar Hby] Hold.
  assert (Href : references (ds_tables (w_dest w')) n' (fk_dst fk')) by (exists tb, fk'; auto).
  assert (Hx := sample_extends Hs). rewrite A4 in Hx. cbn in Hx. destruct Hx as (tr0 & Htr0 & Hrep). rewrite <- Htr0 in Hrep. clear tr0 Htr0.
  destruct (truncation A3 A4 Hs) as (created & del & after_ & d & Htr & Hcr & Haf & Hnd & Hnodel & Haff & Hall & Hbef & Hrd & Hde & Hke).
  destruct after_ as [|e0 after_].
  { rewrite app_nil_r in Htr. rewrite Htr in Hrep. rewrite (replay_fun Hrep Hrd).
    destruct (in_dec (@eq_dec tname _) n' del) as [Hn|Hn]; [rewrite (Hde n' Hn); apply fk_none|].
    destruct (in_dec (@eq_dec tname _) (fk_dst fk') del) as [Hd'|Hd']; [elim Hn; exact (before_In_l (Hbef _ _ Href Hd'))|].
    rewrite (Hke _ Hn), (Hke _ Hd'). exact Hold. }
  assert (Hbeg : began w' rr).
  { left. exists e0. split; [rewrite Htr; apply in_or_app; right; apply in_or_app; right; now left|]. destruct (Haf e0 (or_introl eq_refl)) as [H1 H2]. destruct e0 as [l|t| | | |]; cbn; try tauto; [elim (H1 l)|elim (H2 t)]; reflexivity. }
  destruct (target_dec n') as [Ht|Ht].
  - destruct (Hcar Ht) as (fk & t & td & n & tb1 & tbd & Hc & E1 & E2 & Hct & Hctd & Hrep' & Hfound & Hren & Hal). apply (fk_same E1 E2).
    refine (any_alike A1 A2 A3 A4 A5 A6 A7 A8 Hs Hbeg Hc (or_intror Href) Hct Hctd _ Hrep' Hfound Hren Hal).
    unfold starting. destruct truncate; [apply fk_none|]. exact (fk_same (eq_sym E1) (eq_sym E2) Hold).
  - destruct (bystander A3 A4 Hs Hbeg (n := n')) as (Hn1 & Hn2 & Hn3); [intros ? F; contradiction|].
    destruct truncate.
    + (* tables are emptied *)
      destruct Hn1 as [Hn1|Hn1]; [rewrite Hn1; apply fk_none|].
      destruct (in_dec (@eq_dec tname _) n' del) as [Hn|Hn]; [rewrite (Hn2 eq_refl (Haff _ Hn)); apply fk_none|].
      assert (Hna : ~ affected (en_resub E) (oc_remap c) (ds_tables (w_dest w')) queries n') by (intros F; apply Hn; apply (Hall eq_refl); [left; discriminate|exact F]).
      assert (Hnd' : ~ affected (en_resub E) (oc_remap c) (ds_tables (w_dest w')) queries (fk_dst fk')).
      { intros (x & T & X & P). apply Hna. exists x. split; [exact T|]. split; [exact X|]. eapply rt_trans; [exact P|]. apply rt_step. exact Href. }
      destruct (bystander A3 A4 Hs Hbeg (n := fk_dst fk')) as (_ & _ & Hd3); [intros tbd T X; apply Hnd'; exact (target_affected T X)|].
      rewrite Hn1, (Hd3 (or_intror Hnd')). exact Hold.
    + rewrite (Hn3 (or_introl eq_refl)). destruct (target_dec (fk_dst fk')) as [Td|Td].
      * destruct Td as (td & nd & Htd & Hnd2 & Hgd). assert (Htod : lands (en_resub E) (oc_remap c) td (fk_dst fk')) by (exists nd; auto).
        destruct (find_table (ds_tables (w_dest w')) (fk_dst fk')) as [tbd|] eqn:Ef.
        -- unfold find_table in Ef. apply find_some in Ef. destruct Ef as [X1 X2]. apply (proj1 (eqb_true _ _)) in X2. assert (Htbd : table_of (ds_tables (w_dest w')) (fk_dst fk') tbd) by (split; assumption).
           destruct (rows_stay A3 A4 Hs Hbeg Htd Htod Htbd (Hby Ht td tbd Htd Htod Htbd)) as [Hso _].
           intros row Hrow Hnn. destruct (Hold row Hrow Hnn) as (o & Ho' & Hrf). destruct (Hso o Ho') as (r' & Hr' & Hg). exists r'. split; [exact Hr'|].
           unfold refers in *. clear - Hrf Hg. induction Hrf as [|a b la lb (H1 & H2 & H3) _ IH]; constructor.
           ++ rewrite (Hg b (or_introl eq_refl)). auto.
           ++ apply IH. intros k Hk. apply Hg. now right.
        -- destruct (bystander A3 A4 Hs Hbeg (n := fk_dst fk')) as (_ & _ & Hd3); [intros tbd _ [X1 X2]; unfold find_table in Ef; assert (Z := find_none _ _ Ef _ X1); cbn in Z; rewrite X2, eqb_refl in Z; discriminate|].
           rewrite (Hd3 (or_introl eq_refl)). exact Hold.
      * destruct (bystander A3 A4 Hs Hbeg (n := fk_dst fk')) as (_ & _ & Hd3); [intros ? F; contradiction|]. rewrite (Hd3 (or_introl eq_refl)). exact Hold.
Qed.

End Any.

Section Between.
Context {G : Type}.
Variables (E : env G) (cfg : sampler_config) (c : db_config) (p : plan).
Notation queries := (dkeys (p_queries p)).

(** ** In between *)
Lemma later_ok accepts d : run_ok E cfg c p d -> run_ok (later E accepts (en_currval E)) cfg c p d.
Proof. intros [H1 H2 H3 H4 H5 H6]. constructor; [exact H1|exact H2|exact H3|exact H4|exact H5|exact H6]. Qed.
Lemma later_start pcfg w accepts : good_start E cfg c p pcfg w -> good_start (later E accepts (en_currval E)) cfg c p pcfg w.
Proof. intros (A1 & A2 & A3 & A). split; [exact A1|]. split; [exact A2|]. split; [exact (later_ok accepts A3)|exact A]. Qed.

(** The tables do not change any more once a statement has been executed. *)
Lemma moment_tables truncate create g w w' rr tr d : run_ok E cfg c p (w_dest w) -> trace w = [] -> sample E cfg p truncate create g w = (w', rr) ->
  initial_part tr (trace w') -> replay (en_dflt E) (w_dest w) tr d -> tr = [] \/ ds_tables d = ds_tables (w_dest w').
Proof.
  intros Hok Hnil Hs (rest & Hp) Hrep. destruct tr as [|e tr]; [now left|right].
  assert (Hx := sample_extends Hs). rewrite Hnil in Hx. cbn in Hx. destruct Hx as (tr0 & Htr0 & Hall). rewrite <- Htr0 in Hall. clear tr0 Htr0.
  destruct (run_trace Hok Hnil Hs) as (ts & dn & tw & _ & _ & _ & Htr & Hi & _). rewrite Hp in Hall. apply replay_inv_app in Hall. destruct Hall as (d1 & R1 & R2). rewrite (replay_fun Hrep R1).
  symmetry. apply (replay_tables R2). intros ts' F.
  assert (Hno : forall l, ~ In (EvCreate l) (map EvDelete dn ++ tw)).
  { intros l Hl. apply in_app_or in Hl. destruct Hl as [Hl|Hl]; [apply in_map_iff in Hl; destruct Hl as (x & Fx & _); discriminate|]. rewrite Forall_forall in Hi. exact (Hi _ Hl). }
  destruct Htr as [[Htr _]|Htr]; rewrite Hp in Htr.
  - apply (Hno ts'). rewrite <- Htr. apply in_or_app. now right.
  - injection Htr as _ Htr. apply (Hno ts'). rewrite <- Htr. apply in_or_app. now right.
Qed.

Theorem moment_fk pcfg truncate create g w w' rr n' tb fk' : good_start E cfg c p pcfg w -> sample E cfg p truncate create g w = (w', rr) ->
  table_of (ds_tables (w_dest w')) n' tb -> In fk' (tb_fks tb) -> respected E cfg c p pcfg truncate w (ds_tables (w_dest w')) n' fk' ->
  fk_holds (en_cmp E) fk' (rows_of (w_dest w) n') (rows_of (w_dest w) (fk_dst fk')) ->
  forall d, moment E w w' d -> fk_holds (en_cmp E) fk' (rows_of d n') (rows_of d (fk_dst fk')).
Proof.
  intros Hgood Hs Htb Hfk Hresp Hold d (tr & (rest & Hp) & Hrep).
  assert (Hx := sample_extends Hs). pose proof (proj1 (proj2 (proj2 (proj2 Hgood)))) as Hnil. rewrite Hnil in Hx. cbn in Hx. destruct Hx as (tr0 & Htr0 & Hall). rewrite <- Htr0 in Hall. clear tr0 Htr0.
  destruct rest as [|e rest].
  { rewrite app_nil_r in Hp. rewrite Hp in Hall. rewrite (replay_fun Hrep Hall). exact (final_fk Hgood Hs Htb Hfk Hresp Hold). }
  set (stop := fun d1 e1 => en_accepts E d1 e1 && negb (eqb d1 d)). set (E2 := later E stop (en_currval E)).
  destruct (sample E2 cfg p truncate create g w) as [w2 r2] eqn:Hs2.
  destruct (lock_sample Hs Hs2) as (t1 & t2 & T1 & R1 & T2 & R2 & Hcase). rewrite Hnil in T1, T2. cbn in T1, T2.
  assert (Hd : w_dest w2 = d /\ initial_part t2 t1).
  { destruct Hcase as [(_ & _ & Hb)|[(e1 & _ & F1 & F2 & _)|(e1 & _ & F1 & F2 & more & Hm)]].
    - exfalso. destruct (Hb tr e rest d) as [_ F]; [rewrite <- T1; exact Hp|exact Hrep|]. unfold stop in F. rewrite eqb_refl, andb_false_r in F. discriminate.
    - exfalso. unfold stop in F2. rewrite F1 in F2. discriminate.
    - split; [|exists (e1 :: more); exact Hm]. unfold stop in F1. rewrite F2 in F1. cbn in F1. destruct (eqb (w_dest w2) d) eqn:Eq; [now apply (proj1 (eqb_true _ _)) in Eq|discriminate]. }
  destruct Hd as [Hd Hi]. rewrite <- T1, <- T2 in *.
  destruct (moment_tables (proj1 (proj2 (proj2 Hgood))) Hnil Hs Hi R2) as [F|Htab].
  - rewrite F in R2. rewrite <- Hd, (replay_fun R2 (replay_nil _ _)). exact Hold.
  - rewrite <- Hd. change (en_cmp E) with (en_cmp E2). rewrite <- Htab in Htb, Hresp.
    exact (final_fk (E := E2) (later_start stop Hgood) Hs2 Htb Hfk Hresp Hold).
Qed.

End Between.

Section Enforced.
Context {G : Type}.
Variables (E : env G) (cfg : sampler_config) (c : db_config) (p : plan).

(** C105 *)
Theorem enforcing_same pcfg truncate create g w w' r : enforces_keys E -> good_start E cfg c p pcfg w ->
  sample (unchecked E) cfg p truncate create g w = (w', r) ->
  (forall n tb fk, table_of (ds_tables (w_dest w')) n tb -> In fk (tb_fks tb) ->
     respected E cfg c p pcfg truncate w (ds_tables (w_dest w')) n fk /\ fk_holds (en_cmp E) fk (rows_of (w_dest w) n) (rows_of (w_dest w) (fk_dst fk))) ->
  sample E cfg p truncate create g w = (w', r).
Proof.
  intros Henf Hgood Hs2 Hfks. pose proof (proj1 (proj2 (proj2 (proj2 Hgood)))) as Hnil. destruct (sample E cfg p truncate create g w) as [w1 r1] eqn:Hs.
  destruct (lock_sample Hs (accepts := fun _ _ => true) Hs2) as (t1 & t2 & T1 & R1 & T2 & R2 & Hcase). rewrite Hnil in T1, T2. cbn in T1, T2.
  destruct Hcase as [(-> & -> & _)|[(e & _ & F1 & _ & more & Hm)|(e & _ & F & _)]]; [reflexivity| |discriminate].
  exfalso. destruct (Henf _ _ F1) as (d' & Hx & Hno). apply Hno. intros n tb fk Htb Hfk.
  assert (Hi : initial_part (t1 ++ [e]) (trace w')) by (exists more; rewrite T2, Hm, <- app_assoc; reflexivity).
  assert (Hr : replay (en_dflt E) (w_dest w) (t1 ++ [e]) d') by (apply (replay_app R1); econstructor; [exact Hx|constructor]).
  destruct (moment_tables (E := unchecked E) (later_ok (fun _ _ => true) (proj1 (proj2 (proj2 Hgood)))) Hnil Hs2 Hi Hr) as [F|Htab]; [destruct t1; discriminate|].
  rewrite Htab in Htb. destruct (Hfks n tb fk Htb Hfk) as [Hresp Hold].
  refine (moment_fk (E := unchecked E) (later_start (fun _ _ => true) Hgood) Hs2 Htb Hfk Hresp Hold _). exists (t1 ++ [e]). split; assumption.
Qed.
End Enforced.
