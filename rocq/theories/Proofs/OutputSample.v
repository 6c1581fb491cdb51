(** Whole runs with a database output. *)
From Coq Require Import Lia.
From Verif Require Import Model.Base Model.Value Model.Names Model.PlanModel Model.Solver Model.PlanBuild Model.Metadata Model.Filters Model.Multiply Model.Materialize Model.Dest Model.Output Model.Sampler.
From Verif Require Import Spec.GraphSpec Spec.SchemaSpec Spec.OutputSpec Spec.RunSpec.
From Verif Require Import Proofs.BaseFacts Proofs.NameFacts Proofs.MetadataFacts Proofs.PlanRun Proofs.OutputRows Proofs.OutputRun Proofs.OutputDb Proofs.OutputCreate Proofs.OutputCopy.
Set Implicit Arguments. Unset Strict Implicit.
Open Scope list_scope.

Section Sample.
Context {G : Type}.
Variable E : env G.
Variable cfg : sampler_config.
Variable p : plan.
Notation queries := (dkeys (p_queries p)).
Notation smeta := (sampler_meta (en_fnm E) (en_source_schema E) (p_queries p) (sc_infer cfg)).
Notation multiplied ms := (get_multiplied_columns (sc_multiplicity cfg) ms (en_src_int E) (en_ord_str E) p).
Notation compacted ms := (get_compact_columns (sc_compact cfg) (p_passthrough p) ms (en_src_int E) (en_src_autoinc E)).
Notation materialized ms compact := (materialize_tables (en_source E) (en_cmp E) (en_text E) (en_raw E) (en_rnd E) (en_rank E) (en_reopen E)
                              ms compact (cp_start (sc_compact cfg)) (en_ord_name E) (p_queries p)).
Notation create_in := (db_create (en_dflt E) (en_accepts E)).
Notation truncate_in := (db_truncate (en_dflt E) (en_accepts E) (en_ord_str E)).

Lemma create_err o ms w w' e : create_in o ms w = (w', Err e) -> w' = w.
Proof.
  unfold db_create. intros H. apply bind_io_inv in H. destruct H as [(w1 & [a b] & H1 & H)|(e' & H1 & _)]; [|apply lift_inv in H1; apply H1].
  apply lift_inv in H1. destruct H1 as [-> _]. apply bind_io_inv in H. destruct H as [(w1 & ts & H1 & H)|(e' & H1 & _)]; [|apply lift_inv in H1; apply H1].
  apply lift_inv in H1. destruct H1 as [-> _]. destruct (is_nil ts); [inv H|]. apply bind_io_inv in H. destruct H as [(w1 & u & H1 & H)|(e' & H1 & _)]; [inv H|].
  apply send_inv in H1. destruct H1 as [(Hx & _)|(_ & ->)]; [discriminate|reflexivity].
Qed.

Lemma sample_db_inv c truncate create g w w' r : sc_output cfg = ToDatabase c ->
  sample E cfg p truncate create g w = (w', r) ->
  ((exists e, r = Err e) /\ w' = w) \/
  exists ms mults o w1 o1,
    smeta = Ok ms /\ validate_filters (fe_load_plugin (en_filters E)) (sc_filters cfg) ms = Ok tt /\ multiplied ms = Ok mults /\
    db_init (en_fnm E) (en_resub E) c (w_dest w) queries = Ok o /\
    (if create then create_in o ms w = (w1, Ok o1) else w1 = w /\ o1 = o) /\
    (((exists e, r = Err e) /\ w' = w1) \/
     exists order, db_insert_order (en_ord_str E) o1 = Ok order /\
      ((truncate = true /\ exists e, r = Err e /\ truncate_in o1 w1 = (w', Err e)) \/
       exists w2, (if truncate then truncate_in o1 w1 = (w2, Ok tt) else w2 = w1) /\
        (((exists e, r = Err e) /\ w' = w2) \/
         exists o2 compact st,
           db_prepare (en_resub E) (en_dst_int E) c (w_dest w2) o1 ms (p_passthrough p) queries = Ok o2 /\
           compacted ms = Ok compact /\ materialized ms compact = Ok st /\
           copy_results E cfg (OutDatabase c o2) p ms compact st mults order g w2 = (w', r)))).
Proof.
  intros Hout H. unfold sample in H.
  apply bind_io_inv in H. destruct H as [(w1 & ms & H1 & H)|(e & H1 & ->)]; [|left; apply lift_inv in H1; destruct H1 as [-> _]; eauto].
  apply lift_inv in H1. destruct H1 as [-> Hms]. unfold of_meta in Hms. destruct smeta as [ms'|] eqn:Esm; [|discriminate]. inv Hms.
  apply bind_io_inv in H. destruct H as [(w1 & u & H1 & H)|(e & H1 & ->)]; [|left; apply lift_inv in H1; destruct H1 as [-> _]; eauto].
  apply lift_inv in H1. destruct H1 as [-> Hval]. destruct u.
  apply bind_io_inv in H. destruct H as [(w1 & mults & H1 & H)|(e & H1 & ->)]; [|left; apply lift_inv in H1; destruct H1 as [-> _]; eauto].
  apply lift_inv in H1. destruct H1 as [-> Hmu]. unfold of_mult in Hmu. destruct (multiplied ms) as [mm|] eqn:Emu; [|discriminate]. inv Hmu.
  unfold open_output in H. rewrite Hout in H.
  apply bind_io_inv in H. destruct H as [(w1 & oo & H1 & H)|(e & H1 & ->)].
  2:{ left. apply bind_io_inv in H1. destruct H1 as [(w1 & o & H1 & H2)|(e' & H1 & _)]; [inv H2|]. inv H1. eauto. }
  apply bind_io_inv in H1. destruct H1 as [(w2 & o & H1 & H2)|(e' & _ & Hx)]; [|discriminate]. inv H2. injection H1 as <- Hinit.
  apply bind_io_inv in H. destruct H as [(w1 & oo & H1 & H)|(e & H1 & ->)].
  2:{ left. destruct create; [|inv H1]. cbn [create_tables] in H1. apply bind_io_inv in H1. destruct H1 as [(w1 & o' & H1 & H2)|(e' & H1 & _)]; [inv H2|].
      apply create_err in H1. subst. eauto. }
  right.
  assert (Hcr : exists o1, oo = OutDatabase c o1 /\ (if create then create_in o ms w = (w1, Ok o1) else w1 = w /\ o1 = o)).
  { destruct create.
    - cbn [create_tables] in H1. apply bind_io_inv in H1. destruct H1 as [(w1' & o' & H1 & H2)|(e' & _ & Hx)]; [|discriminate]. inv H2. eauto.
    - inv H1. eauto. }
  destruct Hcr as (o1 & -> & Hcr). clear H1. exists ms, mults, o, w1, o1.
  split; [reflexivity|]. split; [exact Hval|]. split; [exact Emu|]. split; [exact Hinit|]. split; [exact Hcr|].
  apply bind_io_inv in H. destruct H as [(w2 & order & H1 & H)|(e & H1 & ->)]; [|left; apply lift_inv in H1; destruct H1 as [-> _]; eauto].
  apply lift_inv in H1. destruct H1 as [-> Hord]. cbn [insertion_order] in Hord. right. exists order. split; [exact Hord|].
  apply bind_io_inv in H. destruct H as [(w2 & u & H1 & H)|(e & H1 & ->)].
  2:{ left. destruct truncate; [|inv H1]. cbn [truncate_tables] in H1. eauto. }
  right. exists w2. split; [destruct truncate; [destruct u; exact H1|inv H1; reflexivity]|]. clear H1 u.
  cbn [prepare] in H. apply bind_io_inv in H. destruct H as [(w3 & oo & H1 & H)|(e & H1 & ->)].
  2:{ left. apply bind_io_inv in H1. destruct H1 as [(w3 & o' & H1 & H2)|(e' & H1 & _)]; [inv H2|]. inv H1. eauto. }
  apply bind_io_inv in H1. destruct H1 as [(w4 & o2 & H1 & H2)|(e' & _ & Hx)]; [|discriminate]. inv H2. injection H1 as <- Hprep.
  apply bind_io_inv in H. destruct H as [(w3 & compact & H1 & H)|(e & H1 & ->)]; [|left; apply lift_inv in H1; destruct H1 as [-> _]; eauto].
  apply lift_inv in H1. destruct H1 as [-> Hcomp]. unfold of_samp in Hcomp. destruct (compacted ms) as [cc|] eqn:Ecc; [|discriminate]. inv Hcomp.
  apply bind_io_inv in H. destruct H as [(w3 & st & H1 & H)|(e & H1 & ->)]; [|left; apply lift_inv in H1; destruct H1 as [-> _]; eauto].
  apply lift_inv in H1. destruct H1 as [-> Hst]. unfold of_samp in Hst. destruct (materialized ms compact) as [ss|] eqn:Ess; [|discriminate]. inv Hst.
  right. exists o2, compact, st. tauto.
Qed.

Section Phases.
Variable c : db_config.
Variable w : world.
Notation db := (ds_tables (w_dest w)).
Notation rules := (oc_remap c).
Notation tgt := (target (en_resub E) rules queries).
Hypothesis Hok : run_ok E cfg c p (w_dest w).
Let Hout := ro_output Hok.
Let Hsrc := ro_source Hok.
Let Hdb := ro_dest Hok.
Let Hord := ro_order Hok.
Let Hplain := ro_plain Hok.
Let Hcols := ro_columns Hok.

Lemma absent_iff o n' : tracked (en_resub E) c queries db o -> tgt n' -> (~ In n' (dkeys (ou_meta o)) <-> ~ exists t, table_of db n' t).
Proof.
  intros Hk Ht. split; intros Hn Hx; apply Hn.
  - apply (tk_keys Hk). exists n'. split; [exact Ht|]. split; [exact Hx|apply rt_refl].
  - destruct (key_dget Hx) as (m & Hm). apply dget_In in Hm. destruct (tk_tables Hk Hm) as [T _]. eauto.
Qed.
Lemma present_iff o n' : tracked (en_resub E) c queries db o -> tgt n' -> (In n' (dkeys (ou_meta o)) <-> exists t, table_of db n' t).
Proof.
  intros Hk Ht. split; intros Hx.
  - destruct (key_dget Hx) as (m & Hm). apply dget_In in Hm. destruct (tk_tables Hk Hm) as [T _]. eauto.
  - apply (tk_keys Hk). exists n'. split; [exact Ht|]. split; [exact Hx|apply rt_refl].
Qed.

(** The tables created by a run: those of the targets that do not exist. *)
Definition creates (create : bool) (ms : meta) (ts : list table) : Prop :=
  NoDup (map tb_name ts) /\
  (forall n', In n' (map tb_name ts) <-> create = true /\ tgt n' /\ ~ exists t, table_of db n' t) /\
  (forall t, In t ts -> exists s n sm, In s queries /\ named s n /\ dget ms n = Some sm /\ duplicates (en_resub E) rules (tm_table sm) t /\
     forall fk, In fk (tb_fks t) -> tgt (fk_dst fk)).
Definition deletes (truncate : bool) (db1 : list table) (del : list tname) : Prop :=
  if truncate then
    NoDup del /\ (forall n, In n del <-> affected (en_resub E) rules db1 queries n) /\
    (forall a b, references db1 a b -> In a del -> In b del -> before del a b)
  else del = [].

Lemma phases truncate create g w' r : sample E cfg p truncate create g w = (w', r) ->
  ((exists e, r = Err e) /\ w' = w) \/
  exists ms mults ts o1 w1 tc,
    (smeta = Ok ms /\ validate_filters (fe_load_plugin (en_filters E)) (sc_filters cfg) ms = Ok tt /\ multiplied ms = Ok mults /\
     (exists o, db_init (en_fnm E) (en_resub E) c (w_dest w) queries = Ok o)) /\
    creates create ms ts /\ tracked (en_resub E) c queries (db ++ ts) o1 /\ ou_offsets o1 = [] /\ (tc = [] /\ ts = [] \/ tc = [EvCreate ts]) /\ trace w1 = trace w ++ tc /\
    ds_tables (w_dest w1) = db ++ ts /\ ds_rows (w_dest w1) = ds_rows (w_dest w) /\ ds_seq (w_dest w1) = ds_seq (w_dest w) /\
    (((exists e, r = Err e) /\ w' = w1) \/
     exists order, db_insert_order (en_ord_str E) o1 = Ok order /\
      (((exists e, r = Err e) /\ w' = w1) \/
       exists del l1 l2 w2, del = l1 ++ l2 /\ deletes truncate (db ++ ts) del /\ trace w2 = trace w1 ++ map EvDelete l1 /\
        replay (en_dflt E) (w_dest w1) (map EvDelete l1) (w_dest w2) /\
        (((exists e, r = Err e) /\ w' = w2) \/
         l2 = [] /\ exists o2 compact st l g' tw,
           db_prepare (en_resub E) (en_dst_int E) c (w_dest w2) o1 ms (p_passthrough p) queries = Ok o2 /\
           computed_by E cfg p ms compact st mults /\
           copy_results E cfg (OutDatabase c o2) p ms compact st mults order g w2 = (w', r) /\
           trace w' = trace w2 ++ tw /\ transfers E cfg p ms compact st mults c (ou_offsets o2) (succeeded r) order g l g' /\
           progress (S (en_buffer E)) l tw /\
           (forall n, In n (map fst l) -> In n (dkeys (ou_meta o1))) /\
           (forall g0, r = Ok g0 -> g0 = g' /\ forall n rows, In (n, rows) l -> NoDup (map fst l) -> written tw n = rows)))).
Proof.
  intros H. apply (sample_db_inv Hout) in H. destruct H as [H|(ms & mults & o & w1 & o1 & Hms & Hval & Hmu & Hinit & Hcr & H)]; [now left|].
  right.
  assert (Hk := init_tracked Hdb Hplain Hinit).
  assert (Hoff : ou_offsets o = []).
  { unfold db_init in Hinit. apply bind_Ok in Hinit. destruct Hinit as (rm & _ & Hinit). apply bind_Ok in Hinit. destruct Hinit as ([a b] & _ & Hinit). inv Hinit. reflexivity. }
  assert (Hs : forall n m, dget ms n = Some m -> tm_name m = n /\ forall fk, In fk (tb_fks (tm_table m)) -> no_dot (fst (fk_dst fk))).
  { destruct (sampler_meta_spec (en_fnm E) (p_queries p) (sc_infer cfg) Hsrc) as (ms' & E' & Hmk & Htab & _). rewrite Hms in E'. injection E' as <-.
    intros n m Hm. apply dget_In in Hm. split; [exact (proj2 Hmk _ _ Hm)|]. intros fk Hfk. destruct (Htab _ _ Hm) as [Hin Hname].
    destruct Hsrc as [_ Hs]. destruct (Hs _ Hin) as (_ & _ & _ & Hf). destruct (Hf _ Hfk) as (_ & _ & _ & d & [Hd Hdn] & _).
    destruct (Hs _ Hd) as (Hdot & _). rewrite <- Hdn. exact Hdot. }
  assert (Hc : exists ts tc, creates create ms ts /\ tracked (en_resub E) c queries (db ++ ts) o1 /\ ou_offsets o1 = [] /\ (tc = [] /\ ts = [] \/ tc = [EvCreate ts]) /\
    trace w1 = trace w ++ tc /\ ds_tables (w_dest w1) = db ++ ts /\ ds_rows (w_dest w1) = ds_rows (w_dest w) /\ ds_seq (w_dest w1) = ds_seq (w_dest w)).
  { destruct create.
    - destruct (create_spec eq_refl Hk Hs Hcr) as [[(e & Hx) _]|(ts & o' & Hr & A & B & C & D1 & D2 & D3 & D4 & F1 & F2 & F3)]; [discriminate|]. injection Hr as <-.
      destruct (create_tracked (en_dflt E) Hdb Hk A B F1 F2) as [K _].
      destruct D4 as [[D4 ->]|D4].
      + exists [], []. split; [|split; [exact K|split; [rewrite F3; exact Hoff|split; [left; split; reflexivity|rewrite D4, app_nil_r; tauto]]]].
        split; [exact A|]. split; [|exact C]. intros n'. rewrite B. split; [intros [T N]; split; [reflexivity|split; [exact T|apply (absent_iff Hk T); exact N]]|].
        intros (_ & T & N). split; [exact T|apply (absent_iff Hk T); exact N].
      + exists ts, [EvCreate ts]. split; [|split; [exact K|split; [rewrite F3; exact Hoff|split; [right; reflexivity|tauto]]]].
        split; [exact A|]. split; [|exact C]. intros n'. rewrite B. split; [intros [T N]; split; [reflexivity|split; [exact T|apply (absent_iff Hk T); exact N]]|].
        intros (_ & T & N). split; [exact T|apply (absent_iff Hk T); exact N].
    - destruct Hcr as [-> ->]. exists [], []. rewrite !app_nil_r. split; [|split; [exact Hk|split; [exact Hoff|split; [left; split; reflexivity|split; [reflexivity|split; [reflexivity|split; reflexivity]]]]]].
      split; [constructor|]. split; [|intros t []]. intros n'. cbn. split; [intros []|intros (F & _); discriminate]. }
  destruct Hc as (ts & tc & Hcreates & Hk1 & Hoff1 & Htc & Ht1 & Hd1 & Hr1 & Hq1). clear Hcr.
  exists ms, mults, ts, o1, w1, tc. split; [split; [exact Hms|split; [exact Hval|split; [exact Hmu|exists o; exact Hinit]]]|].
  split; [exact Hcreates|]. split; [exact Hk1|]. split; [exact Hoff1|]. split; [exact Htc|]. split; [exact Ht1|]. split; [exact Hd1|]. split; [exact Hr1|]. split; [exact Hq1|].
  destruct H as [H|(order & Ho & H)]; [now left|]. right. exists order. split; [exact Ho|].
  assert (Hgo : forall w2 l1 l2 del, del = l1 ++ l2 -> deletes truncate (db ++ ts) del -> trace w2 = trace w1 ++ map EvDelete l1 ->
    replay (en_dflt E) (w_dest w1) (map EvDelete l1) (w_dest w2) -> l2 = [] ->
    (((exists e, r = Err e) /\ w' = w2) \/
         exists o2 compact st,
           db_prepare (en_resub E) (en_dst_int E) c (w_dest w2) o1 ms (p_passthrough p) queries = Ok o2 /\
           compacted ms = Ok compact /\ materialized ms compact = Ok st /\
           copy_results E cfg (OutDatabase c o2) p ms compact st mults order g w2 = (w', r)) -> 
     ((exists e, r = Err e) /\ w' = w2) \/
         l2 = [] /\ exists o2 compact st l g' tw,
           db_prepare (en_resub E) (en_dst_int E) c (w_dest w2) o1 ms (p_passthrough p) queries = Ok o2 /\
           computed_by E cfg p ms compact st mults /\
           copy_results E cfg (OutDatabase c o2) p ms compact st mults order g w2 = (w', r) /\
           trace w' = trace w2 ++ tw /\ transfers E cfg p ms compact st mults c (ou_offsets o2) (succeeded r) order g l g' /\
           progress (S (en_buffer E)) l tw /\
           (forall n, In n (map fst l) -> In n (dkeys (ou_meta o1))) /\
           (forall g0, r = Ok g0 -> g0 = g' /\ forall n rows, In (n, rows) l -> NoDup (map fst l) -> written tw n = rows)).
  { intros w2 l1 l2 del _ _ _ _ Hl2 [H2|(o2 & compact & st & Hp & Hcc & Hst & H2)]; [now left|]. right. split; [exact Hl2|].
    assert (Hcomp : computed_by E cfg p ms compact st mults) by (unfold computed_by; tauto).
    assert (Hom : ou_meta o2 = ou_meta o1).
    { unfold db_prepare in Hp. destruct (negb (oc_merge c)); [inv Hp; reflexivity|]. apply bind_Ok in Hp. destruct Hp as ([a b] & _ & Hp).
      apply bind_Ok in Hp. destruct Hp as (offs & _ & Hp). inv Hp. reflexivity. }
    destruct (order_spec Hord Hk1 Ho) as (_ & Hin & _).
    assert (Hmk : meta_ok (ou_meta o2)) by (rewrite Hom; exact (tk_meta Hk1)).
    destruct (copy_results_spec (fun t co => @Hcols ms compact st mults t co Hcomp) Hmk (order := order) ltac:(intros t Ht; apply Hin in Ht; destruct Ht as (n' & Ht & _); exact Ht) H2)
      as (l & g' & tw & A & B & C & D & F).
    exists o2, compact, st, l, g', tw. split; [exact Hp|]. split; [exact Hcomp|]. split; [exact H2|]. split; [exact A|]. split; [exact B|]. split; [exact C|].
    split; [rewrite <- Hom; exact D|exact F]. }
  destruct H as [(-> & e & -> & H)|(w2 & Htr & H)].
  - destruct (truncate_spec Hord Hk1 H) as [[_ ->]|(del & l1 & l2 & Hdel & A & B & C & D & R & _)]; [left; eauto|].
    right. exists del, l1, l2, w'. split; [exact Hdel|]. split; [split; [exact A|split; [exact B|exact C]]|]. split; [exact D|]. split; [exact R|]. left. eauto.
  - destruct truncate.
    + destruct (truncate_spec Hord Hk1 Htr) as [[(e & Hx) _]|(del & l1 & l2 & Hdel & A & B & C & D & R & Hl2)]; [discriminate|].
      right. exists del, l1, l2, w2. specialize (Hl2 eq_refl).
      assert (Hde : deletes true (db ++ ts) del) by (split; [exact A|split; [exact B|exact C]]).
      split; [exact Hdel|]. split; [exact Hde|]. split; [exact D|]. split; [exact R|]. eapply Hgo; eassumption.
    + subst w2. right. exists [], [], [], w1.
      assert (Ht0 : trace w1 = trace w1 ++ map EvDelete []) by (cbn; now rewrite app_nil_r).
      assert (R0 : replay (en_dflt E) (w_dest w1) (map EvDelete []) (w_dest w1)) by constructor.
      split; [reflexivity|]. split; [reflexivity|]. split; [exact Ht0|]. split; [exact R0|].
      apply (Hgo w1 [] [] []); try assumption; reflexivity.
Qed.
End Phases.
End Sample.
