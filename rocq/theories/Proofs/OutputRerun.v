(** Runs that truncate do not depend on what their tables held before; running again after a crash. *)
From Coq Require Import Lia.
From Verif Require Import Model.Base Model.Value Model.Names Model.Solver Model.Metadata Model.PlanModel Model.Filters Model.Multiply Model.Materialize Model.Dest Model.Output Model.Sampler.
From Verif Require Import Spec.GraphSpec Spec.SchemaSpec Spec.OutputSpec Spec.RunSpec Spec.RerunSpec.
From Verif Require Import Proofs.BaseFacts Proofs.GraphFacts Proofs.NameFacts Proofs.MetadataFacts Proofs.OutputRows Proofs.OutputDb Proofs.OutputCreate
  Proofs.PlanRun Proofs.OutputCopy Proofs.OutputMerge Proofs.OutputSample Proofs.OutputMain Proofs.OutputEvents Proofs.OutputMore.
Set Implicit Arguments. Unset Strict Implicit.
Open Scope list_scope.

Record agrees (D : tname -> Prop) (w1 w2 : world) : Prop := mkAgrees {
  ag_tables : ds_tables (w_dest w1) = ds_tables (w_dest w2);
  ag_rows : forall n, D n -> rows_of (w_dest w1) n = rows_of (w_dest w2) n }.

Section Sim.
Variable dflt : tname -> string -> list row -> row -> value.
Variables accepts1 accepts2 : dest -> event -> bool.
Hypothesis Hacc : forall d e, accepts2 d e = true.

(** If the first program ends well then so does the second, with the same result, from a state that agrees on [D]. *)
Definition sim {X A} (D D' : tname -> Prop) (m1 m2 : io X A) : Prop :=
  forall w1 w2 w1' a, agrees D w1 w2 -> m1 w1 = (w1', Ok a) -> exists w2', m2 w2 = (w2', Ok a) /\ agrees D' w1' w2'.

Lemma sim_ret {X A} D (a : A) : sim (X := X) D D (ret a) (ret a).
Proof. intros w1 w2 w1' b Ha H. inv H. exists w2. split; [reflexivity|exact Ha]. Qed.
Lemma sim_lift {X A} D (x : res X A) : sim D D (lift x) (lift x).
Proof. intros w1 w2 w1' b Ha H. inv H. exists w2. split; [reflexivity|exact Ha]. Qed.
Lemma sim_bind {X A B} D D1 D2 (m1 m2 : io X A) (k1 k2 : A -> io X B) :
  sim D D1 m1 m2 -> (forall a, sim D1 D2 (k1 a) (k2 a)) -> sim D D2 (bind_io m1 k1) (bind_io m2 k2).
Proof.
  intros Hm Hk w1 w2 w1' b Ha H. apply bind_io_inv in H. destruct H as [(wa & a & H1 & H2)|(e & _ & F)]; [|discriminate].
  destruct (Hm _ _ _ _ Ha H1) as (wb & H3 & Hb). destruct (Hk a _ _ _ _ Hb H2) as (wc & H4 & Hc). exists wc. split; [|exact Hc]. unfold bind_io. rewrite H3. exact H4.
Qed.
Lemma sim_bind_lift {X A B} D D2 (x : res X A) (k1 k2 : A -> io X B) :
  (forall a, x = Ok a -> sim D D2 (k1 a) (k2 a)) -> sim D D2 (bind_io (lift x) k1) (bind_io (lift x) k2).
Proof.
  intros Hk w1 w2 w1' b Ha H. apply bind_io_inv in H. destruct H as [(wa & a & H1 & H2)|(e & _ & F)]; [|discriminate].
  apply lift_inv in H1. destruct H1 as [-> ->]. destruct (Hk a eq_refl _ _ _ _ Ha H2) as (wc & H4 & Hc). exists wc. split; [exact H4|exact Hc].
Qed.
Lemma sim_for {X S A} D (f1 f2 : S -> A -> io X S) l : (forall s a, In a l -> sim D D (f1 s a) (f2 s a)) -> forall s, sim D D (for_io f1 l s) (for_io f2 l s).
Proof.
  induction l as [|a l IH]; intros Hf s; cbn [for_io]; [apply sim_ret|]. apply (sim_bind (D1 := D)); [apply Hf; now left|]. intros s'. apply IH. intros; apply Hf. now right.
Qed.
Lemma sim_insert {X} (D : tname -> Prop) (err : X) n how rows : D n -> sim D D (send dflt accepts1 err (EvInsert n how rows)) (send dflt accepts2 err (EvInsert n how rows)).
Proof.
  intros Hn w1 w2 w1' b [Ht Hr] H. apply send_inv in H. destruct H as [(Hb & Hx & _)|[F _]]; [|discriminate]. inv Hb.
  unfold send. rewrite Hacc. cbn in Hx |- *. rewrite <- Ht, <- (Hr _ Hn). destruct (find_table _ _) as [t|]; [|discriminate].
  destruct (insert_rows _ _ _ _ _) as [l|]; [|discriminate]. injection Hx as Hx. eexists. split; [reflexivity|]. split; cbn; rewrite <- Hx; [exact Ht|].
  intros m Hm. destruct (eq_dec m n) as [->|Hne]; [now rewrite !rows_with_same|]. rewrite !rows_with_other by congruence. exact (Hr _ Hm).
Qed.
Lemma sim_delete {X} (D : tname -> Prop) (err : X) n :
  sim D (fun m => D m \/ m = n) (send dflt accepts1 err (EvDelete n)) (send dflt accepts2 err (EvDelete n)).
Proof.
  intros w1 w2 w1' b [Ht Hr] H. apply send_inv in H. destruct H as [(Hb & Hx & _)|[F _]]; [|discriminate]. inv Hb.
  unfold send. rewrite Hacc. cbn in Hx |- *. injection Hx as Hx. eexists. split; [reflexivity|]. split; cbn; rewrite <- Hx; [exact Ht|].
  intros m Hm. destruct (eq_dec m n) as [->|Hne]; [now rewrite !rows_with_same|]. rewrite !rows_with_other by congruence. destruct Hm as [Hm|Hm]; [exact (Hr _ Hm)|congruence].
Qed.
Lemma sim_create {X} D (err : X) ts : sim D D (send dflt accepts1 err (EvCreate ts)) (send dflt accepts2 err (EvCreate ts)).
Proof.
  intros w1 w2 w1' b [Ht Hr] H. apply send_inv in H. destruct H as [(Hb & Hx & _)|[F _]]; [|discriminate]. inv Hb.
  unfold send. rewrite Hacc. cbn in Hx |- *. injection Hx as Hx. eexists. split; [reflexivity|]. split; cbn; rewrite <- Hx; cbn; [now rewrite Ht|exact Hr].
Qed.
(** A statement on a sequence changes nothing the simulation looks at, whether it is executed or not. *)
Lemma quiet_setval {X} (err : X) n v accepts w w' b : send dflt accepts err (EvSetval n v) w = (w', Ok b) ->
  ds_tables (w_dest w') = ds_tables (w_dest w) /\ ds_rows (w_dest w') = ds_rows (w_dest w).
Proof.
  intros H. apply send_inv in H. destruct H as [(Hb & Hx & _)|[F _]]; [|discriminate]. destruct (setval_same Hx) as (A & B & _). split; assumption.
Qed.
Lemma sim_deletes {X} (err : X) l : forall D : tname -> Prop, sim D (fun m => D m \/ In m (map tm_name l))
  (for_io (fun (_ : unit) m => send dflt accepts1 err (EvDelete (tm_name m))) l tt) (for_io (fun (_ : unit) m => send dflt accepts2 err (EvDelete (tm_name m))) l tt).
Proof.
  induction l as [|m l IH]; intros D; cbn [for_io map In].
  - intros w1 w2 w1' b [Ht Hr] H. inv H. exists w2. split; [reflexivity|]. split; [exact Ht|]. intros n [Hn|[]]. exact (Hr _ Hn).
  - apply sim_bind with (D1 := fun n => D n \/ n = tm_name m); [apply sim_delete|]. intros [].
    intros w1 w2 w1' b Ha H. destruct (IH _ _ _ _ _ Ha H) as (w2' & H2 & [Ht Hr]). exists w2'. split; [exact H2|]. split; [exact Ht|].
    intros n [Hn|[Hn|Hn]]; apply Hr; [left; now left|left; now right|now right].
Qed.
End Sim.


Section Run.
Context {G : Type}.
Variable E1 : env G.
Variable accepts : dest -> event -> bool.
Variable currval : tname -> option Z.
Variable cfg : sampler_config.
Variable c : db_config.
Variable p : plan.
Notation E2 := (later E1 accepts currval).
Notation queries := (dkeys (p_queries p)).
Hypothesis Hacc : forall d e, accepts d e = true.

Section Output.
Variable o : db_output.
Variable D : tname -> Prop.
Hypothesis Hms : meta_ok (ou_meta o).
Hypothesis Hcover : forall n, In n (dkeys (ou_meta o)) -> D n.

Lemma sim_flush cs m n cols buffer : dget (ou_meta o) n = Some m ->
  sim D D (flush (en_dflt E1) (en_accepts E1) c cs (tm_table m) cols buffer) (flush (en_dflt E1) accepts c cs (tm_table m) cols buffer).
Proof.
  intros Hm. unfold flush. apply sim_bind_lift. intros how _. apply sim_insert; [exact Hacc|]. apply Hcover. apply dget_In in Hm.
  pose proof (proj2 Hms _ _ Hm) as Hn. unfold tm_name in Hn. rewrite Hn. apply in_map_iff. exists (n, m). tauto.
Qed.

Lemma sim_autoincrement n v : sim D D
  (autoincrement_update (en_dflt E1) (en_accepts E1) (en_autoinc E1) (en_currval E1) c n v)
  (autoincrement_update (en_dflt E1) accepts (en_autoinc E1) currval c n v).
Proof.
  assert (Hx : forall w' w b z, send (en_dflt E1) (en_accepts E1) OxDbError (EvSetval n z) w = (w', Ok b) ->
     (ds_tables (w_dest w') = ds_tables (w_dest w) /\ ds_rows (w_dest w') = ds_rows (w_dest w)) /\ exists m, serial_table (ds_tables (w_dest w)) n = Some m).
  { intros w' w b z H. split; [exact (quiet_setval H)|]. apply send_inv in H. destruct H as [(_ & H & _)|(H & _)]; [|discriminate]. apply exec_setval in H. destruct H as (m & Hm & _). eauto. }
  assert (Hq : forall w' w b, autoincrement_update (en_dflt E1) (en_accepts E1) (en_autoinc E1) (en_currval E1) c n v w = (w', Ok b) ->
     (ds_tables (w_dest w') = ds_tables (w_dest w) /\ ds_rows (w_dest w') = ds_rows (w_dest w)) /\
     match needs_updating c, en_autoinc E1 n, v with true, Some _, VNull => True | true, Some _, VInt _ => exists m, serial_table (ds_tables (w_dest w)) n = Some m
     | true, Some _, _ => False | _, _, _ => True end).
  { intros w' w b H. unfold autoincrement_update in H. destruct (needs_updating c); [|inv H; tauto]. destruct (en_autoinc E1 n); [|inv H; tauto].
    destruct v as [| |z| | | |]; try (now inv H). destruct (en_currval E1 n) as [y|]; [destruct (z <? y)%Z|]; try exact (Hx _ _ _ _ H).
    unfold bind_io, reading in H. destruct (serial_table (ds_tables (w_dest w)) n) as [m|] eqn:Em; [inv H; split; [tauto|eauto]|].
    destruct (Hx _ _ _ _ H) as [_ (m & F)]. congruence. }
  intros w1 w2 w1' b [Ht Hr] H. destruct b. destruct (Hq _ _ _ H) as [[A B] C]. unfold autoincrement_update.
  assert (Hstay : agrees D w1' w2) by (split; [congruence|intros m Hm; unfold rows_of; rewrite B; exact (Hr m Hm)]).
  assert (Hset : forall z m, serial_table (ds_tables (w_dest w1)) n = Some m -> exists w2', send (en_dflt E1) accepts OxDbError (EvSetval n z) w2 = (w2', Ok tt) /\ agrees D w1' w2').
  { intros z m Hm. unfold send. rewrite Hacc. cbn. rewrite <- Ht, Hm. eexists. split; [reflexivity|]. destruct Hstay as [S1 S2]. destruct (set_seq_same (w_dest w2) m z) as (Q1 & Q2 & _).
    split; cbn; [rewrite Q1; exact S1|]. intros n0 Hn0. rewrite (S2 n0 Hn0). unfold rows_of. rewrite Q2. reflexivity. }
  destruct (needs_updating c); [|exists w2; split; [reflexivity|exact Hstay]]. destruct (en_autoinc E1 n); [|exists w2; split; [reflexivity|exact Hstay]].
  destruct v as [| |z| | | |]; try contradiction; [exists w2; split; [reflexivity|exact Hstay]|]. destruct C as (m & Hm).
  destruct (currval n) as [y|]; [destruct (z <? y)%Z|]; try exact (Hset z m Hm). unfold bind_io, reading. rewrite <- Ht, Hm. exists w2. split; [reflexivity|exact Hstay].
Qed.

Lemma sim_output pt n chain cols rows k mult g : sim D D
  (output_result_set E1 (OutDatabase c o) pt n chain cols rows k mult g) (output_result_set E2 (OutDatabase c o) pt n chain cols rows k mult g).
Proof.
  cbn [output_result_set later en_filters en_dflt en_accepts en_resub en_computed en_autoinc en_currval en_buffer]. unfold database_output.
  apply sim_bind_lift. intros n' _. apply sim_bind_lift. intros m Hm.
  assert (Hm' : dget (ou_meta o) n' = Some m). { unfold find_key, dfind in Hm. destruct (dget (ou_meta o) n'); [now inv Hm|discriminate]. }
  destruct (negb _); [apply sim_lift|].
  apply (sim_bind (D1 := D)).
  { destruct (is_nil _); [apply sim_ret|]. apply sim_bind_lift. intros v _. apply sim_ret. }
  intros [chain' cols']. apply (sim_bind (D1 := D)).
  { apply sim_for. intros s [r i] _. unfold loop_body. apply sim_bind_lift. intros [out g'] _. apply (sim_bind (D1 := D)).
    { destruct (match needs_updating c with true => _ | false => _ end) as [i'|]; [|apply sim_ret]. apply sim_bind_lift. intros v _. apply sim_lift. }
    intros mx. cbv zeta. destruct (Nat.ltb _ _); [|apply sim_ret]. apply (sim_bind (D1 := D)); [|intros []; apply sim_ret]. apply (sim_flush (n := n')); exact Hm'. }
  intros s. apply (sim_bind (D1 := D)); [destruct (is_nil _); [apply sim_ret|apply (sim_flush (n := n')); exact Hm']|]. intros []. apply (sim_bind (D1 := D)); [apply sim_autoincrement|]. intros []. apply sim_ret.
Qed.

Lemma sim_copy ms compact st mults order g : sim D D (copy_results E1 cfg (OutDatabase c o) p ms compact st mults order g)
  (copy_results E2 cfg (OutDatabase c o) p ms compact st mults order g).
Proof.
  unfold copy_results. apply sim_for. intros s t _. unfold copy_one.
  cbn [later en_filters en_source en_cmp en_text en_raw en_raw_cols en_rnd en_rank en_reopen]. apply sim_bind_lift. intros [co|] _; [|apply sim_ret].
  apply sim_bind_lift. intros [chain cols] _. apply sim_output.
Qed.

Lemma prepare_agrees w1 w2 ms pt : agrees D w1 w2 ->
  db_prepare (en_resub E1) (en_dst_int E1) c (w_dest w1) o ms pt queries = db_prepare (en_resub E1) (en_dst_int E1) c (w_dest w2) o ms pt queries.
Proof.
  intros [_ Hr]. unfold db_prepare. destruct (negb _); [reflexivity|].
  match goal with |- bind ?a _ = bind ?b _ => assert (Hab : a = b); [|rewrite Hab; reflexivity] end.
  unfold merge_keys. apply forM_ext. intros acc t.
  destruct acc as [offs maxes]. destruct (memb _ _); [reflexivity|]. destruct (parse_name t) as [n|]; [|reflexivity]. cbn [bind].
  destruct (remap_table _ _ n) as [n'|]; [|reflexivity]. cbn [bind]. destruct (find_key (ou_meta o) n') as [m|] eqn:Hm; [|reflexivity]. cbn [bind].
  rewrite Hr; [reflexivity|]. apply Hcover. unfold find_key, dfind in Hm. destruct (dget (ou_meta o) n') eqn:Hd; [|discriminate]. exact (dget_Some_key Hd).
Qed.
End Output.


Notation run1 := (sample E1 cfg p).
Notation run2 := (sample E2 cfg p).

Lemma sim_create_tables o ms D : sim D D (db_create (en_dflt E1) (en_accepts E1) o ms) (db_create (en_dflt E1) accepts o ms).
Proof.
  unfold db_create. apply sim_bind_lift. intros [objs created] _. apply sim_bind_lift. intros ts _. destruct (is_nil ts); [apply sim_ret|].
  apply (sim_bind (D1 := D)); [apply sim_create; exact Hacc|]. intros []. apply sim_ret.
Qed.

Lemma sim_truncate o : any_order (en_ord_str E1) -> meta_ok (ou_meta o) -> names_ok (ou_meta o) ->
  sim (fun _ => False) (fun n => In n (dkeys (ou_meta o))) (db_truncate (en_dflt E1) (en_accepts E1) (en_ord_str E1) o) (db_truncate (en_dflt E1) accepts (en_ord_str E1) o).
Proof.
  intros Hord Hms Hn. unfold db_truncate. apply sim_bind_lift. intros l Hl. unfold of_topo in Hl.
  destruct (meta_toposort (en_ord_str E1) (ou_meta o)) as [l'|e] eqn:Et; [|destruct e; discriminate]. inv Hl.
  destruct (mtopo_spec Hord Hms Hn Et) as (HP & _). intros w1 w2 w1' a Ha H.
  destruct (sim_deletes Hacc (err := OxDbError) (l := rev l) Ha H) as (w2' & H2 & [A B]). exists w2'. split; [exact H2|]. split; [exact A|].
  intros n Hk. apply B. right. rewrite map_rev. apply in_rev. rewrite rev_involutive. eapply Permutation_in; [symmetry; exact HP|exact Hk].
Qed.


End Run.

Lemma bind_ok {X A B} (m : io X A) w w1 a : m w = (w1, Ok a) -> forall k : A -> io X B, bind_io m k w = k a w1.
Proof. intros H k. unfold bind_io. now rewrite H. Qed.
Lemma bind_lift_ok {X A B} (x : res X A) a : x = Ok a -> forall (k : A -> io X B) w, bind_io (lift x) k w = k a w.
Proof. intros ->. reflexivity. Qed.
(** A run whose parts succeed succeeds. *)
Lemma sample_db_intro {G} (E : env G) cfg p c (truncate create : bool) g w ms mults o w1 o1 order w2 o2 compact st :
  sc_output cfg = ToDatabase c ->
  sampler_meta (en_fnm E) (en_source_schema E) (p_queries p) (sc_infer cfg) = Ok ms ->
  validate_filters (fe_load_plugin (en_filters E)) (sc_filters cfg) ms = Ok tt ->
  get_multiplied_columns (sc_multiplicity cfg) ms (en_src_int E) (en_ord_str E) p = Ok mults ->
  db_init (en_fnm E) (en_resub E) c (w_dest w) (dkeys (p_queries p)) = Ok o ->
  (if create then db_create (en_dflt E) (en_accepts E) o ms w = (w1, Ok o1) else w1 = w /\ o1 = o) ->
  db_insert_order (en_ord_str E) o1 = Ok order ->
  (if truncate then db_truncate (en_dflt E) (en_accepts E) (en_ord_str E) o1 w1 = (w2, Ok tt) else w2 = w1) ->
  db_prepare (en_resub E) (en_dst_int E) c (w_dest w2) o1 ms (p_passthrough p) (dkeys (p_queries p)) = Ok o2 ->
  get_compact_columns (sc_compact cfg) (p_passthrough p) ms (en_src_int E) (en_src_autoinc E) = Ok compact ->
  materialize_tables (en_source E) (en_cmp E) (en_text E) (en_raw E) (en_rnd E) (en_rank E) (en_reopen E) ms compact (cp_start (sc_compact cfg)) (en_ord_name E) (p_queries p) = Ok st ->
  sample E cfg p truncate create g w = copy_results E cfg (OutDatabase c o2) p ms compact st mults order g w2.
Proof.
  intros Hout Hms Hval Hmu Hinit Hcr Hord Htr Hprep Hcc Hst. unfold sample.
  rewrite (bind_lift_ok (a := ms)) by (rewrite Hms; reflexivity). rewrite (bind_lift_ok Hval).
  rewrite (bind_lift_ok (a := mults)) by (rewrite Hmu; reflexivity).
  rewrite (bind_ok (a := OutDatabase c o) (w1 := w)); [|unfold open_output; rewrite Hout; apply (bind_ok (a := o) (w1 := w)); unfold reading; now rewrite Hinit].
  rewrite (bind_ok (a := OutDatabase c o1) (w1 := w1)); [|destruct create; [exact (bind_ok Hcr _)|destruct Hcr as [-> ->]; reflexivity]].
  rewrite (bind_lift_ok (a := order)) by exact Hord.
  rewrite (bind_ok (a := tt) (w1 := w2)); [|destruct truncate; [exact Htr|subst; reflexivity]].
  rewrite (bind_ok (a := OutDatabase c o2) (w1 := w2)); [|cbn [prepare]; apply (bind_ok (a := o2) (w1 := w2)); unfold reading; now rewrite Hprep].
  rewrite (bind_lift_ok (a := compact)) by (rewrite Hcc; reflexivity). rewrite (bind_lift_ok (a := st)) by (rewrite Hst; reflexivity). reflexivity.
Qed.

Section Rerun.
Context {G : Type}.
Variable E1 : env G.
Variable accepts : dest -> event -> bool.
Variable currval : tname -> option Z.
Variable cfg : sampler_config.
Variable c : db_config.
Variable p : plan.
Notation E2 := (later E1 accepts currval).
Notation queries := (dkeys (p_queries p)).
Hypothesis Hacc : forall d e, accepts d e = true.

(** A run that truncates ends the same whatever the tables held before. *)
Theorem rerun_agrees create g w1 w2 w1' g' : run_ok E1 cfg c p (w_dest w1) ->
  ds_tables (w_dest w1) = ds_tables (w_dest w2) -> sample E1 cfg p true create g w1 = (w1', Ok g') ->
  exists w2', sample E2 cfg p true create g w2 = (w2', Ok g') /\
    agrees (affected (en_resub E1) (oc_remap c) (ds_tables (w_dest w1')) queries) w1' w2' /\
    exists l, forall n, In n l <-> affected (en_resub E1) (oc_remap c) (ds_tables (w_dest w1')) queries n.
Proof.
  intros Hok Hdb H. apply (sample_db_inv (ro_output Hok)) in H. destruct H as [[(e & F) _]|(ms & mults & o & wa & o1 & Hms & Hval & Hmu & Hinit & Hcr & H)]; [discriminate|].
  destruct H as [[(e & F) _]|(order & Ho & H)]; [discriminate|]. destruct H as [(_ & e & F & _)|(wb & Htr & H)]; [discriminate|]. cbn iota in Htr.
  destruct H as [[(e & F) _]|(o2 & compact & st & Hprep & Hcc & Hst & H)]; [discriminate|].
  assert (Hk := init_tracked (ro_dest Hok) (ro_plain Hok) Hinit).
  assert (Hs : forall n m, dget ms n = Some m -> tm_name m = n /\ forall fk, In fk (tb_fks (tm_table m)) -> no_dot (fst (fk_dst fk))).
  { pose proof (ro_source Hok) as Hsrc. destruct (sampler_meta_spec (en_fnm E1) (p_queries p) (sc_infer cfg) Hsrc) as (ms' & E' & Hmk & Htab & _). rewrite Hms in E'. injection E' as <-.
    intros n m Hm. apply dget_In in Hm. split; [exact (proj2 Hmk _ _ Hm)|]. intros fk Hfk. destruct (Htab _ _ Hm) as [Hin Hname].
    destruct Hsrc as [_ Hs]. destruct (Hs _ Hin) as (_ & _ & _ & Hf). destruct (Hf _ Hfk) as (_ & _ & _ & d & [Hd Hdn] & _).
    destruct (Hs _ Hd) as (Hdot & _). rewrite <- Hdn. exact Hdot. }
  assert (Hc : tracked (en_resub E1) c queries (ds_tables (w_dest wa)) o1).
  { destruct create; [|destruct Hcr as [-> ->]; exact Hk].
    destruct (create_spec eq_refl Hk Hs Hcr) as [[(e & Hx) _]|(ts & o' & Hr & A & B & C & D1 & D2 & D3 & D4 & F1 & F2 & F3)]; [discriminate|]. injection Hr as <-.
    destruct (create_tracked (en_dflt E1) (ro_dest Hok) Hk A B F1 F2) as [K _]. rewrite D1. exact K. }
  assert (Hom : ou_meta o2 = ou_meta o1).
  { unfold db_prepare in Hprep. destruct (negb (oc_merge c)); [inv Hprep; reflexivity|]. apply bind_Ok in Hprep. destruct Hprep as ([a b] & _ & Hp).
    apply bind_Ok in Hp. destruct Hp as (offs & _ & Hp). inv Hp. reflexivity. }
  assert (Hmk : meta_ok (ou_meta o2)) by (rewrite Hom; exact (tk_meta Hc)).
  assert (Hcomp : computed_by E1 cfg p ms compact st mults) by (unfold computed_by; tauto).
  assert (Htab : ds_tables (w_dest w1') = ds_tables (w_dest wa)).
  { destruct (truncate_spec (ro_order Hok) Hc Htr) as [[(e & Hx) _]|(del & l1 & l2 & _ & _ & _ & _ & _ & R & _)]; [discriminate|].
    destruct (order_spec (ro_order Hok) Hc Ho) as (_ & Hin & _).
    assert (Hincl : incl order queries) by (intros t Ht; apply Hin in Ht; destruct Ht as (n' & Ht & _); exact Ht).
    destruct (copy_results_spec (fun t co => @ro_columns _ _ _ _ _ _ Hok ms compact st mults t co Hcomp) Hmk Hincl H)
      as (l & g'' & tw & Htw & _ & Hprog & _).
    destruct (copy_extends H) as (tw' & Htw' & Htwr). rewrite Htw in Htw'. apply app_inv_head in Htw'. subst tw'.
    rewrite (replay_tables Htwr (inserting_no_create (progress_inserting Hprog))). apply (replay_tables R). intros ts' Hi. apply in_map_iff in Hi. destruct Hi as (n & F & _). discriminate. }
  assert (H0 : agrees (fun _ => False) w1 w2) by (split; [exact Hdb|intros n []]).
  assert (Hcr2 : exists wa2, (if create then db_create (en_dflt E1) accepts o ms w2 = (wa2, Ok o1) else wa2 = w2 /\ o1 = o) /\ agrees (fun _ => False) wa wa2).
  { destruct create; [exact (sim_create_tables Hacc H0 Hcr)|]. destruct Hcr as [-> ->]. exists w2. tauto. }
  destruct Hcr2 as (wa2 & Hcr2 & Ha). destruct (sim_truncate Hacc (ro_order Hok) (tk_meta Hc) (tk_dots Hc) Ha Htr) as (wb2 & Htr2 & Hb).
  assert (Hcov : forall n, In n (dkeys (ou_meta o2)) -> In n (dkeys (ou_meta o1))) by (rewrite Hom; trivial).
  destruct (sim_copy currval Hacc Hmk Hcov Hb H) as (w2' & Hcp2 & Hfin).
  exists w2'. split.
  - rewrite <- Hcp2. eapply (sample_db_intro (E := E2) (truncate := true)) with (o := o) (w1 := wa2) (o1 := o1); try eassumption; [exact (ro_output Hok)| |].
    + unfold db_init in Hinit |- *. cbn [later en_fnm en_resub]. rewrite <- Hdb. exact Hinit.
    + cbn [later en_resub en_dst_int]. rewrite <- Hprep. symmetry. eapply prepare_agrees; [|exact Hb]. intros n Hn. exact Hn.
  - destruct Hfin as [A B]. rewrite Htab. split; [|exists (dkeys (ou_meta o1)); intros n; apply (tk_keys Hc)]. split; [exact A|]. intros n Hn. apply B. apply (tk_keys Hc). exact Hn.
Qed.

Lemma replay_keeps dflt tr : forall d d' n, replay dflt d tr d' -> (forall e, In e tr -> match e with EvDelete m | EvInsert m _ _ => m <> n | _ => True end) -> rows_of d' n = rows_of d n.
Proof.
  induction tr as [|e tr IH]; intros d d' n H Hne; inversion H as [|? ? d1 ? ? Hx Hr]; subst; [reflexivity|]. rewrite (IH _ _ _ Hr) by (intros e' He'; apply Hne; now right).
  specialize (Hne e (or_introl eq_refl)). destruct e as [ts|m|m how rs|m v|q|q r]; try (unfold rows_of; rewrite (proj1 (proj2 (setval_same Hx))); reflexivity); cbn in Hx.
  - injection Hx as <-. reflexivity.
  - injection Hx as <-. apply rows_with_other. congruence.
  - destruct (find_table _ _); [|discriminate]. destruct (insert_rows _ _ _ _ _); [|discriminate]. injection Hx as <-. apply rows_with_other. congruence.
  - injection Hx as <-. reflexivity.
  - injection Hx as <-. reflexivity.
Qed.

Lemma target_affected db n t : target (en_resub E1) (oc_remap c) queries n -> table_of db n t -> affected (en_resub E1) (oc_remap c) db queries n.
Proof. intros Ht Htab. exists n. split; [exact Ht|]. split; [eauto|]. apply rt_refl. Qed.

(** The same with everything else in the destination. *)
Theorem rerun_same create g w1 w2 w1' g' : run_ok E1 cfg c p (w_dest w1) -> trace w1 = [] -> trace w2 = [] ->
  ds_tables (w_dest w1) = ds_tables (w_dest w2) -> sample E1 cfg p true create g w1 = (w1', Ok g') ->
  (forall n, ~ affected (en_resub E1) (oc_remap c) (ds_tables (w_dest w1')) queries n -> rows_of (w_dest w1) n = rows_of (w_dest w2) n) ->
  exists w2', sample E2 cfg p true create g w2 = (w2', Ok g') /\ ds_tables (w_dest w2') = ds_tables (w_dest w1') /\
    forall n t, table_of (ds_tables (w_dest w1')) n t -> rows_of (w_dest w2') n = rows_of (w_dest w1') n.
Proof.
  intros Hok Hn1 Hn2 Hdb H Hrest. destruct (rerun_agrees Hok Hdb H) as (w2' & H2 & [A B] & l & Hl). exists w2'. split; [exact H2|]. split; [now rewrite A|].
  intros n t Ht. destruct (in_dec (@eq_dec _ _) n l) as [Ha|Ha]; rewrite Hl in Ha; [symmetry; exact (B n Ha)|].
  assert (Hnt : ~ target (en_resub E1) (oc_remap c) queries n) by (intros F; exact (Ha (target_affected F Ht))).
  assert (Hok2 : run_ok E2 cfg c p (w_dest w2)).
  { destruct Hok as [K1 K2 K3 K4 K5 K6]. split; try assumption. rewrite <- Hdb. exact K3. }
  rewrite (untouched Hok Hn1 H (fun _ => Ha) Hnt). rewrite A in Ha. rewrite (untouched Hok2 Hn2 H2 (fun _ => Ha) Hnt). symmetry. apply Hrest. rewrite A. exact Ha.
Qed.


Lemma affected_mono sub rules db ts planned n : affected sub rules db planned n -> affected sub rules (db ++ ts) planned n.
Proof.
  assert (Ht : forall m t, table_of db m t -> table_of (db ++ ts) m t) by (intros m t [A B]; split; [apply in_or_app; now left|exact B]).
  intros (n' & T & (t & X) & P). exists n'. split; [exact T|]. split; [eauto|]. clear -P Ht. induction P as [a b (t' & fk & A & B)|a|a b d _ IH1 _ IH2]; [|apply rt_refl|eapply rt_trans; eassumption].
  apply rt_step. exists t', fk. split; [exact (Ht _ _ A)|exact B].
Qed.

(** Run again after an attempt that failed or was killed at any moment, provided it did not create tables. *)
Theorem rerun_after_crash accepts0 currval0 truncate0 create0 g0 create g w w0 r0 w' g' tr d : run_ok E1 cfg c p (w_dest w) -> trace w = [] ->
  sample (later E1 accepts0 currval0) cfg p truncate0 create0 g0 w = (w0, r0) ->
  initial_part tr (trace w0) -> replay (en_dflt E1) (w_dest w) tr d -> (forall ts, ~ In (EvCreate ts) tr) ->
  sample E1 cfg p true create g w = (w', Ok g') ->
  exists w2, sample E2 cfg p true create g (mkWorld d []) = (w2, Ok g') /\ ds_tables (w_dest w2) = ds_tables (w_dest w') /\
    forall n t, table_of (ds_tables (w_dest w')) n t -> rows_of (w_dest w2) n = rows_of (w_dest w') n.
Proof.
  intros Hok Hnil H0 (rest & Htr) Hrep Hnc H. apply (rerun_same (w1 := w)); try assumption; try reflexivity; [symmetry; exact (replay_tables Hrep Hnc)|].
  intros n Hn. symmetry. apply (replay_keeps Hrep). intros e He.
  assert (Hok0 : run_ok (later E1 accepts0 currval0) cfg c p (w_dest w)) by (destruct Hok as [K1 K2 K3 K4 K5 K6]; split; assumption).
  destruct (run_trace Hok0 Hnil H0) as (ts0 & dn & tw & d1 & d2 & o1 & Htr0 & Hins & Hdb0 & _).
  assert (Hno : trace w0 = map EvDelete dn ++ tw /\ ts0 = []).
  { destruct Htr0 as [?|Htr0]; [assumption|]. exfalso. rewrite Htr in Htr0. destruct tr as [|e1 tr]; [elim He|]. cbn in Htr0. injection Htr0 as -> _. exact (Hnc ts0 (or_introl eq_refl)). }
  destruct Hno as [Htr' ->]. rewrite app_nil_r in Hdb0.
  destruct (created_tables Hok Hnil H) as (ts & Hdb & _).
  assert (Hn' : ~ affected (en_resub E1) (oc_remap c) (ds_tables (w_dest w)) queries n) by (intros F; apply Hn; rewrite Hdb; exact (affected_mono ts F)).
  destruct (truncation Hok0 Hnil H0) as (created & del & aft & d' & Htr1 & Hc & Haft & _ & _ & Hdel1 & _).
  destruct (run_events Hok0 Hnil H0) as [(cf & Hev) _]. rewrite Forall_forall in Hev. rewrite Hdb0 in Hdel1, Hev.
  assert (He' : In e (trace w0)) by (rewrite Htr; apply in_or_app; now left). specialize (Hev e He').
  destruct e as [ts1|m|m how rs|m v|q|q r]; try exact I; intros ->.
  - apply Hn'. apply (Hdel1 n). rewrite Htr1 in He'. apply in_app_or in He'. destruct He' as [He'|He']; [destruct (Hc _ He') as (? & F); discriminate|].
    apply in_app_or in He'. destruct He' as [He'|He']; [apply in_map_iff in He'; destruct He' as (x & Hx & Hi); now injection Hx as ->|elim (proj2 (Haft _ He') n eq_refl)].
  - destruct Hev as (t & tb & Ht & Hto & Htb & _). apply Hn'. exact (target_affected (to_tgt Ht Hto) Htb).
Qed.
End Rerun.
