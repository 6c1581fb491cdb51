(** What whole runs with a database output do. *)
From Coq Require Import Lia Relations.Operators_Properties.
From Verif Require Import Model.Base Model.Value Model.Names Model.PlanModel Model.Solver Model.PlanBuild Model.Metadata Model.Filters Model.Multiply Model.Materialize Model.Dest Model.Output Model.Sampler.
From Verif Require Import Spec.GraphSpec Spec.SchemaSpec Spec.PlannerSpec Spec.OutputSpec Spec.RunSpec.
From Verif Require Import Proofs.BaseFacts Proofs.NameFacts Proofs.GraphFacts Proofs.MetadataFacts Proofs.PlanRun Proofs.OutputRows Proofs.OutputRun Proofs.OutputDb Proofs.OutputCreate Proofs.OutputCopy Proofs.OutputSample.
Set Implicit Arguments. Unset Strict Implicit.
Open Scope list_scope.

(** ** Statements *)
Definition inserting (e : event) : Prop := match e with EvInsert _ _ _ | EvSetval _ _ => True | _ => False end.
Lemma writes_inserting size n rows tr : writes size n rows tr -> Forall inserting tr.
Proof.
  intros (how & bs & tail & -> & _ & _ & Ht). apply Forall_app. split; [apply Forall_forall; intros e He; apply in_map_iff in He; destruct He as (b & <- & _); exact I|].
  destruct Ht as [->|(z & -> & _)]; [constructor|constructor; [exact I|constructor]].
Qed.
Lemma progress_inserting size l tr : progress size l tr -> Forall inserting tr.
Proof.
  induction 1 as [|n rows l tr Hw|n rows l tr tr' Hw _ IH]; [constructor|exact (writes_inserting Hw)|].
  apply Forall_app. split; [exact (writes_inserting (writes_all_part Hw))|exact IH].
Qed.
Lemma replay_inv_app dflt d tr1 tr2 d2 : replay dflt d (tr1 ++ tr2) d2 -> exists d1, replay dflt d tr1 d1 /\ replay dflt d1 tr2 d2.
Proof.
  revert d. induction tr1 as [|e tr1 IH]; intros d H; [exists d; split; [constructor|exact H]|]. cbn in H. inversion H as [|? ? d1 ? ? Hx Hr]; subst.
  destruct (IH _ Hr) as (d3 & A & B). exists d3. split; [|exact B]. econstructor; eassumption.
Qed.
Lemma replay_fun dflt d tr d1 d2 : replay dflt d tr d1 -> replay dflt d tr d2 -> d1 = d2.
Proof. intros H. revert d2. induction H as [|d e d1 tr d2 Hx _ IH]; intros d3 H3; inversion H3; subst; [reflexivity|]. apply IH. congruence. Qed.
Lemma exec_setval dflt d n v d' : exec dflt d (EvSetval n v) = Some d' -> exists m, serial_table (ds_tables d) n = Some m /\ d' = set_seq d m v.
Proof. cbn. destruct (serial_table (ds_tables d) n) as [m|]; [|discriminate]. intros H. injection H as <-. eauto. Qed.
Lemma set_seq_same d n v : ds_tables (set_seq d n v) = ds_tables d /\ ds_rows (set_seq d n v) = ds_rows d /\ ds_files (set_seq d n v) = ds_files d.
Proof. unfold set_seq. destruct (dmem (ds_seq d) n); auto. Qed.
Lemma setval_same dflt d n v d' : exec dflt d (EvSetval n v) = Some d' -> ds_tables d' = ds_tables d /\ ds_rows d' = ds_rows d /\ ds_files d' = ds_files d.
Proof. intros H. apply exec_setval in H. destruct H as (m & _ & ->). apply set_seq_same. Qed.
Lemma replay_tables dflt d tr d' : replay dflt d tr d' -> (forall ts, ~ In (EvCreate ts) tr) -> ds_tables d' = ds_tables d.
Proof.
  induction 1 as [|d e d1 tr d2 Hx _ IH]; intros Hn; [reflexivity|]. rewrite IH; [|intros ts Hin; apply (Hn ts); now right].
  destruct e; try exact (proj1 (setval_same Hx)); cbn in Hx; try (injection Hx as <-; try reflexivity).
  - exfalso. apply (Hn ts). now left.
  - destruct (find_table _ _); [|discriminate]. destruct (insert_rows _ _ _ _ _); [|discriminate]. injection Hx as <-. reflexivity.
Qed.
Lemma inserting_no_create tr : Forall inserting tr -> forall ts, ~ In (EvCreate ts) tr.
Proof. intros H ts Hin. rewrite Forall_forall in H. exact (H _ Hin). Qed.
Lemma rows_with_same d n l : rows_of (with_rows d n l) n = l.
Proof. unfold rows_of, with_rows, dget_or. cbn. now rewrite dget_dset_eq. Qed.
Lemma rows_with_other d n l n' : n' <> n -> rows_of (with_rows d n l) n' = rows_of d n'.
Proof. intros Hne. unfold rows_of, with_rows, dget_or. cbn. rewrite dget_dset_ne; [reflexivity|congruence]. Qed.
Lemma replay_deletes dflt del : forall d d', replay dflt d (map EvDelete del) d' ->
  (forall n, In n del -> rows_of d' n = []) /\ (forall n, ~ In n del -> rows_of d' n = rows_of d n) /\ ds_tables d' = ds_tables d /\ ds_seq d' = ds_seq d.
Proof.
  induction del as [|m del IH]; intros d d' H; cbn in H; inversion H as [|? ? d1 ? ? Hx Hr]; subst.
  - split; [intros n []|]. split; [reflexivity|]. split; reflexivity.
  - cbn in Hx. injection Hx as <-. destruct (IH _ _ Hr) as (A & B & C & D). split; [|split; [|split; [exact C|exact D]]].
    + intros n Hin. destruct (in_dec (@eq_dec _ _) n del) as [Hi|Hi]; [exact (A n Hi)|]. rewrite (B n Hi). destruct Hin as [->|Hin]; [apply rows_with_same|contradiction].
    + intros n Hn. rewrite (B n); [|intros Hi; apply Hn; now right]. apply rows_with_other. intros ->. apply Hn. now left.
Qed.
(** Tables nothing is inserted into keep their rows. *)
Lemma replay_untouched dflt tr : forall d d', replay dflt d tr d' -> Forall inserting tr -> forall n, batches tr n = [] -> rows_of d' n = rows_of d n.
Proof.
  induction tr as [|e tr IH]; intros d d' H Hi n Hb; inversion H as [|? ? d1 ? ? Hx Hr]; subst; [reflexivity|]. inversion Hi as [|? ? He Hi']; subst.
  destruct e as [ts|m|m how rs|m v|q|q r]; try destruct He.
  - unfold batches in Hb. cbn [flat_map] in Hb. destruct (eq_dec m n) as [E|Hne]; [discriminate|]. rewrite (IH _ _ Hr Hi' n Hb). cbn in Hx.
    destruct (find_table _ _); [|discriminate]. destruct (insert_rows _ _ _ _ _); [|discriminate]. injection Hx as <-. apply rows_with_other. congruence.
  - rewrite (IH _ _ Hr Hi' n Hb). unfold rows_of. rewrite (proj1 (proj2 (setval_same Hx))). reflexivity.
Qed.

Section Main.
Context {G : Type}.
Variable E : env G.
Variable cfg : sampler_config.
Variable p : plan.
Notation queries := (dkeys (p_queries p)).

Lemma extends_output dflt accepts o ps n chain cols rows m mult g :
  dflt = en_dflt E -> accepts = en_accepts E -> extends dflt (output_result_set E o ps n chain cols rows m mult g).
Proof.
  intros -> ->. destruct o as [dir|c o]; cbn [output_result_set].
  - unfold directory_output. apply extends_bind; [apply extends_send|]. intros u. apply extends_for. intros s a. apply extends_bind; [apply extends_lift|].
    intros [out g']. apply extends_bind; [apply extends_send|]. intros v. apply extends_ret.
  - unfold database_output. assert (Hfl : forall cs t cs' b, extends (en_dflt E) (flush (en_dflt E) (en_accepts E) c cs t cs' b)).
    { intros. unfold flush. apply extends_bind; [apply extends_lift|]. intros. apply extends_send. }
    apply extends_bind; [apply extends_lift|]. intros n'. apply extends_bind; [apply extends_lift|]. intros tm. destruct (negb _); [apply extends_lift|].
    apply extends_bind. { destruct (is_nil _); [apply extends_ret|]. apply extends_bind; [apply extends_lift|]. intros. apply extends_ret. }
    intros [chain' cols']. apply extends_bind.
    { apply extends_for. intros s a. unfold loop_body. apply extends_bind; [apply extends_lift|]. intros [out g']. apply extends_bind.
      { destruct (match needs_updating c with true => _ | false => _ end); [|apply extends_ret]. apply extends_bind; [apply extends_lift|]. intros. apply extends_lift. }
      intros mx. destruct (Nat.ltb _ _); [|apply extends_ret]. apply extends_bind; [apply Hfl|]. intros. apply extends_ret. }
    intros s. apply extends_bind. { destruct (is_nil _); [apply extends_ret|apply Hfl]. } intros u. apply extends_bind; [|intros; apply extends_ret].
    unfold autoincrement_update. destruct (needs_updating c); [|apply extends_ret]. destruct (en_autoinc E n') as [ac|]; [|apply extends_ret].
    destruct (lp_max s); try apply extends_ret; try apply extends_lift. destruct (en_currval E n') as [cv|]; [destruct (z <? cv)%Z; [apply extends_bind; [apply extends_reading|intros [sm|]; [apply extends_ret|apply extends_send]]|]|]; apply extends_send.
Qed.

Lemma copy_extends o ms compact st mults order g : extends (en_dflt E) (copy_results E cfg o p ms compact st mults order g).
Proof.
  unfold copy_results. apply extends_for. intros s a. unfold copy_one. apply extends_bind; [apply extends_lift|]. intros [co|]; [|apply extends_ret].
  apply extends_bind; [apply extends_lift|]. intros [chain cols]. apply (@extends_output _ (en_accepts E)); reflexivity.
Qed.

Lemma sample_extends truncate create g : extends (en_dflt E) (sample E cfg p truncate create g).
Proof.
  unfold sample. apply extends_bind; [apply extends_lift|]. intros ms. apply extends_bind; [apply extends_lift|]. intros u. apply extends_bind; [apply extends_lift|].
  intros mults. apply extends_bind. { unfold open_output. destruct (sc_output cfg); [apply extends_ret|]. apply extends_bind; [apply extends_reading|]. intros. apply extends_ret. }
  intros o. apply extends_bind.
  { destruct create; [|apply extends_ret]. destruct o as [dir|c o]; cbn [create_tables]; [apply extends_ret|]. apply extends_bind; [|intros; apply extends_ret].
    unfold db_create. apply extends_bind; [apply extends_lift|]. intros [objs cr]. apply extends_bind; [apply extends_lift|]. intros ts. destruct (is_nil ts); [apply extends_ret|].
    apply extends_bind; [apply extends_send|]. intros. apply extends_ret. }
  intros o'. apply extends_bind; [apply extends_lift|]. intros order. apply extends_bind.
  { destruct truncate; [|apply extends_ret]. destruct o' as [dir|c o']; cbn [truncate_tables]; [apply extends_ret|]. unfold db_truncate. apply extends_bind; [apply extends_lift|].
    intros ord. apply extends_for. intros s a. apply extends_send. }
  intros u'. apply extends_bind.
  { destruct o' as [dir|c o']; cbn [prepare]; [apply extends_ret|]. apply extends_bind; [apply extends_reading|]. intros. apply extends_ret. }
  intros o2. apply extends_bind; [apply extends_lift|]. intros compact. apply extends_bind; [apply extends_lift|]. intros st.
  apply copy_extends.
Qed.

Lemma result_named ms compact st t co : result_of E cfg p ms compact st t co -> named t (co_name co) /\ In t queries.
Proof.
  unfold result_of, copy_table. intros H. apply bind_Ok in H. destruct H as (n & Hp & H). unfold parse in Hp. destruct (parse_table_name t) as [n0|] eqn:Ep; [|discriminate]. inv Hp.
  destruct (dget (p_queries p) t) as [q|] eqn:Eq; [|discriminate]. apply bind_Ok in H. destruct H as (c & _ & H). inv H. cbn. split; [apply parse_named; exact Ep|].
  exact (dget_Some_key Eq).
Qed.
Lemma transfer_lands ms compact st mults c offs whole t g n' rows g' : transfer E cfg p ms compact st mults c offs whole t g n' rows g' ->
  lands (en_resub E) (oc_remap c) t n'.
Proof. intros (co & chain & cols & l1 & l2 & outs & Hr & _ & Hg & _). exists (co_name co). split; [exact (proj1 (result_named Hr))|exact Hg]. Qed.
Lemma transfers_names ms compact st mults c offs whole ts g l g' : transfers E cfg p ms compact st mults c offs whole ts g l g' ->
  exists ts1, initial_part ts1 ts /\ (whole = true -> ts1 = ts) /\ Forall2 (fun t x => lands (en_resub E) (oc_remap c) t (fst x)) ts1 l.
Proof.
  induction 1 as [g|ts g|t ts g n' rows g' Ht|whole t ts g n' rows g1 l g2 Ht _ IH].
  - exists []. split; [apply initial_refl|]. split; [reflexivity|constructor].
  - exists []. split; [exists ts; reflexivity|]. split; [discriminate|constructor].
  - exists [t]. split; [exists ts; reflexivity|]. split; [discriminate|]. constructor; [exact (transfer_lands Ht)|constructor].
  - destruct IH as (ts1 & (ts2 & ->) & Hw & HF). exists (t :: ts1). split; [exists ts2; reflexivity|]. split; [intros e; f_equal; exact (Hw e)|].
    constructor; [exact (transfer_lands Ht)|exact HF].
Qed.
Lemma lands_fun sub rules t a b : lands sub rules t a -> lands sub rules t b -> a = b.
Proof. intros (n & Hn & Ha) (n2 & Hn2 & Hb). rewrite (named_fun Hn2 Hn) in Hb. unfold goes_to in *. exact (named_fun Ha Hb). Qed.
Lemma Forall2_before {A B} (R : A -> B -> Prop) : forall l l' x y, Forall2 R l l' -> before l x y ->
  exists x' y', before l' x' y' /\ R x x' /\ R y y'.
Proof.
  intros l l' x y HF (l1 & l2 & l3 & ->). apply Forall2_app_inv_l in HF. destruct HF as (k1 & k' & _ & HF & ->).
  inversion HF as [|? x' ? k2 Rx HF2]; subst. apply Forall2_app_inv_l in HF2. destruct HF2 as (k3 & k4 & _ & HF2 & ->). inversion HF2 as [|? y' ? k5 Ry _]; subst.
  exists x', y'. split; [exists k1, k3, k5; reflexivity|split; assumption].
Qed.

Section Run.
Variable c : db_config.
Variable w : world.
Notation db := (ds_tables (w_dest w)).
Notation rules := (oc_remap c).
Notation tgt := (target (en_resub E) rules queries).
Notation to := (lands (en_resub E) rules).
Hypothesis Hok : run_ok E cfg c p (w_dest w).
Hypothesis Hnil : trace w = [].

(** The run in one piece: tables created, tables emptied, rows inserted. *)
Theorem run_trace truncate create g w' r : sample E cfg p truncate create g w = (w', r) ->
  exists ts done_ tw d1 d2 o1, (trace w' = map EvDelete done_ ++ tw /\ ts = [] \/ trace w' = EvCreate ts :: map EvDelete done_ ++ tw) /\
    Forall inserting tw /\ ds_tables (w_dest w') = db ++ ts /\
    (ds_rows d1 = ds_rows (w_dest w) /\ ds_seq d1 = ds_seq (w_dest w) /\ ds_tables d1 = db ++ ts /\
     replay (en_dflt E) d1 (map EvDelete done_) d2 /\ replay (en_dflt E) d2 tw (w_dest w')) /\
    (forall t, In t ts -> create = true /\ tgt (tb_name t) /\ ~ exists t', table_of db (tb_name t) t') /\
    (trace w' <> [] \/ (exists g', r = Ok g') ->
      exists ms mults, sampler_meta (en_fnm E) (en_source_schema E) (p_queries p) (sc_infer cfg) = Ok ms /\
        validate_filters (fe_load_plugin (en_filters E)) (sc_filters cfg) ms = Ok tt /\
        get_multiplied_columns (sc_multiplicity cfg) ms (en_src_int E) (en_ord_str E) p = Ok mults /\
        (exists o, db_init (en_fnm E) (en_resub E) c (w_dest w) queries = Ok o) /\ creates E p c w create ms ts) /\
    (map EvDelete done_ ++ tw <> [] \/ (exists g', r = Ok g') ->
      (forall n, affected (en_resub E) rules (db ++ ts) queries n -> ~ on_cycle (references (db ++ ts)) n) /\
      exists del l2, del = done_ ++ l2 /\ deletes E p c truncate (db ++ ts) del /\
      (tw <> [] \/ (exists g', r = Ok g') -> l2 = [] /\
         tracked (en_resub E) c queries (db ++ ts) o1 /\
         exists order samples ms compact st mults o2, insertion E c p (db ++ ts) order /\
           db_prepare (en_resub E) (en_dst_int E) c d2 o1 ms (p_passthrough p) queries = Ok o2 /\ (oc_merge c = false -> ou_offsets o2 = []) /\
           sampling_at E cfg c p ms compact st mults (ou_offsets o2) (succeeded r) g order samples /\
           NoDup (map fst samples) /\ progress (S (en_buffer E)) samples tw /\
           (forall g', r = Ok g' -> forall n rows, In (n, rows) samples -> written tw n = rows))).
Proof.
  intros Hs. assert (Hx := sample_extends Hs). rewrite Hnil in Hx. cbn in Hx. destruct Hx as (tr & Htr & Hrep). rewrite <- Htr in Hrep. clear tr Htr.
  destruct (phases Hok Hs) as [[(e & ->) ->]|(ms & mults & ts & o1 & w1 & tc & Hpre & Hcr & Hk & Hoff & Htc & Ht1 & Hd1 & Hr1 & Hq1 & H)].
  - exists [], [], [], (w_dest w), (w_dest w), (mkDbOutput [] [] [] []). rewrite !app_nil_r. cbn [map app]. split; [left; split; [exact Hnil|reflexivity]|]. split; [constructor|]. split; [reflexivity|].
    split; [split; [reflexivity|split; [reflexivity|split; [reflexivity|split; constructor]]]|].
    split; [intros t []|]. split; intros [F|(g' & F)]; try discriminate; try (now elim F).
  - rewrite Hnil in Ht1. cbn in Ht1.
    assert (Hts : forall t, In t ts -> create = true /\ tgt (tb_name t) /\ ~ exists t', table_of db (tb_name t) t').
    { intros t Ht. apply Hcr. apply in_map. exact Ht. }
    assert (Hpre' : exists ms mults, sampler_meta (en_fnm E) (en_source_schema E) (p_queries p) (sc_infer cfg) = Ok ms /\
        validate_filters (fe_load_plugin (en_filters E)) (sc_filters cfg) ms = Ok tt /\
        get_multiplied_columns (sc_multiplicity cfg) ms (en_src_int E) (en_ord_str E) p = Ok mults /\
        (exists o, db_init (en_fnm E) (en_resub E) c (w_dest w) queries = Ok o) /\ creates E p c w create ms ts).
    { exists ms, mults. tauto. }
    assert (Hstop : w' = w1 -> (exists e, r = Err e) -> exists done_ tw d1 d2, (trace w' = map EvDelete done_ ++ tw /\ ts = [] \/ trace w' = EvCreate ts :: map EvDelete done_ ++ tw) /\
      Forall inserting tw /\ ds_tables (w_dest w') = db ++ ts /\
      (ds_rows d1 = ds_rows (w_dest w) /\ ds_seq d1 = ds_seq (w_dest w) /\ ds_tables d1 = db ++ ts /\
       replay (en_dflt E) d1 (map EvDelete done_) d2 /\ replay (en_dflt E) d2 tw (w_dest w')) /\ done_ = [] /\ tw = []).
    { intros -> _. exists [], [], (w_dest w1), (w_dest w1). split; [rewrite Ht1; destruct Htc as [[-> ->]| ->]; [left|right]; cbn; [split|]; reflexivity|]. split; [constructor|]. split; [exact Hd1|].
      split; [|split; reflexivity]. split; [exact Hr1|split; [exact Hq1|split; [exact Hd1|split; constructor]]]. }
    assert (Hstop' : ((exists e, r = Err e) /\ w' = w1) -> exists done_ tw d1 d2, (trace w' = map EvDelete done_ ++ tw /\ ts = [] \/ trace w' = EvCreate ts :: map EvDelete done_ ++ tw) /\
      Forall inserting tw /\ ds_tables (w_dest w') = db ++ ts /\
      (ds_rows d1 = ds_rows (w_dest w) /\ ds_seq d1 = ds_seq (w_dest w) /\ ds_tables d1 = db ++ ts /\
       replay (en_dflt E) d1 (map EvDelete done_) d2 /\ replay (en_dflt E) d2 tw (w_dest w')) /\
      ~ (map EvDelete done_ ++ tw <> [] \/ (exists g', r = Ok g'))).
    { intros [Hr Hw]. destruct (Hstop Hw Hr) as (dn & tw & d1 & d2 & A & B & C & D & -> & ->). exists [], [], d1, d2. split; [exact A|]. split; [exact B|]. split; [exact C|]. split; [exact D|].
      cbn. intros [F|(g' & F)]; [now elim F|]. destruct Hr as (e & Hr). congruence. }
    clear Hstop. exists ts.
    destruct H as [H|(order & Ho & H)].
    { destruct (Hstop' H) as (dn & tw & d1 & d2 & A & B & C & D & F). exists dn, tw, d1, d2, o1. repeat (split; [assumption|]). split; [intros _; exact Hpre'|]. intros Hx; elim (F Hx). }
    destruct H as [H|(del & l1 & l2 & w2 & Hdel & Hde & Ht2 & Hrep2 & H)].
    { destruct (Hstop' H) as (dn & tw & d1 & d2 & A & B & C & D & F). exists dn, tw, d1, d2, o1. repeat (split; [assumption|]). split; [intros _; exact Hpre'|]. intros Hx; elim (F Hx). }
    assert (Hacyc : forall n, affected (en_resub E) rules (db ++ ts) queries n -> ~ on_cycle (references (db ++ ts)) n).
    { intros n Hn Hcy. unfold db_insert_order in Ho. apply bind_Ok in Ho. destruct Ho as (l & Ho & _).
      assert (Hx : meta_toposort (en_ord_str E) (ou_meta o1) = Err MtValueError).
      { apply (mtopo_cycle (ro_order Hok) (tk_meta Hk) (tk_dots Hk)). exists n.
        assert (Hgen : forall a b, path (references (db ++ ts)) a b -> affected (en_resub E) rules (db ++ ts) queries b -> 
          path (fk_edge (ou_meta o1)) a b /\ affected (en_resub E) rules (db ++ ts) queries a).
        { intros a b Hp. induction Hp as [a b Hab|a b d _ IH1 _ IH2]; intros Hb.
          - assert (Ha : affected (en_resub E) rules (db ++ ts) queries a).
            { destruct Hb as (n' & T & X & P). exists n'. split; [exact T|]. split; [exact X|]. eapply rt_trans; [exact P|]. apply rt_step. exact Hab. }
            split; [|exact Ha]. apply t_step. apply (tracked_edge a b Hk). split; [exact Hab|]. split; apply (tk_keys Hk); assumption.
          - destruct (IH2 Hb) as [P2 A2]. destruct (IH1 A2) as [P1 A1]. split; [eapply t_trans; eassumption|exact A1]. }
        exact (proj1 (Hgen n n Hcy Hn)). }
      rewrite Hx in Ho. discriminate. }
    destruct (order_spec (ro_order Hok) Hk Ho) as (Hnd & Hin & Hbef & Hinj).
    assert (Hd2 : ds_tables (w_dest w2) = db ++ ts).
    { rewrite (replay_tables Hrep2); [exact Hd1|]. intros ts' Hi. apply in_map_iff in Hi. destruct Hi as (n & F & _). discriminate. }
    destruct H as [[(e & ->) ->]|(-> & o2 & compact & st & l & g' & tw & Hprep & Hcomp & Hcp & Htw & Htrs & Hprog & Hkeys & Hall)].
    + exists l1, [], (w_dest w1), (w_dest w2), o1. rewrite app_nil_r. split; [rewrite Ht2, Ht1; destruct Htc as [[-> ->]| ->]; [left|right]; cbn; [split|]; reflexivity|]. split; [constructor|].
      split; [exact Hd2|]. split; [split; [exact Hr1|split; [exact Hq1|split; [exact Hd1|split; [exact Hrep2|constructor]]]]|].
      split; [exact Hts|]. split; [intros _; exact Hpre'|]. intros _. split; [exact Hacyc|]. exists del, l2. split; [exact Hdel|]. split; [exact Hde|].
      intros [F|(g' & F)]; [now elim F|discriminate].
    + rewrite app_nil_r in Hdel. subst l1.
      destruct (copy_extends Hcp) as (tw' & Htw' & Htwr). rewrite Htw in Htw'. apply app_inv_head in Htw'. subst tw'.
      assert (Hi := progress_inserting Hprog).
      assert (Hd3 : ds_tables (w_dest w') = db ++ ts) by (rewrite (replay_tables Htwr); [exact Hd2|exact (inserting_no_create Hi)]).
      exists del, tw, (w_dest w1), (w_dest w2), o1. split; [rewrite Htw, Ht2, Ht1, <- app_assoc; destruct Htc as [[-> ->]| ->]; [left|right]; cbn; [split|]; reflexivity|].
      split; [exact Hi|]. split; [exact Hd3|].
      split; [split; [exact Hr1|split; [exact Hq1|split; [exact Hd1|split; [exact Hrep2|exact Htwr]]]]|].
      split; [exact Hts|]. split; [intros _; exact Hpre'|]. intros _. split; [exact Hacyc|]. exists del, []. split; [now rewrite app_nil_r|]. split; [exact Hde|].
      intros _. split; [reflexivity|]. split; [exact Hk|].
      assert (Hat : forall t n', at_dest (en_resub E) c queries o1 t n' <-> In t queries /\ to t n' /\ exists tb, table_of (db ++ ts) n' tb).
      { intros t n'. split.
        - intros (Hq & Hkk & Hn). split; [exact Hq|]. split; [exact Hn|]. destruct (key_dget Hkk) as (m & Hm). apply dget_In in Hm. destruct (tk_tables Hk Hm) as [T _]. eauto.
        - intros (Hq & (n & Hn & Hg) & Ht). split; [exact Hq|]. split; [|exists n; split; assumption]. apply (tk_keys Hk). exists n'. split; [exists t, n; auto|]. split; [exact Ht|apply rt_refl]. }
      assert (Hins : insertion E c p (db ++ ts) order).
      { split; [exact Hnd|]. split.
        - intros t. rewrite Hin. split; [intros (n' & Ha); apply Hat in Ha; destruct Ha as (A & B & (tb & C)); eauto|].
          intros (A & n' & tb & B & C). exists n'. apply Hat. eauto.
        - intros a b na nb Ha Hb Hna Hnb Href. apply Hin in Ha, Hb. destruct Ha as (na' & Ha), Hb as (nb' & Hb).
          assert (na' = na) by (apply Hat in Ha; destruct Ha as (_ & L & _); exact (lands_fun L Hna)).
          assert (nb' = nb) by (apply Hat in Hb; destruct Hb as (_ & L & _); exact (lands_fun L Hnb)). subst. exact (Hbef _ _ _ _ Ha Hb Href). }
      assert (Hndl : NoDup (map fst l)).
      { destruct (transfers_names Htrs) as (ts1 & (ts2 & Hts12) & _ & HF).
        assert (Hnd1 : NoDup ts1) by (rewrite Hts12 in Hnd; apply NoDup_app_iff in Hnd; apply Hnd).
        assert (Hin1 : forall t, In t ts1 -> exists n', at_dest (en_resub E) c queries o1 t n') by (intros t Ht; apply Hin; rewrite Hts12; apply in_or_app; now left).
        clear - HF Hnd1 Hin1 Hinj Hat. induction HF as [|t x ts1 l Htx HF IH]; [constructor|]. cbn. inversion Hnd1 as [|? ? Hni Hnd2]; subst. constructor.
        - intros Hx. apply in_map_iff in Hx. destruct Hx as (y & Ey & Hy). destruct (Forall2_In_r HF Hy) as (t' & Ht' & Hl'). rewrite Ey in Hl'.
          destruct (Hin1 t (or_introl eq_refl)) as (na & Ha). destruct (Hin1 t' (or_intror Ht')) as (nb & Hb). 
          assert (na = fst x) by (apply Hat in Ha; destruct Ha as (_ & L & _); exact (lands_fun L Htx)).
          assert (nb = fst x) by (apply Hat in Hb; destruct Hb as (_ & L & _); exact (lands_fun L Hl')). subst. rewrite (Hinj _ _ _ Ha Hb) in Hni. contradiction.
        - apply IH; [exact Hnd2|]. intros t' Ht'. apply Hin1. now right. }
      exists order, l, ms, compact, st, mults, o2. split; [exact Hins|]. split; [exact Hprep|]. split.
      { intros Hm. unfold db_prepare in Hprep. rewrite Hm in Hprep. cbn in Hprep. injection Hprep as <-. exact Hoff. }
      split; [split; [exact Hcomp|exists g'; exact Htrs]|].
      split; [exact Hndl|]. split; [exact Hprog|]. intros g1 Hr n rows Hi'. exact (proj2 (Hall g1 Hr) n rows Hi' Hndl).
Qed.

Lemma deletes_batches del n : batches (map EvDelete del) n = [].
Proof. induction del as [|m del IH]; [reflexivity|exact IH]. Qed.
Lemma prefix_batches ts done_ tw tr tr0 : (tr = map EvDelete done_ ++ tw /\ ts = [] \/ tr = EvCreate ts :: map EvDelete done_ ++ tw) ->
  initial_part tr0 tr -> exists tr1, initial_part tr1 tw /\ forall n, batches tr0 n = batches tr1 n.
Proof.
  assert (Hd : initial_part tr0 (map EvDelete done_ ++ tw) -> exists tr1, initial_part tr1 tw /\ forall n, batches tr0 n = batches tr1 n).
  { intros Hi. destruct (initial_app Hi) as [Hi'|(tr' & -> & Hi')].
    - apply initial_map in Hi'. destruct Hi' as (l1 & _ & ->). exists []. split; [exists tw; reflexivity|]. intros n. apply deletes_batches.
    - exists tr'. split; [exact Hi'|]. intros n. rewrite batches_app, deletes_batches. reflexivity. }
  intros [[-> _]| ->]; [exact Hd|]. intros (k & Hk). destruct tr0 as [|e tr0]; [exists []; split; [exists tw; reflexivity|reflexivity]|].
  cbn in Hk. injection Hk as <- Hk. clear Hd.
  assert (Hi : initial_part tr0 (map EvDelete done_ ++ tw)) by (exists k; exact Hk).
  destruct (initial_app Hi) as [Hi'|(tr' & -> & Hi')].
  - apply initial_map in Hi'. destruct Hi' as (l1 & _ & ->). exists []. split; [exists tw; reflexivity|]. intros n. exact (deletes_batches l1 n).
  - exists tr'. split; [exact Hi'|]. intros n. change (batches (map EvDelete done_ ++ tr') n = batches tr' n). rewrite batches_app, deletes_batches. reflexivity.
Qed.

(** C49 *)
Theorem crash_prefix truncate create g w' r : sample E cfg p truncate create g w = (w', r) ->
  exists samples, NoDup (map fst samples) /\
    (samples = [] \/ exists order, insertion E c p (ds_tables (w_dest w')) order /\ sampling E cfg c p (succeeded r) g order samples) /\
    forall tr, initial_part tr (trace w') ->
      (forall n, ~ In n (map fst samples) -> batches tr n = []) /\
      (forall n, Forall (fun b => b <> [] /\ length b <= S (en_buffer E)) (batches tr n)) /\
      exists done_ rest, samples = done_ ++ rest /\ (forall n rows, In (n, rows) done_ -> written tr n = rows) /\
        match rest with
        | [] => True
        | (n, rows) :: later => initial_part (written tr n) rows /\ forall n', In n' (map fst later) -> written tr n' = []
        end.
Proof.
  intros Hs. destruct (run_trace Hs) as (ts & dn & tw & d1 & d2 & o1 & Htr & Hi & Hdb & _ & _ & _ & Hrest).
  assert (Hnone : tw = [] -> exists samples : list (tname * list row), NoDup (map fst samples) /\
    (samples = [] \/ exists order, insertion E c p (ds_tables (w_dest w')) order /\ sampling E cfg c p (succeeded r) g order samples) /\
    forall tr, initial_part tr (trace w') ->
      (forall n, ~ In n (map fst samples) -> batches tr n = []) /\
      (forall n, Forall (fun b => b <> [] /\ length b <= S (en_buffer E)) (batches tr n)) /\
      exists done_ rest, samples = done_ ++ rest /\ (forall n rows, In (n, rows) done_ -> written tr n = rows) /\
        match rest with
        | [] => True
        | (n, rows) :: later => initial_part (written tr n) rows /\ forall n', In n' (map fst later) -> written tr n' = []
        end).
  { intros ->. exists []. split; [constructor|]. split; [now left|]. intros tr Hp. destruct (prefix_batches Htr Hp) as (tr1 & (k & Hk) & Hb).
    destruct tr1; [|discriminate]. assert (Hb' : forall n, batches tr n = []) by (intros n; rewrite Hb; reflexivity).
    split; [intros n _; apply Hb'|]. split; [intros n; rewrite Hb'; constructor|]. exists [], []. split; [reflexivity|]. split; [intros n rows []|exact I]. }
  destruct tw as [|e tw]; [apply Hnone; reflexivity|]. clear Hnone.
  assert (Hne : map EvDelete dn ++ e :: tw <> []) by (destruct dn; discriminate).
  destruct (Hrest (or_introl Hne)) as (_ & del & l2 & _ & _ & H2). assert (Hne2 : e :: tw <> []) by discriminate. destruct (H2 (or_introl Hne2)) as (_ & _ & order & samples & ms & compact & st & mults & o2 & Hins & _ & Hof & Hsam0 & Hnd & Hprog & _).
  assert (Hsam : sampling E cfg c p (succeeded r) g order samples) by (exists ms, compact, st, mults, (ou_offsets o2); split; assumption).
  exists samples. split; [exact Hnd|]. split; [right; exists order; rewrite Hdb; split; assumption|]. intros tr Hp.
  destruct (prefix_batches Htr Hp) as (tr1 & Hp1 & Hb).
  destruct (progress_written (progress_prefix Hprog Hp1) Hnd) as (A & B & dn' & rest & Hdr & C & D).
  split; [intros n Hn; rewrite Hb; exact (B n Hn)|]. split; [intros n; rewrite Hb; apply A|]. exists dn', rest. split; [exact Hdr|].
  split; [intros n rows Hr; unfold written; rewrite Hb; exact (C n rows Hr)|]. destruct rest as [|[n rows] later]; [exact I|]. destruct D as [D1 D2].
  split; [unfold written; rewrite Hb; exact D1|]. intros n' Hn'. apply in_map_iff in Hn'. destruct Hn' as ([n2 rows'] & En & Hn'). cbn in En. subst n2.
  unfold written. rewrite Hb, (D2 n' rows' Hn'). reflexivity.
Qed.

(** C48 *)
Theorem rows_written truncate create g w' g' : sample E cfg p truncate create g w = (w', Ok g') ->
  exists order samples, insertion E c p (ds_tables (w_dest w')) order /\ sampling E cfg c p true g order samples /\ NoDup (map fst samples) /\
    (forall n rows, In (n, rows) samples -> concat (batches (trace w') n) = rows) /\
    (forall n, ~ In n (map fst samples) -> batches (trace w') n = []) /\
    (forall n, Forall (fun b => b <> [] /\ length b <= S (en_buffer E)) (batches (trace w') n)).
Proof.
  intros Hs. destruct (run_trace Hs) as (ts & dn & tw & d1 & d2 & o1 & Htr & Hi & Hdb & _ & _ & _ & Hrest).
  destruct (Hrest (or_intror (ex_intro _ g' eq_refl))) as (_ & del & l2 & _ & _ & H2).
  destruct (H2 (or_intror (ex_intro _ g' eq_refl))) as (_ & _ & order & samples & ms & compact & st & mults & o2 & Hins & _ & Hof & Hsam0 & Hnd & Hprog & Hall).
  assert (Hsam : sampling E cfg c p true g order samples) by (exists ms, compact, st, mults, (ou_offsets o2); split; assumption).
  assert (Hb : forall n, batches (trace w') n = batches tw n).
  { intros n. destruct Htr as [[-> _]| ->]; [|change (batches (map EvDelete dn ++ tw) n = batches tw n)]; rewrite batches_app, deletes_batches; reflexivity. }
  destruct (progress_written Hprog Hnd) as (A & B & _).
  exists order, samples. split; [rewrite Hdb; exact Hins|]. split; [exact Hsam|]. split; [exact Hnd|].
  split; [intros n rows Hin; rewrite Hb; exact (Hall g' eq_refl n rows Hin)|]. split; intros n; rewrite Hb; auto.
Qed.

(** C50 *)
Lemma samples_before db1 order samples whole g na ra nb rb : NoDup (map fst samples) ->
  insertion E c p db1 order -> sampling E cfg c p whole g order samples ->
  In (na, ra) samples -> In (nb, rb) samples -> references db1 na nb -> before samples (nb, rb) (na, ra).
Proof.
  intros Hnd (Hno & Hin & Hbef) (ms & compact & st & mults & offs & _ & _ & g' & Htrs) Ha Hb Href.
  destruct (transfers_names Htrs) as (ts1 & (ts2 & Hts) & _ & HF).
  destruct (Forall2_In_r HF Ha) as (a & Hia & La). destruct (Forall2_In_r HF Hb) as (b & Hib & Lb). cbn [fst] in La, Lb.
  assert (Ho : before order b a).
  { apply (Hbef a b na nb); try assumption; rewrite Hts; apply in_or_app; now left. }
  rewrite Hts in Ho, Hno. apply NoDup_app_iff in Hno. destruct Hno as (_ & _ & Hdis).
  assert (Ho1 : before ts1 b a).
  { apply before_app_inv in Ho. destruct Ho as [Ho|[[_ Ho]|Ho]]; [exact Ho|elim (Hdis a Hia Ho)|].
    elim (Hdis a Hia (before_In_r Ho)). }
  destruct (Forall2_before HF Ho1) as ([nb' rb'] & [na' ra'] & Hbe & Lb' & La'). cbn [fst] in *.
  pose proof (lands_fun Lb' Lb). pose proof (lands_fun La' La). subst.
  assert (E1 : (nb, rb') = (nb, rb)) by (apply (NoDup_map_same Hnd); [exact (before_In_l Hbe)|exact Hb|reflexivity]).
  assert (E2 : (na, ra') = (na, ra)) by (apply (NoDup_map_same Hnd); [exact (before_In_r Hbe)|exact Ha|reflexivity]).
  rewrite <- E1, <- E2. exact Hbe.
Qed.
Theorem crash_consistent truncate create g w' r : sample E cfg p truncate create g w = (w', r) ->
  exists order samples, (samples = [] \/ insertion E c p (ds_tables (w_dest w')) order /\ sampling E cfg c p (succeeded r) g order samples) /\
    (forall n, ~ In n (map fst samples) -> written (trace w') n = []) /\
    forall tr, initial_part tr (trace w') -> forall na ra nb rb fk t,
      In (na, ra) samples -> In (nb, rb) samples -> table_of (ds_tables (w_dest w')) na t -> In fk (tb_fks t) -> fk_dst fk = nb ->
      fk_holds (en_cmp E) fk ra rb -> fk_holds (en_cmp E) fk (written tr na) (written tr nb).
Proof.
  intros Hs. destruct (crash_prefix Hs) as (samples & Hnd & Hsam & Hpre).
  assert (Hone : exists order, samples = [] \/ insertion E c p (ds_tables (w_dest w')) order /\ sampling E cfg c p (succeeded r) g order samples).
  { destruct Hsam as [->|(order & Hsam)]; [exists []; now left|exists order; now right]. }
  destruct Hone as (order & Hone). exists order, samples. split; [exact Hone|].
  split; [intros n Hn; unfold written; rewrite (proj1 (Hpre _ (initial_refl _)) n Hn); reflexivity|].
  intros tr Hp na ra nb rb fk t Ha Hb Ht Hfk Hdst Hh.
  destruct Hone as [->|[Hins Hsa]]; [elim Ha|].
  assert (Hbe : before samples (nb, rb) (na, ra)). { apply (samples_before Hnd Hins Hsa Ha Hb). exists t, fk. auto. }
  destruct (Hpre tr Hp) as (_ & _ & dn & rest & -> & Hdone & Hrest).
  assert (Hgoal : In (nb, rb) dn -> initial_part (written tr na) ra -> fk_holds (en_cmp E) fk (written tr na) (written tr nb)).
  { intros Hd (k & Hk) x Hx Hnn. rewrite (Hdone _ _ Hd). apply Hh; [rewrite Hk; apply in_or_app; now left|exact Hnn]. }
  apply before_app_inv in Hbe. destruct Hbe as [Hbe|[[Hi1 Hi2]|Hbe]].
  - apply Hgoal; [exact (before_In_l Hbe)|]. rewrite (Hdone _ _ (before_In_r Hbe)). apply initial_refl.
  - destruct rest as [|[n rows] later]; [elim Hi2|]. destruct Hrest as [Hpr Hl]. destruct Hi2 as [Eq|Hi2].
    + injection Eq as -> ->. exact (Hgoal Hi1 Hpr).
    + rewrite (Hl na); [intros x []|]. apply in_map_iff. exists (na, ra). split; [reflexivity|exact Hi2].
  - assert (Hlater : forall n rows later, rest = (n, rows) :: later -> In (na, ra) later).
    { intros n rows later ->. apply before_cons_inv in Hbe. destruct Hbe as [[_ Hin]|Hbe]; [exact Hin|exact (before_In_r Hbe)]. }
    destruct rest as [|[n rows] later]; [destruct Hbe as (l1 & l2 & l3 & F); destruct l1; discriminate|]. destruct Hrest as [_ Hl].
    rewrite (Hl na); [intros x []|]. apply in_map_iff. exists (na, ra). split; [reflexivity|exact (Hlater _ _ _ eq_refl)].
Qed.

(** C51 *)
Lemma replay_creates tr : forall d d', replay (en_dflt E) d tr d' -> (forall e, In e tr -> exists ts, e = EvCreate ts) ->
  ds_rows d' = ds_rows d /\ ds_seq d' = ds_seq d.
Proof.
  induction tr as [|e tr IH]; intros d d' H Hc; inversion H as [|? ? d1 ? ? Hx Hr]; subst; [split; reflexivity|].
  destruct (Hc e (or_introl eq_refl)) as (ts & ->). cbn in Hx. injection Hx as <-. destruct (IH _ _ Hr) as [A B]; [intros e He; apply Hc; now right|]. split; assumption.
Qed.
Theorem truncation truncate create g w' r : sample E cfg p truncate create g w = (w', r) ->
  exists created del after_ d, trace w' = created ++ map EvDelete del ++ after_ /\
    (forall e, In e created -> exists ts, e = EvCreate ts) /\ (forall e, In e after_ -> (forall ts, e <> EvCreate ts) /\ (forall n, e <> EvDelete n)) /\
    NoDup del /\ (truncate = false -> del = []) /\
    (forall n, In n del -> affected (en_resub E) rules (ds_tables (w_dest w')) queries n) /\
    (truncate = true -> after_ <> [] \/ (exists g', r = Ok g') -> forall n, affected (en_resub E) rules (ds_tables (w_dest w')) queries n -> In n del) /\
    (forall a b, references (ds_tables (w_dest w')) a b -> In b del -> before del a b) /\
    replay (en_dflt E) (w_dest w) (created ++ map EvDelete del) d /\
    (forall n, In n del -> rows_of d n = []) /\ (forall n, ~ In n del -> rows_of d n = rows_of (w_dest w) n).
Proof.
  intros Hs. assert (Hx := sample_extends Hs). rewrite Hnil in Hx. cbn in Hx. destruct Hx as (tr & Htr & Hrep). rewrite <- Htr in Hrep. clear tr Htr.
  destruct (run_trace Hs) as (ts & dn & tw & d1 & d2 & o1 & Htr & Hi & Hdb & _ & _ & _ & Hrest).
  assert (Hc : exists created, trace w' = created ++ map EvDelete dn ++ tw /\ forall e, In e created -> exists ts, e = EvCreate ts).
  { destruct Htr as [[Htr _]|Htr]; [exists []; split; [exact Htr|intros e []]|]. exists [EvCreate ts]. split; [exact Htr|]. intros e [<-|[]]. eauto. }
  destruct Hc as (created & Htc & Hc). exists created, dn, tw. rewrite Htc, app_assoc in Hrep. apply replay_inv_app in Hrep. destruct Hrep as (d & Hr1 & Hr2). exists d.
  split; [exact Htc|]. split; [exact Hc|].
  split. { intros e He. rewrite Forall_forall in Hi. specialize (Hi e He). split; [intros ts' ->; exact Hi|intros n ->; exact Hi]. }
  assert (Hrows : (forall n, In n dn -> rows_of d n = []) /\ (forall n, ~ In n dn -> rows_of d n = rows_of (w_dest w) n)).
  { destruct (replay_inv_app Hr1) as (d3 & Ra & Rb). destruct (replay_creates Ra Hc) as [A _]. destruct (replay_deletes Rb) as (B & C & _). split; [exact B|].
    intros n Hn. rewrite (C n Hn). unfold rows_of. now rewrite A. }
  destruct dn as [|n0 dn].
  - split; [constructor|]. split; [reflexivity|]. split; [intros n []|]. split; [|split; [intros a b _ []|split; [exact Hr1|exact Hrows]]].
    intros -> Hor n Hn. rewrite Hdb in Hn. destruct Hrest as (_ & del & l2 & Hd & (_ & Hde & _) & Hl); [destruct Hor as [Hne|Hok']; [left; exact Hne|right; exact Hok']|].
    destruct (Hl Hor) as (-> & _). cbn in Hd. subst del. apply Hde. exact Hn.
  - assert (Hne : map EvDelete (n0 :: dn) ++ tw <> []) by discriminate. destruct (Hrest (or_introl Hne)) as (Hac & del & l2 & Hd & Hde & Hl). clear Hrest Hne.
    destruct truncate; cbn [deletes] in Hde; [|rewrite Hde in Hd; discriminate]. destruct Hde as (Hnd & Hmem & Hbef).
    assert (Hnd' : NoDup (n0 :: dn)) by (rewrite Hd in Hnd; apply NoDup_app_iff in Hnd; apply Hnd).
    split; [exact Hnd'|]. split; [discriminate|]. rewrite Hdb.
    assert (Haff : forall n, In n (n0 :: dn) -> affected (en_resub E) rules (db ++ ts) queries n) by (intros n Hn; apply Hmem; rewrite Hd; apply in_or_app; now left).
    split; [exact Haff|]. split. { intros _ Hor n Hn. destruct (Hl Hor) as (-> & _). rewrite app_nil_r in Hd. rewrite <- Hd. apply Hmem. exact Hn. }
    split; [|split; [exact Hr1|exact Hrows]].
    intros a b Hab Hb. assert (Ha : affected (en_resub E) rules (db ++ ts) queries a).
    { destruct (Haff b Hb) as (n' & T & X & P). exists n'. split; [exact T|]. split; [exact X|]. eapply rt_trans; [exact P|]. apply rt_step. exact Hab. }
    apply Hmem in Ha. assert (Hb' : In b del) by (rewrite Hd; apply in_or_app; now left). specialize (Hbef a b Hab Ha Hb'). rewrite Hd in Hbef, Hnd.
    apply before_app_inv in Hbef. destruct Hbef as [H|[[_ H]|H]]; [exact H| |]; exfalso; apply NoDup_app_iff in Hnd; destruct Hnd as (_ & _ & Hdis).
    + exact (Hdis b Hb H).
    + exact (Hdis b Hb (before_In_r H)).
Qed.

(** C60 *)
(** What validation of the filters establishes. *)
Definition filters_valid (ms : meta) : Prop := forall t fs, In (t, fs) (sc_filters cfg) -> fs <> [] -> exists n, named t n /\
  forall m, dget ms n = Some m -> exists chain out, construct_chain (fe_load_plugin (en_filters E)) fs (tb_cols (tm_table m)) = Ok (chain, out).
Lemma validate_valid ms : validate_filters (fe_load_plugin (en_filters E)) (sc_filters cfg) ms = Ok tt -> filters_valid ms.
Proof.
  unfold validate_filters, filters_valid. induction (sc_filters cfg) as [|[t0 fs0] l IH]; intros H t fs Hin Hne; [destruct Hin|].
  cbn [forM] in H. apply bind_Ok in H. destruct H as ([] & H1 & H2). destruct Hin as [E0|Hin]; [|exact (IH H2 t fs Hin Hne)].
  injection E0 as -> ->. cbn [fst snd] in H1. destruct fs as [|f0 fs]; [elim Hne; reflexivity|]. cbn [is_nil] in H1. apply bind_Ok in H1. destruct H1 as (n & Hn & H1).
  exists n. split. { unfold parse_name in Hn. destruct (parse_table_name t) eqn:Ep; inversion Hn; subst. apply parse_named. exact Ep. }
  intros m Hm. rewrite Hm in H1. apply bind_Ok in H1. destruct H1 as ([chain out] & H1 & _). exists chain, out.
  destruct (construct_chain _ _ _) as [x|x]; cbn in H1; [injection H1 as ->; reflexivity|discriminate].
Qed.
Theorem validation_first truncate create g w' r : sample E cfg p truncate create g w = (w', r) ->
  (exists e, In e (trace w') /\ forall ts, e <> EvCreate ts) \/ (exists g', r = Ok g') ->
  exists ms mults, sampler_meta (en_fnm E) (en_source_schema E) (p_queries p) (sc_infer cfg) = Ok ms /\
    filters_valid ms /\
    get_multiplied_columns (sc_multiplicity cfg) ms (en_src_int E) (en_ord_str E) p = Ok mults /\
    (forall t, In t queries -> exists n', to t n') /\
    (forall t t' n', In t queries -> In t' queries -> to t n' -> to t' n' -> t = t') /\
    (forall n, affected (en_resub E) rules (ds_tables (w_dest w')) queries n -> ~ on_cycle (references (ds_tables (w_dest w'))) n).
Proof.
  intros Hs Hor. destruct (run_trace Hs) as (ts & dn & tw & d1 & d2 & o1 & Htr & Hi & Hdb & _ & _ & Hpre & Hrest).
  assert (Hne : map EvDelete dn ++ tw <> [] \/ exists g', r = Ok g').
  { destruct Hor as [(e & Hin & Hnc)|Hor]; [|now right]. left. intros F. destruct Htr as [[Htr _]|Htr]; rewrite Htr, F in Hin; [elim Hin|]. destruct Hin as [<-|[]]. exact (Hnc ts eq_refl). }
  assert (Hne' : trace w' <> [] \/ exists g', r = Ok g').
  { destruct Hne as [Hne|Hne]; [|now right]. left. destruct Htr as [[-> _]| ->]; [exact Hne|discriminate]. }
  destruct (Hpre Hne') as (ms & mults & A & B & C & (o & Ho) & _). destruct (Hrest Hne) as (D & _). exists ms, mults.
  split; [exact A|]. split; [exact (validate_valid B)|]. split; [exact C|]. rewrite Hdb. unfold db_init in Ho. apply bind_Ok in Ho. destruct Ho as (rm & Hrm & _).
  destruct (remap_spec Hrm) as (_ & Hiff). split; [|split; [|exact D]].
  - assert (Hrm2 : forM (remap_step (en_resub E) c) queries [] = Ok rm) by exact Hrm.
    destruct (remap_loop Hrm2 ltac:(constructor)) as (_ & _ & _ & Hex). intros t Ht. destruct (Hex t Ht) as (k & (n & n' & Hn & Hg & _) & _). exists n', n. split; assumption.
  - intros t t' n' Ht Ht' (n & Hn & Hg) (n2 & Hn2 & Hg2).
    assert (E1 : dget rm (render n') = Some t) by (apply Hiff; split; [exact Ht|exists n, n'; auto]).
    assert (E2 : dget rm (render n') = Some t') by (apply Hiff; split; [exact Ht'|exists n2, n'; auto]). congruence.
Qed.
Theorem nothing_destroyed truncate create g w' r : sample E cfg p truncate create g w = (w', r) ->
  (forall e, In e (trace w') -> exists ts, e = EvCreate ts) ->
  (forall n, rows_of (w_dest w') n = rows_of (w_dest w) n) /\ ds_seq (w_dest w') = ds_seq (w_dest w).
Proof.
  intros Hs Hc. assert (Hx := sample_extends Hs). rewrite Hnil in Hx. cbn in Hx. destruct Hx as (tr & Ht & Hrep). rewrite <- Ht in Hrep. destruct (replay_creates Hrep Hc) as [A B]. split; [|exact B].
  intros n. unfold rows_of. now rewrite A.
Qed.

(** C53 *)
Theorem all_sampled truncate create g w' g' : sample E cfg p truncate create g w = (w', Ok g') ->
  create = true \/ (forall t n', In t queries -> to t n' -> exists tb, table_of db n' tb) ->
  exists order samples, (forall t, In t order <-> In t queries) /\ NoDup order /\ sampling E cfg c p true g order samples /\
    Forall2 (fun t x => to t (fst x)) order samples /\ NoDup (map fst samples) /\
    (forall n rows, In (n, rows) samples -> written (trace w') n = rows).
Proof.
  intros Hs Hcr. destruct (rows_written Hs) as (order & samples & (Hno & Hin & Hbef) & Hsa & Hnd & Hw & _).
  destruct (validation_first Hs (or_intror (ex_intro _ g' eq_refl))) as (ms & mults & _ & _ & _ & Hl & _ & _).
  exists order, samples. split; [|split; [exact Hno|split; [exact Hsa|split; [|split; [exact Hnd|exact Hw]]]]].
  - intros t. rewrite Hin. split; [intros [Ht _]; exact Ht|]. intros Ht. split; [exact Ht|]. destruct (Hl t Ht) as (n' & Hn'). exists n'.
    destruct (run_trace Hs) as (ts & dn & tw & d1 & d2 & o1 & _ & _ & Hdb & _ & _ & Hpre & _). rewrite Hdb.
    destruct (Hpre (or_intror (ex_intro _ g' eq_refl))) as (_ & _ & _ & _ & _ & _ & (_ & Hcre & _)).
    assert (Hex : (exists tb, table_of db n' tb) \/ create = true).
    { destruct Hcr as [->|Hcr]; [now right|left; exact (Hcr t n' Ht Hn')]. }
    assert (Hdec : (exists tb, table_of db n' tb) \/ ~ exists tb, table_of db n' tb).
    { destruct (in_dec (@eq_dec _ _) n' (map tb_name db)) as [Hi|Hi].
      - left. apply in_map_iff in Hi. destruct Hi as (tb & Hn & Hi). exists tb. split; assumption.
      - right. intros (tb & Htb & Hn). apply Hi. apply in_map_iff. eauto. }
    destruct Hdec as [(tb & Htb & Hn)|Hno']; [exists tb; split; [exact Hn'|split; [apply in_or_app; now left|exact Hn]]|].
    destruct Hex as [Hex|Hct]; [contradiction|].
    assert (Hi : In n' (map tb_name ts)). { apply Hcre. split; [exact Hct|]. split; [|exact Hno']. destruct Hn' as (n & Hnn & Hg). exists t, n. auto. }
    apply in_map_iff in Hi. destruct Hi as (tb & Hn & Hi). exists tb. split; [exact Hn'|split; [apply in_or_app; now right|exact Hn]].
  - destruct Hsa as (ms' & compact & st & mults' & offs & _ & _ & g1 & Htrs). destruct (transfers_names Htrs) as (ts1 & _ & Heq & HF). rewrite (Heq eq_refl) in HF. exact HF.
Qed.
End Run.
End Main.
