From Coq Require Import Lia Relations.
From Verif Require Import Model.Base Model.Value Model.Names Model.PlanModel Model.Metadata Model.Filters Model.Multiply Model.Materialize Model.Dest Model.Output Model.Sampler.
From Verif Require Import Spec.GraphSpec Spec.SchemaSpec Spec.PlannerSpec Spec.FilterSpec Spec.OutputSpec Spec.RunSpec Spec.ConflictSpec.
From Verif Require Import Proofs.BaseFacts Proofs.NameFacts Proofs.MetadataFacts Proofs.PlanRun Proofs.OutputDb Proofs.OutputCreate Proofs.OutputRun Proofs.OutputCopy Proofs.OutputSample Proofs.OutputMain
  Proofs.OutputEvents Proofs.ConflictFacts.
Set Implicit Arguments.
Unset Strict Implicit.
Open Scope list_scope.

Lemma find_table_of db n tb : NoDup (map tb_name db) -> table_of db n tb -> find_table db n = Some tb.
Proof.
  intros Hnd (Hi & Hn). unfold find_table. induction db as [|t db IH]; [destruct Hi|]. cbn [find]. cbn [map] in Hnd. inversion Hnd as [|? ? Hni Hnd']; subst.
  destruct Hi as [->|Hi]; [now rewrite eqb_refl|]. destruct (eqb (tb_name t) (tb_name tb)) eqn:Ee; [|exact (IH Hnd' Hi)].
  apply (proj1 (eqb_true _ _)) in Ee. exfalso. apply Hni. rewrite Ee. now apply in_map.
Qed.
Lemma insert_rows_app dflt t how : forall l1 l2 rows, insert_rows dflt t how rows (l1 ++ l2) =
  match insert_rows dflt t how rows l1 with Some l => insert_rows dflt t how l l2 | None => None end.
Proof.
  induction l1 as [|r l1 IH]; intros l2 rows; [reflexivity|]. cbn [insert_rows app]. destruct (insert_row t how rows (complete dflt t rows r)) as [l|]; [apply IH|reflexivity].
Qed.
(** The rows of a table after a list of INSERTs of the same form. *)
Lemma replay_rows dflt n tb how : forall tr d d', replay dflt d tr d' -> Forall inserting tr -> find_table (ds_tables d) n = Some tb ->
  (forall how' rows, In (EvInsert n how' rows) tr -> how' = how) ->
  insert_rows dflt tb how (rows_of d n) (written tr n) = Some (rows_of d' n).
Proof.
  induction tr as [|e tr IH]; intros d d' H Hi Hf Hh; inversion H as [|? ? d1 ? ? Hx Hr]; subst; [reflexivity|].
  inversion Hi as [|? ? He Hi']; subst.
  assert (Htb : find_table (ds_tables d1) n = Some tb).
  { destruct e as [ts|n0|n0 how0 rows|n0 z|pa|pa r0]; cbn in He; try contradiction; [cbn [exec] in Hx|].
    - destruct (find_table (ds_tables d) n0) as [t|]; [|discriminate]. destruct (insert_rows dflt t how0 (rows_of d n0) rows); [|discriminate]. injection Hx as <-. exact Hf.
    - rewrite (proj1 (setval_same Hx)). exact Hf. }
  specialize (IH d1 d' Hr Hi' Htb (fun h rows Hin => Hh h rows (or_intror Hin))).
  unfold written, batches in *. cbn [flat_map]. destruct e as [ts|n0|n0 how0 rows|n0 z|pa|pa r0]; cbn in He; try contradiction; [cbn [exec] in Hx|].
  - destruct (eq_dec n0 n) as [->|Hne].
    + rewrite Hf in Hx. assert (how0 = how) by (exact (Hh how0 rows (or_introl eq_refl))). subst how0.
      destruct (insert_rows dflt tb how (rows_of d n) rows) as [l|] eqn:El; [|discriminate]. injection Hx as <-. cbn [app concat]. rewrite insert_rows_app, El.
      rewrite rows_with_same in IH. exact IH.
    + destruct (find_table (ds_tables d) n0) as [t|]; [|discriminate]. destruct (insert_rows dflt t how0 (rows_of d n0) rows) as [l|]; [|discriminate]. injection Hx as <-.
      cbn [app]. rewrite rows_with_other in IH by congruence. exact IH.
  - cbn [app]. unfold rows_of in *. rewrite (proj1 (proj2 (setval_same Hx))) in IH. exact IH.
Qed.

Section More.
Context {G : Type}.
Variable E : env G.
Variable cfg : sampler_config.
Variable p : plan.
Notation queries := (dkeys (p_queries p)).
Variable c : db_config.
Variable w : world.
Notation to := (lands (en_resub E) (oc_remap c)).
Notation tgt := (target (en_resub E) (oc_remap c) queries).
Hypothesis Hok : run_ok E cfg c p (w_dest w).
Hypothesis Hnil : trace w = [].

Lemma to_tgt t n : In t queries -> to t n -> tgt n.
Proof. intros Ht (m & Hm & Hg). exists t, m. auto. Qed.

Lemma tables_distinct truncate create g w' r : sample E cfg p truncate create g w = (w', r) -> NoDup (map tb_name (ds_tables (w_dest w'))).
Proof.
  intros Hs. destruct (run_trace Hok Hnil Hs) as (ts & dn & tw & d1 & d2 & o1 & Htr & _ & Hdb & _ & Hts & Hpre & Hrest). rewrite Hdb, map_app. apply NoDup_app_iff.
  split; [exact (proj1 (ro_dest Hok))|]. split.
  - destruct (trace w') as [|e l] eqn:Et.
    + destruct Htr as [[_ ->]|Htr]; [constructor|discriminate].
    + destruct Hpre as (ms & mults & _ & _ & _ & _ & (A & _)); [left; discriminate|exact A].
  - intros n1 H1 H2. apply in_map_iff in H1, H2. destruct H1 as (t1 & E1 & H1), H2 as (t2 & E2 & H2). destruct (Hts t2 H2) as (_ & _ & Hno). apply Hno. exists t1. split; [exact H1|congruence].
Qed.

(** Planned tables with the same destination are the same, once something was written. *)
Lemma lands_inj truncate create g w' r e : sample E cfg p truncate create g w = (w', r) -> In e (trace w') -> (forall ts, e <> EvCreate ts) ->
  forall t t' n', In t queries -> In t' queries -> to t n' -> to t' n' -> t = t'.
Proof. intros Hs He Hc. destruct (validation_first Hok Hnil Hs) as (_ & _ & _ & _ & _ & _ & H & _); [left; exists e; split; assumption|exact H]. Qed.

(** The run as seen by one table: what is there when copying starts, what is inserted, how. *)
Theorem table_run truncate create g w' r t n tb : sample E cfg p truncate create g w = (w', r) -> In t queries -> to t n ->
  table_of (ds_tables (w_dest w')) n tb ->
  exists d, copying_starts E w w' d /\
    ((written (trace w') n = [] /\ rows_of (w_dest w') n = rows_of d n) \/
     exists how cols, conflict_insert (oc_dialect c) (strategy_of c p t) tb cols = Ok how /\ NoDup cols /\ incl cols (tb_cols tb) /\
       (forall row, In row (written (trace w') n) -> dkeys row = cols) /\
       insert_rows (en_dflt E) tb how (rows_of d n) (written (trace w') n) = Some (rows_of (w_dest w') n)).
Proof.
  intros Hs Ht Hto Htb. pose proof (tables_distinct Hs) as Hnd.
  destruct (run_trace Hok Hnil Hs) as (ts & dn & tw & d1 & d2 & o1 & Htr & Hi & Hdb & (Hd1 & _ & Hd1t & Hr1 & Hr2) & _).
  assert (Hc : exists created, trace w' = (created ++ map EvDelete dn) ++ tw /\ (forall e, In e created -> exists ts, e = EvCreate ts)).
  { destruct Htr as [[Htr _]|Htr]; [exists []; split; [exact Htr|intros e []]|]. exists [EvCreate ts]. split; [exact Htr|]. intros e [<-|[]]. eauto. }
  destruct Hc as (created & Htc & Hc). pose proof (run_replay Hnil Hs) as Hrep. rewrite Htc in Hrep. apply replay_inv_app in Hrep. destruct Hrep as (d & Ra & Rb).
  exists d. split.
  { exists (created ++ map EvDelete dn), tw. split; [exact Htc|]. split; [|split; [|exact Ra]].
    - intros e He. apply in_app_or in He. destruct He as [He|He]; [destruct (Hc e He) as (x & ->); exact I|]. apply in_map_iff in He. destruct He as (x & <- & _). exact I.
    - intros e He. rewrite Forall_forall in Hi. specialize (Hi e He). destruct e; cbn in *; auto. }
  assert (Hw : written (trace w') n = written tw n).
  { rewrite Htc. unfold written. rewrite !batches_app, deletes_batches, app_nil_r. assert (Hb : batches created n = []); [|rewrite Hb; reflexivity].
    clear - Hc. induction created as [|e l IH]; [reflexivity|]. destruct (Hc e (or_introl eq_refl)) as (x & ->). apply IH. intros e He. apply Hc. now right. }
  rewrite Hw. destruct (batches tw n) as [|b bs] eqn:Eb.
  - left. split; [unfold written; rewrite Eb; reflexivity|]. exact (replay_untouched Rb Hi Eb).
  - right.
    assert (Hex : exists how0 rows0, In (EvInsert n how0 rows0) tw).
    { assert (Hb : In b (batches tw n)) by (rewrite Eb; now left). unfold batches in Hb. apply in_flat_map in Hb. destruct Hb as (e & He & Hb). destruct e as [|n0|n0 how rows| | |]; try (elim Hb).
      destruct (eq_dec n0 n) as [->|]; [|elim Hb]. eauto. }
    destruct Hex as (how0 & rows0 & Hin). assert (Hin' : In (EvInsert n how0 rows0) (trace w')) by (rewrite Htc; apply in_or_app; now right).
    assert (Hinj := lands_inj Hs Hin'). destruct (run_events Hok Hnil Hs) as [(cf & Hev) _]. rewrite Forall_forall in Hev.
    assert (Hall : forall how rows, In (EvInsert n how rows) (trace w') -> conflict_insert (oc_dialect c) (strategy_of c p t) tb (cf t) = Ok how /\ NoDup (cf t) /\ incl (cf t) (tb_cols tb) /\
      forall row, In row rows -> dkeys row = cf t).
    { intros how rows He. destruct (Hev _ He) as (t' & tb' & Ht' & Hto' & Htb' & A & B & C & D). assert (t' = t) by (apply (Hinj ltac:(discriminate) t' t n); assumption). subst t'.
      rewrite (table_of_fun Hnd Htb' Htb) in *. auto. }
    exists how0, (cf t). destruct (Hall _ _ Hin') as (A & B & C & _). split; [exact A|]. split; [exact B|]. split; [exact C|]. split.
    + intros row Hrow. unfold written in Hrow. apply in_concat in Hrow. destruct Hrow as (b' & Hb' & Hrow). unfold batches in Hb'. apply in_flat_map in Hb'. destruct Hb' as (e & He & Hb').
      destruct e as [|n0|n0 how rows| | |]; try (elim Hb'). destruct (eq_dec n0 n) as [->|]; [|elim Hb']. destruct Hb' as [->|[]].
      assert (He' : In (EvInsert n how b') (trace w')) by (rewrite Htc; apply in_or_app; now right). destruct (Hall _ _ He') as (_ & _ & _ & D). exact (D _ Hrow).
    + apply (replay_rows Rb Hi).
      * assert (Hdt : ds_tables d = ds_tables (w_dest w')) by (symmetry; apply (replay_tables Rb); apply inserting_no_create; exact Hi). rewrite Hdt. exact (find_table_of Hnd Htb).
      * intros how rows He. assert (He' : In (EvInsert n how rows) (trace w')) by (rewrite Htc; apply in_or_app; now right). destruct (Hall _ _ He') as (A' & _). congruence.
Qed.

(** C55 *)
Theorem conflicts truncate create g w' r t n tb : sample E cfg p truncate create g w = (w', r) -> In t queries -> to t n ->
  table_of (ds_tables (w_dest w')) n tb -> tb_pk tb <> [] -> tb_uniques tb = [] ->
  (oc_dialect c = SQLite -> strategy_of c p t = SReplace -> forall row, In row (written (trace w') n) -> incl (tb_cols tb) (dkeys row)) ->
  exists d, copying_starts E w w' d /\
    (keys_unique tb (rows_of d n) ->
     keys_unique tb (rows_of (w_dest w') n) /\
     forall key, proper key ->
       resolved tb (strategy_of c p t) (keyed tb key (rows_of d n)) (keyed tb key (written (trace w') n)) (keyed tb key (rows_of (w_dest w') n))).
Proof.
  intros Hs Ht Hto Htb Hpk Hun Hlite. destruct (table_run Hs Ht Hto Htb) as (d & Hd & H). exists d. split; [exact Hd|]. intros Hu.
  destruct H as [(Hw & Hr)|(how & cols & Hci & Hnc & Hic & Hkeys & Hins)].
  - rewrite Hw, Hr. split; [exact Hu|]. intros key _. unfold resolved. destruct (strategy_of c p t), (keyed tb key (rows_of d n)); reflexivity.
  - destruct (written (trace w') n) as [|row0 rows0] eqn:Ew.
    + cbn in Hins. injection Hins as Hins. rewrite <- Hins. split; [exact Hu|]. intros key _. unfold resolved. destruct (strategy_of c p t), (keyed tb key (rows_of d n)); reflexivity.
    + assert (Hl : oc_dialect c = SQLite -> strategy_of c p t = SReplace -> incl (tb_cols tb) cols).
      { intros A B. rewrite <- (Hkeys row0 (or_introl eq_refl)). exact (Hlite A B row0 (or_introl eq_refl)). }
      pose proof (@insert_resolved (en_dflt E) tb Hpk Hun (oc_dialect c) (strategy_of c p t) cols how Hci Hic Hl (row0 :: rows0) (rows_of d n)) as H.
      rewrite Hins in H. apply H; [|exact Hu]. apply Forall_forall. intros row Hrow x. rewrite (Hkeys row Hrow). reflexivity.
Qed.

(** C52 and the rest of C51: what is not affected is not touched. *)
Theorem untouched truncate create g w' r n : sample E cfg p truncate create g w = (w', r) ->
  (truncate = true -> ~ affected (en_resub E) (oc_remap c) (ds_tables (w_dest w')) queries n) -> ~ tgt n ->
  rows_of (w_dest w') n = rows_of (w_dest w) n.
Proof.
  intros Hs Ha Hn. destruct (truncation Hok Hnil Hs) as (created & del & aft & d & Htr & Hc & Haft & _ & Hf & Hdel & _ & _ & Hrep & _ & Hkeep).
  assert (Hnd : ~ In n del). { destruct truncate; [intros F; exact (Ha eq_refl (Hdel n F))|rewrite (Hf eq_refl); intros []]. }
  rewrite <- (Hkeep n Hnd). pose proof (run_replay Hnil Hs) as Hr. rewrite Htr, app_assoc in Hr. apply replay_inv_app in Hr. destruct Hr as (d' & R1 & R2).
  rewrite (replay_fun Hrep R1) in *. destruct (run_events Hok Hnil Hs) as [(cf & Hev) _].
  destruct (run_trace Hok Hnil Hs) as (ts & dn & tw & d1 & d2 & o1 & Htr' & Hi & _).
  assert (Hia : Forall inserting aft).
  { apply Forall_forall. intros e He. assert (He' : In e (trace w')) by (rewrite Htr; apply in_or_app; right; apply in_or_app; now right).
    destruct (Haft e He) as [A B]. rewrite Forall_forall in Hi. destruct Htr' as [[Htr' _]|Htr']; rewrite Htr' in He'.
    - apply in_app_or in He'. destruct He' as [He'|He']; [|exact (Hi e He')]. apply in_map_iff in He'. destruct He' as (x & <- & _). elim (B x eq_refl).
    - destruct He' as [<-|He']; [elim (A ts eq_refl)|]. apply in_app_or in He'. destruct He' as [He'|He']; [|exact (Hi e He')]. apply in_map_iff in He'. destruct He' as (x & <- & _). elim (B x eq_refl). }
  apply (replay_untouched R2 Hia). destruct (batches aft n) as [|b bs] eqn:Eb; [reflexivity|]. exfalso.
  assert (Hb : In b (batches aft n)) by (rewrite Eb; now left). unfold batches in Hb. apply in_flat_map in Hb. destruct Hb as (e & He & Hb). destruct e as [|n0|n0 how rows| | |]; try (elim Hb).
  destruct (eq_dec n0 n) as [->|]; [|elim Hb]. rewrite Forall_forall in Hev.
  destruct (Hev (EvInsert n how rows)) as (t & tb & Ht & Hto & _); [rewrite Htr; apply in_or_app; right; apply in_or_app; now right|]. exact (Hn (to_tgt Ht Hto)).
Qed.
Theorem only_sampled truncate create g w' r : sample E cfg p truncate create g w = (w', r) ->
  (forall a b, references (ds_tables (w_dest w')) a b -> tgt b -> tgt a) ->
  (forall n, In (EvDelete n) (trace w') -> tgt n) /\ (forall n, ~ tgt n -> rows_of (w_dest w') n = rows_of (w_dest w) n).
Proof.
  intros Hs Hcl.
  assert (Haff : forall n, affected (en_resub E) (oc_remap c) (ds_tables (w_dest w')) queries n -> tgt n).
  { intros n (n' & Ht & _ & Hp). revert Ht. induction Hp as [a b H|a|a b d _ IH1 _ IH2]; intros Ht; [exact (Hcl b a H Ht)|exact Ht|auto]. }
  split.
  - intros n Hin. destruct (truncation Hok Hnil Hs) as (created & del & aft & d & Htr & Hc & Haft & _ & _ & Hdel & _). rewrite Htr in Hin. apply in_app_or in Hin. destruct Hin as [Hin|Hin].
    + destruct (Hc _ Hin) as (x & F). discriminate.
    + apply in_app_or in Hin. destruct Hin as [Hin|Hin]; [|elim (proj2 (Haft _ Hin) n eq_refl)]. apply in_map_iff in Hin. destruct Hin as (x & Ex & Hin). injection Ex as ->. exact (Haff n (Hdel n Hin)).
  - intros n Hn. apply (untouched Hs); [|exact Hn]. intros _ F. exact (Hn (Haff n F)).
Qed.

(** C54 *)
Theorem remap_collision truncate create g w' r : sample E cfg p truncate create g w = (w', r) ->
  (exists t, In t queries /\ forall n', ~ to t n') \/ (exists t t' n', In t queries /\ In t' queries /\ t <> t' /\ to t n' /\ to t' n') ->
  trace w' = [] /\ w_dest w' = w_dest w /\ succeeded r = false.
Proof.
  intros Hs Hbad. destruct (run_trace Hok Hnil Hs) as (ts & dn & tw & d1 & d2 & o1 & Htr & Hi & Hdb & _ & _ & Hpre & Hrest).
  assert (Hno : ~ (trace w' <> [] \/ exists g', r = Ok g')).
  { intros Hor. destruct (Hpre Hor) as (ms & mults & _ & _ & _ & (o & Ho) & _). unfold db_init in Ho. apply bind_Ok in Ho. destruct Ho as (rm & Hrm & _).
    destruct (remap_spec Hrm) as (_ & Hiff). destruct Hbad as [(t & Ht & Hn)|(t & t' & n' & Ht & Ht' & Hne & (n & Hn & Hg) & (n2 & Hn2 & Hg2))].
    - assert (Hrm2 : forM (remap_step (en_resub E) c) queries [] = Ok rm) by exact Hrm.
      destruct (remap_loop Hrm2 ltac:(constructor)) as (_ & _ & _ & Hex). destruct (Hex t Ht) as (k & (n & n' & Hn1 & Hg & _) & _). apply (Hn n'). exists n. split; assumption.
    - assert (E1 : dget rm (render n') = Some t) by (apply Hiff; split; [exact Ht|exists n, n'; auto]).
      assert (E2 : dget rm (render n') = Some t') by (apply Hiff; split; [exact Ht'|exists n2, n'; auto]). congruence. }
  assert (Ht : trace w' = []) by (destruct (trace w'); [reflexivity|elim Hno; left; discriminate]).
  split; [exact Ht|]. split.
  - pose proof (run_replay Hnil Hs) as Hr. rewrite Ht in Hr. inversion Hr; congruence.
  - destruct r as [g'|]; [elim Hno; right; eauto|reflexivity].
Qed.

(** C58 *)
Theorem sequence_past truncate create g w' g' t n' k s0 : plain_serials E p c -> sample E cfg p truncate create g w = (w', Ok g') -> oc_dialect c = PostgreSQL ->
  In t queries -> to t n' -> (exists tb, table_of (ds_tables (w_dest w')) n' tb) -> en_autoinc E n' = Some k -> written_ints w' n' k ->
  dget (ds_seq (w_dest w)) n' = Some s0 -> (forall v, en_currval E n' = Some v -> (v <= s0)%Z) ->
  exists s, dget (ds_seq (w_dest w')) n' = Some s /\ forall row z, In row (written (trace w') n') -> rget row k = VInt z -> (z <= s)%Z.
Proof.
  intros Hpl Hs Hpg Ht Hto Htb Hai Hint Hseq Hcv. destruct (sequence_set Hok Hnil Hpl Hs Hpg Ht Hto Htb Hai Hint Hseq) as (s & Hs' & Hor). exists s. split; [exact Hs'|].
  intros row z Hrow Hz. destruct Hor as [(Hw & _)|(z1 & (_ & Hmax) & Hor)]; [rewrite Hw in Hrow; elim Hrow|]. specialize (Hmax row z Hrow Hz).
  destruct Hor as [(-> & _)|(-> & v & Hv & Hlt)]; [exact Hmax|]. specialize (Hcv v Hv). lia.
Qed.
(** C59 *)
Theorem sequence_forward truncate create g w' g' t n' k s0 : plain_serials E p c -> sample E cfg p truncate create g w = (w', Ok g') -> oc_dialect c = PostgreSQL ->
  In t queries -> to t n' -> (exists tb, table_of (ds_tables (w_dest w')) n' tb) -> en_autoinc E n' = Some k -> written_ints w' n' k ->
  dget (ds_seq (w_dest w)) n' = Some s0 ->
  (exists v, en_currval E n' = Some v /\ (s0 <= v)%Z) \/ (forall z, largest (written (trace w') n') k z -> (s0 <= z)%Z) ->
  exists s, dget (ds_seq (w_dest w')) n' = Some s /\ (s0 <= s)%Z.
Proof.
  intros Hpl Hs Hpg Ht Hto Htb Hai Hint Hseq Hcv.
  destruct (sequence_set Hok Hnil Hpl Hs Hpg Ht Hto Htb Hai Hint Hseq) as (s & Hs' & Hor). exists s. split; [exact Hs'|].
  destruct Hor as [(_ & ->)|(z1 & Hz & Hor)]; [lia|]. destruct Hor as [(-> & Hv)|(-> & _)]; [|lia].
  destruct Hcv as [(v & Ev & Hle)|Hcv]; [specialize (Hv v Ev); lia|exact (Hcv z1 Hz)].
Qed.
(** C82 *)
Theorem created_tables truncate create g w' r : sample E cfg p truncate create g w = (w', r) ->
  exists ts, ds_tables (w_dest w') = ds_tables (w_dest w) ++ ts /\ NoDup (map tb_name ts) /\
    (forall t, In t ts -> create = true /\ tgt (tb_name t) /\ (~ exists t', table_of (ds_tables (w_dest w)) (tb_name t) t') /\
       exists s n st, In s queries /\ named s n /\ table_of (en_source_schema E) n st /\ duplicates (en_resub E) (oc_remap c) st t /\
         forall fk, In fk (tb_fks t) -> tgt (fk_dst fk)) /\
    (create = true -> (exists g', r = Ok g') -> forall n, tgt n -> exists t, table_of (ds_tables (w_dest w')) n t).
Proof.
  intros Hs. destruct (run_trace Hok Hnil Hs) as (ts & dn & tw & d1 & d2 & o1 & Htr & _ & Hdb & _ & Hts & Hpre & _). exists ts. split; [exact Hdb|].
  destruct (sampler_meta_spec (en_fnm E) (p_queries p) (sc_infer cfg) (ro_source Hok)) as (ms' & Hms' & _ & Htab & _).
  assert (Hcase : ts = [] /\ ~ (exists g', r = Ok g') \/ (exists ms, sampler_meta (en_fnm E) (en_source_schema E) (p_queries p) (sc_infer cfg) = Ok ms /\ creates E p c w create ms ts)).
  { destruct Htr as [[Htr Hnil']|Htr].
    - destruct (trace w') as [|e l] eqn:El.
      + destruct r as [g'|e]; [|left; split; [exact Hnil'|intros (g' & F); discriminate]]. right. destruct Hpre as (ms & mults & A & _ & _ & _ & B); [right; exists g'; reflexivity|]. exists ms. auto.
      + right. destruct Hpre as (ms & mults & A & _ & _ & _ & B); [left; discriminate|]. exists ms. auto.
    - right. destruct Hpre as (ms & mults & A & _ & _ & _ & B); [left; rewrite Htr; discriminate|]. exists ms. auto. }
  destruct Hcase as [[-> Hno]|(ms & Hms & (Hnd & Hiff & Hdup))].
  - split; [constructor|]. split; [intros t []|]. intros _ Hx. elim (Hno Hx).
  - rewrite Hms in Hms'. injection Hms' as <-. split; [exact Hnd|]. split.
    + intros t Ht. destruct (Hts t Ht) as (A & B & C). split; [exact A|]. split; [exact B|]. split; [exact C|].
      destruct (Hdup t Ht) as (s & n & sm & H1 & H2 & H3 & H4 & H5). exists s, n, (tm_table sm). split; [exact H1|]. split; [exact H2|]. split; [exact (Htab _ _ (dget_In H3))|]. split; assumption.
    + intros Hc _ n Hn. destruct (in_dec (@eq_dec _ _) n (map tb_name (ds_tables (w_dest w)))) as [Hi|Hi].
      * apply in_map_iff in Hi. destruct Hi as (t & E1 & Hi). exists t. rewrite Hdb. split; [apply in_or_app; now left|exact E1].
      * assert (Hin : In n (map tb_name ts)). { apply Hiff. split; [exact Hc|]. split; [exact Hn|]. intros (t & Ht & E1). apply Hi. apply in_map_iff. exists t. split; assumption. }
        apply in_map_iff in Hin. destruct Hin as (t & E1 & Hin). exists t. rewrite Hdb. split; [apply in_or_app; now right|exact E1].
Qed.

End More.
