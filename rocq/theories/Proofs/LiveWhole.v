(** Whole runs on a changing source (C111). *)
From Coq Require Import Lia.
From Verif Require Import Model.Base Model.Value Model.Names Model.PlanModel Model.SqlAlgebra Model.PlanBuild Model.Metadata Model.Filters Model.Multiply Model.Materialize Model.Dest Model.Output Model.Sampler Model.Live.
From Verif Require Import Spec.GraphSpec Spec.SchemaSpec Spec.SqlSem Spec.PlannerSpec Spec.OutputSpec Spec.RunSpec Spec.SampleSpec Spec.WholeSpec Spec.LiveSpec.
From Verif Require Import Proofs.BaseFacts Proofs.NameFacts Proofs.MetadataFacts Proofs.MaterializeOrder Proofs.MaterializeRun Proofs.SampleRun Proofs.SemCong Proofs.PlanRun Proofs.OutputRows Proofs.OutputDb Proofs.OutputCreate Proofs.OutputSample Proofs.WholeFk Proofs.LiveRun.
From Verif Require Import Model.Dest.
Set Implicit Arguments. Unset Strict Implicit.
Open Scope list_scope.
Open Scope nat_scope.

Lemma compact_NoDup ccfg pt ms is_int ai acc : get_compact_columns ccfg pt ms is_int ai = Ok acc -> NoDup (dkeys acc).
Proof.
  unfold get_compact_columns. intros H. apply bind_Ok in H. destruct H as (a & Ha & H).
  assert (Hn : NoDup (dkeys a)).
  { unfold compact_listed in Ha. revert Ha. generalize (@nil (tname * list string)) (NoDup_nil tname : NoDup (dkeys (@nil (tname * list string)))).
    induction (cp_columns ccfg) as [|[s cs] l IH]; intros a0 Hn Ha; cbn [forM] in Ha; [inv Ha; exact Hn|].
    apply bind_Ok in Ha. destruct Ha as (a1 & H1 & Ha). apply (IH a1); [|exact Ha]. cbn [fst snd] in H1.
    destruct (is_nil cs); [inv H1; exact Hn|]. apply bind_Ok in H1. destruct H1 as (n & _ & H1).
    destruct (negb (dmem ms n)); [inv H1; exact Hn|]. destruct (memb s pt); inv H1; [exact Hn|]. now apply dset_NoDup. }
  destruct (negb _ && negb _); [inv H; exact Hn|]. destruct (compact_in_fk _ _); inv H. unfold compact_keys. clear Ha. revert a Hn.
  generalize ms at 1. intros l. induction l as [|[n m] l IH]; intros a Hn; [exact Hn|]. cbn [fold_left]. apply IH.
  destruct (tb_pk (tm_table m)) as [|c [|]]; [exact Hn| |exact Hn]. destruct (memb _ _); [exact Hn|]. destruct (negb _); [exact Hn|]. destruct (_ || _); [now apply dset_NoDup|exact Hn].
Qed.

Section Whole.
Context {G : Type}.
Variable E : env G.
Variable h : nat -> tname -> list row.
Variable raw : (tname -> list row) -> string -> option (dict string lit) -> list row.
Variable cfg : sampler_config.
Variable p : plan.
Notation queries := (p_queries p).
Hypothesis Hon : any_order (en_ord_name E).
Hypothesis Hdb : db_ok (en_source_schema E).
Hypothesis Hkeys : forall k, unique_keys (en_source_schema E) (h k).
Hypothesis Hq : queries_ok queries.
Hypothesis Hwf : plan_wf queries.
Hypothesis Hown : own_table_only queries.

(** ** The order in which tables are copied has no repetitions *)
Lemma insertion_NoDup w ms (create : bool) w1 o w2 o1 order : writable E cfg p (w_dest w) ->
  sampler_meta (en_fnm E) (en_source_schema E) queries (sc_infer cfg) = Ok ms ->
  open_output E cfg (dkeys queries) w = (w1, Ok o) -> (if create then create_tables E ms o else ret o) w1 = (w2, Ok o1) ->
  insertion_order E (dkeys queries) o1 = Ok order -> NoDup order /\ forall t, In t order -> In t (dkeys queries).
Proof.
  intros Hok Hms H1 H2 H3. unfold writable in Hok. unfold open_output in H1. destruct (sc_output cfg) as [dir|c] eqn:Eo.
  - inv H1. assert (o1 = OutDirectory dir) by (destruct create; inv H2; reflexivity). subst o1. inv H3. split; [apply Hq|auto].
  - destruct Hok as (Hd & Hord & Hplain). apply bind_io_inv in H1. destruct H1 as [(w0 & oo & H1 & H1')|(e & _ & F)]; [|discriminate]. inv H1'. injection H1 as <- Hinit.
    pose proof (init_tracked Hd Hplain Hinit) as Hk.
    assert (Hc : exists o' db', o1 = OutDatabase c o' /\ tracked (en_resub E) c (dkeys queries) db' o').
    { destruct create; [|inv H2; eauto]. cbn [create_tables] in H2. apply bind_io_inv in H2. destruct H2 as [(w0 & oo' & H2 & H2')|(e & _ & F)]; [|discriminate]. inv H2'.
      assert (Hs : forall n m, dget ms n = Some m -> tm_name m = n /\ forall fk, In fk (tb_fks (tm_table m)) -> no_dot (fst (fk_dst fk))).
      { destruct (sampler_meta_spec (en_fnm E) queries (sc_infer cfg) Hdb) as (ms' & E' & Hmk & Htab & _). rewrite Hms in E'. injection E' as <-.
        intros n m Hm. apply dget_In in Hm. split; [exact (proj2 Hmk _ _ Hm)|]. intros fk Hfk. destruct (Htab _ _ Hm) as [Hin Hname].
        destruct Hdb as [_ Hs]. destruct (Hs _ Hin) as (_ & _ & _ & Hf). destruct (Hf _ Hfk) as (_ & _ & _ & d & [Hd' Hdn] & _).
        destruct (Hs _ Hd') as (Hdot & _). rewrite <- Hdn. exact Hdot. }
      destruct (create_spec eq_refl Hk Hs H2) as [[(e & Hx) _]|(ts & o' & Hr & A & B & C & D1 & D2 & D3 & D4 & F1 & F2 & F3)]; [discriminate|]. injection Hr as <-.
      destruct (create_tracked (en_dflt E) Hd Hk A B F1 F2) as [K _]. eauto. }
    destruct Hc as (o' & db' & -> & Hk'). cbn [insertion_order] in H3. destruct (OutputDb.order_spec Hord Hk' H3) as (A & B & _).
    split; [exact A|]. intros t Ht. apply B in Ht. destruct Ht as (n' & Ht & _). exact Ht.
Qed.

Definition moments (mats : list (tname * nat)) (order : list string) (n : tname) : nat :=
  pos (render n) (map render (map fst mats) ++ order ++ dkeys queries).

Lemma named_In n : has_query queries n -> In (render n) (dkeys queries) /\ named (render n) n.
Proof. intros (s & Hs & Hin). rewrite <- (named_eq Hs). auto. Qed.
Lemma moments_inj mats order n d : has_query queries n -> has_query queries d -> moments mats order n = moments mats order d -> n = d.
Proof.
  intros Hn Hd He. destruct (named_In Hn) as [I1 N1]. destruct (named_In Hd) as [I2 N2].
  assert (Er : render n = render d).
  { revert He. apply pos_inj; apply in_app_iff; right; apply in_app_iff; right; assumption. }
  rewrite Er in N1. exact (named_fun N1 N2).
Qed.

(** A run on unchanging rows, with the environment written out. *)
Definition sample_rows (rows : tname -> list row) (truncate create : bool) (g : G) : io out_exn G :=
  let+ ms := lift (of_meta (sampler_meta (en_fnm E) (en_source_schema E) queries (sc_infer cfg))) in
  let+ _ := lift (validate_filters (fe_load_plugin (en_filters E)) (sc_filters cfg) ms) in
  let+ mults := lift (of_mult (get_multiplied_columns (sc_multiplicity cfg) ms (en_src_int E) (en_ord_str E) p)) in
  let+ o := open_output E cfg (dkeys queries) in
  let+ o := if create then create_tables E ms o else ret o in
  let+ order := lift (insertion_order E (dkeys queries) o) in
  let+ _ := if truncate then truncate_tables E o else ret tt in
  let+ o := prepare E ms (p_passthrough p) (dkeys queries) o in
  let+ compact := lift (of_samp (get_compact_columns (sc_compact cfg) (p_passthrough p) ms (en_src_int E) (en_src_autoinc E))) in
  let+ st := lift (of_samp (materialize_tables rows (en_cmp E) (en_text E) (raw rows) (en_rnd E) (en_rank E) (en_reopen E)
                              ms compact (cp_start (sc_compact cfg)) (en_ord_name E) queries)) in
  for_io (copy_one (reading_from E raw rows) cfg o p ms compact st mults) order g.
Lemma sample_rows_eq rows truncate create g : sample (reading_from E raw rows) cfg p truncate create g = sample_rows rows truncate create g.
Proof. reflexivity. Qed.

Definition orderly (moment : tname -> nat) (x : world * res out_exn G) : Prop := forall g', snd x = Ok g' ->
  one_by_one queries moment /\ (no_compaction (sc_compact cfg) -> others_later queries moment).

Lemma bind_both {A} (m : io out_exn A) (k : A -> io out_exn G) (k' : (tname -> nat) -> A -> io out_exn G) w :
  (forall w1 a, m w = (w1, Ok a) -> exists x, orderly x (k a w1) /\ k a w1 = k' x a w1) ->
  exists x, orderly x (bind_io m k w) /\ bind_io m k w = bind_io m (k' x) w.
Proof.
  intros H. unfold bind_io. destruct (m w) as [w1 [a|e]]; [exact (H w1 a eq_refl)|]. exists (fun _ => 0). split; [intros g' F; discriminate|reflexivity].
Qed.

Theorem live_run truncate create g w : writable E cfg p (w_dest w) ->
  exists moment, orderly moment (sample_live E h raw cfg p truncate create g w) /\
    sample_live E h raw cfg p truncate create g w = sample (reading_from E raw (at_moments h moment)) cfg p truncate create g w.
Proof.
  intros Hok.
  destruct (sampler_meta_spec (en_fnm E) queries (sc_infer cfg) Hdb) as (ms & Ems & Hmk & Htab & _).
  assert (Hsu : forall k, source_unique ms (h k)).
  { intros k n m Hin Hpk. destruct (Htab _ _ Hin) as [Ht Hname]. rewrite <- Hname. exact (Hkeys k Ht Hpk). }
  cut (exists moment, orderly moment (sample_live E h raw cfg p truncate create g w) /\
    sample_live E h raw cfg p truncate create g w = sample_rows (at_moments h moment) truncate create g w).
  { intros (moment & A & B). exists moment. rewrite sample_rows_eq. auto. }
  unfold sample_live, sample_rows.
  apply bind_both. intros w0 ms0 H0. rewrite Ems in H0. apply lift_inv in H0. destruct H0 as [-> H0]. injection H0 as <-.
  apply bind_both. intros w0 u0 H0. apply lift_inv in H0. destruct H0 as [-> _].
  apply bind_both. intros w0 mults H0. apply lift_inv in H0. destruct H0 as [-> _].
  apply bind_both. intros w1 o Hopen.
  apply bind_both. intros w2 o1 Hcr.
  apply bind_both. intros w0 order H0. apply lift_inv in H0. destruct H0 as [-> Hins].
  destruct (insertion_NoDup Hok Ems Hopen Hcr Hins) as [Hnd Hpl].
  apply bind_both. intros w3 u _.
  apply bind_both. intros w4 o2 _.
  apply bind_both. intros w5 compact H0. apply lift_inv in H0. destruct H0 as [-> Hc].
  assert (Hnil : no_compaction (sc_compact cfg) -> compact = []).
  { intros Hnc. unfold of_samp in Hc. destruct (get_compact_columns _ _ _ _ _) as [cc|] eqn:Ecc; [|discriminate]. inv Hc. exact (no_compaction_nil Hnc Ecc). }
  assert (Hcn : NoDup (dkeys compact)).
  { unfold of_samp in Hc. destruct (get_compact_columns _ _ _ _ _) as [cc|] eqn:Ecc; [|discriminate]. inv Hc. exact (compact_NoDup Ecc). }
  clear Hc.
  destruct (materialization_order (en_ord_name E) ms compact queries) as [mats|e] eqn:Em.
  2:{ exists (fun _ => 0). unfold materialize_live, materialize_tables. rewrite Em. cbn. split; [intros g' F; discriminate|reflexivity]. }
  destruct (MaterializeOrder.order_spec Hon Hq Hcn (proj1 Hmk) (order_inside Hon Hq Em) Em) as (Mn & Min & Mb).
  assert (Hnamed : forall n, In n (map fst mats) -> named (render n) n) by (intros n Hn; apply Min in Hn; exact (proj2 (named_In (proj1 Hn)))).
  assert (Mr : NoDup (map render (map fst mats))).
  { apply NoDup_map_inj; [|exact Mn]. intros a b Ha Hb Er. pose proof (Hnamed a Ha) as Na. rewrite Er in Na. exact (named_fun Na (Hnamed b Hb)). }
  exists (moments mats order).
  assert (P1 : forall n c l2 l3, mats = l2 ++ (n, c) :: l3 -> moments mats order n = length l2).
  { intros n c l2 l3 El. unfold moments. rewrite El, !map_app. cbn [map fst]. rewrite <- app_assoc, pos_app_r.
    - cbn [app]. rewrite pos_here, !map_length. lia.
    - intros Hx. rewrite El, !map_app in Mr. cbn [map fst] in Mr. apply NoDup_app_iff in Mr. destruct Mr as (_ & _ & Hd). apply (Hd _ Hx). now left. }
  rewrite (materialize_same raw cfg Hmk Hsu Hwf Hown Em Mn Hnamed P1).
  split.
  - intros g' _. split; [split; [intros n d; apply moments_inj|]|].
    2:{ intros Hnc l (Nl & Hl) n Hn Hno. specialize (Hnil Hnc). subst compact.
        assert (Hin : forall x, In x (map fst mats) -> In x l).
        { intros x Hx. apply Min in Hx. destruct Hx as [Hx Hneed]. apply Hl. split; [exact Hx|]. destruct Hneed as [Hr|Hr]; [exact Hr|]. exfalso. destruct Hr as (? & ? & ? & ? & ? & _ & _ & _ & _ & _ & F & _). exact F. }
        assert (Hin' : forall x, In x l -> In x (map fst mats)).
        { intros x Hx. apply Hl in Hx. destruct Hx as [Hx Hr]. apply Min. split; [exact Hx|]. left. exact Hr. }
        pose proof (NoDup_incl_length Nl Hin') as Hlen. unfold moments. rewrite pos_app_r.
        - rewrite map_length. lia.
        - intros Hx. apply in_map_iff in Hx. destruct Hx as (n' & Er & Hn'). apply Hno. pose proof (Hnamed n' Hn') as Nn. rewrite Er in Nn.
          apply Hin. rewrite <- (named_fun Nn (proj2 (named_In Hn))). exact Hn'. }
    intros n d Hr. unfold moments.
    assert (Hd : has_query queries d) by exact (order_inside Hon Hq Em Hr).
    assert (Hdm : In d (map fst mats)) by (apply Min; split; [exact Hd|left; exists n; exact Hr]).
    assert (Hdr : In (render d) (map render (map fst mats))) by (apply in_map; exact Hdm).
    destruct (In_dec' n (map fst mats)) as [Hi|Hi].
    + rewrite !pos_app_l; [|apply in_map; exact Hi|exact Hdr]. apply pos_before; [exact Mr|].
      destruct (Mb n d Hr Hi) as (l1 & l2 & l3 & El). rewrite El, !map_app. cbn [map]. rewrite map_app. cbn [map]. eexists _, _, _. reflexivity.
    + rewrite (@pos_app_l (render d)) by exact Hdr. rewrite pos_app_r.
      * pose proof (pos_lt Hdr). lia.
      * intros Hx. apply in_map_iff in Hx. destruct Hx as (n' & Er & Hn'). apply Hi. pose proof (Hnamed n' Hn') as Nn. rewrite Er in Nn.
        assert (Hhn : has_query queries n) by (destruct Hr as (s & q & id & Hin & Hs & _); exists s; split; [exact Hs|apply in_map_iff; exists (s, q); auto]).
        rewrite <- (named_fun Nn (proj2 (named_In Hhn))). exact Hn'.
  - destruct (materialize_tables _ _ _ _ _ _ _ _ _ _ _ _) as [st|e] eqn:Est; [|reflexivity]. cbn [bind of_samp]. unfold bind_io at 1 2. cbn [lift fst snd].
    destruct (mats_spec Hon Hq Est) as (Hw & _ & mats' & Em' & _ & Hk & _). rewrite Em in Em'. injection Em' as <-.
    unfold copy_live. pose proof (@copy_loop _ E h raw cfg ms compact p Hmk Hsu Hwf Hown (moments mats order) mats o2 mults st Hw order [] order g w4 eq_refl) as Hl.
    cbn [length] in Hl. rewrite Nat.add_0_r in Hl. apply Hl.
    intros t n l2 l3 El Hn Hno. unfold moments. rewrite <- (named_eq Hn). rewrite pos_app_r.
    + rewrite !map_length. f_equal. rewrite El, <- app_assoc. rewrite pos_app_r; [cbn [app]; rewrite pos_here; lia|].
      intros Hx. rewrite El in Hnd. apply NoDup_app_iff in Hnd. destruct Hnd as (_ & _ & Hd). apply (Hd _ Hx). now left.
    + intros Hx. apply in_map_iff in Hx. destruct Hx as (n' & Er & Hn'). apply Hno. pose proof (Hnamed n' Hn') as Nn. rewrite Er in Nn. rewrite (named_fun Nn Hn) in Hn'.
      apply in_map_iff in Hn'. destruct Hn' as ([n0 c] & En & Hc). cbn in En. subst n0. apply Hk. exists c. auto.
Qed.

(** C111 *)
Theorem live_moments0 truncate create g w : writable E cfg p (w_dest w) ->
  exists moment, (forall w' g', sample_live E h raw cfg p truncate create g w = (w', Ok g') -> one_by_one queries moment /\ (no_compaction (sc_compact cfg) -> others_later queries moment)) /\
    sample_live E h raw cfg p truncate create g w = sample (reading_from E raw (at_moments h moment)) cfg p truncate create g w.
Proof.
  intros Hw. destruct (live_run truncate create g Hw) as (moment & A & B). exists moment. split; [|exact B]. intros w' g' Hs. apply (A g'). rewrite Hs. reflexivity.
Qed.
End Whole.
Theorem live_moments {G} (E : env G) h raw cfg p truncate create g w :
  any_order (en_ord_name E) -> db_ok (en_source_schema E) -> (forall k, unique_keys (en_source_schema E) (h k)) ->
  queries_ok (p_queries p) -> plan_wf (p_queries p) -> own_table_only (p_queries p) -> writable E cfg p (w_dest w) ->
  exists moment, (forall w' g', sample_live E h raw cfg p truncate create g w = (w', Ok g') -> one_by_one (p_queries p) moment /\ (no_compaction (sc_compact cfg) -> others_later (p_queries p) moment)) /\
    sample_live E h raw cfg p truncate create g w = sample (reading_from E raw (at_moments h moment)) cfg p truncate create g w.
Proof. intros H1 H2 H3 H4 H5 H6 H7. exact (live_moments0 raw H1 H2 H3 H4 H5 H6 truncate create g H7). Qed.
