(** Foreign keys between destination tables after runs that multiply rows, merge, skip or replace. *)
From Coq Require Import Lia Relations.
From Verif Require Import Model.Base Model.Value Model.Names Model.PlanModel Model.SqlAlgebra Model.Metadata Model.Planner Model.Filters Model.Multiply Model.Materialize Model.Dest Model.Output Model.Sampler.
From Verif Require Import Spec.GraphSpec Spec.SchemaSpec Spec.SqlSem Spec.PlannerSpec Spec.FilterSpec Spec.OutputSpec Spec.RunSpec Spec.ConflictSpec Spec.SampleSpec Spec.WholeSpec Spec.CompactWholeSpec Spec.CopiesSpec.
From Verif Require Spec.MultiplySpec Proofs.MultiplyFacts.
From Verif Require Import Proofs.BaseFacts Proofs.NameFacts Proofs.MetadataFacts Proofs.FilterFacts Proofs.PlanRun Proofs.OutputRows Proofs.OutputDb Proofs.OutputCreate Proofs.OutputRun Proofs.OutputCopy Proofs.OutputSample Proofs.OutputMain
  Proofs.OutputColumn Proofs.OutputMerge Proofs.OutputKeys Proofs.OutputEvents Proofs.ConflictFacts Proofs.OutputMore Proofs.OutputRerun Proofs.WholeRun Proofs.WholeFk Proofs.WholeCompact Proofs.CopiesInsert.
From Verif Require Proofs.PlannerFinal Proofs.PlannerGraph Proofs.PlannerWrap Proofs.PlanIOPlanner.
From Verif Require Import Model.Dest.
Set Implicit Arguments.
Unset Strict Implicit.
Open Scope list_scope.

Section Run.
Context {G : Type}.
Variable E : env G.
Variable cfg : sampler_config.
Variable p : plan.
Notation queries := (dkeys (p_queries p)).
Notation pass := (p_passthrough p).
Variable c : db_config.
Variable w : world.
Notation to := (lands (en_resub E) (oc_remap c)).
Hypothesis Hok : run_ok E cfg c p (w_dest w).
Hypothesis Hnil : trace w = [].
Variables (truncate create : bool) (g : G) (w' : world) (rr : res out_exn G).
Hypothesis Hs : sample E cfg p truncate create g w = (w', rr).
Hypothesis Hbeg : began w' rr.
Notation schema := (ds_tables (w_dest w')).
Notation before n := (if truncate then [] else rows_of (w_dest w) n).

(** What the run has computed, and with it the offsets. *)
Definition computed_with (ms : meta) (compact : dict tname (list string)) (st : tstate) (mults : dict string (list string)) (offs : dict tname (dict string Z)) : Prop :=
  computed_by E cfg p ms compact st mults /\ (oc_merge c = false -> offs = []) /\
  (oc_merge c = true -> exists d o1 o2, (forall n tb, target (en_resub E) (oc_remap c) queries n -> table_of schema n tb -> rows_of d n = before n) /\
     tracked (en_resub E) c queries schema o1 /\
     db_prepare (en_resub E) (en_dst_int E) c d o1 ms pass queries = Ok o2 /\ offs = ou_offsets o2).

(** The rows [rows] given to INSERTs for table [t] are copies of the rows [l] of its result. *)
Definition copied_rows mults offs (t : string) (n' : tname) (co : copied) (l : list (row * Z)) (rows : list row) : Prop :=
  Forall2 (fun ri row => forall k, In k (co_cols co) -> untouched_column E cfg t n' k ->
      In k (dkeys row) /\ copy_value (mult_cols mults t) (dget_or offs n' []) (times cfg mults t) (snd ri) k (rget (fst ri) k) = Some (rget row k)) l rows.
Definition given ms compact st mults offs (t : string) (n' : tname) (co : copied) (rows : list row) : Prop :=
  result_of E cfg p ms compact st t co /\ copied_rows mults offs t n' co (each_copy (times cfg mults t) (co_rows co)) rows.
(** The same of a table that may be incomplete. *)
Definition given_part ms compact st mults offs (t : string) (n' : tname) (co : copied) (rows : list row) : Prop :=
  result_of E cfg p ms compact st t co /\ exists l1 l2, each_copy (times cfg mults t) (co_rows co) = l1 ++ l2 /\ copied_rows mults offs t n' co l1 rows.

Lemma transfer_given ms compact st mults offs wh t g0 n' rows g1 : computed_by E cfg p ms compact st mults -> transfer E cfg p ms compact st mults c offs wh t g0 n' rows g1 ->
  exists co l1 l2, result_of E cfg p ms compact st t co /\ each_copy (times cfg mults t) (co_rows co) = l1 ++ l2 /\ (wh = true -> l2 = []) /\ copied_rows mults offs t n' co l1 rows.
Proof.
  intros Hcb Htr. pose proof Htr as (co & chain & cols & l1 & l2 & outs & Hres & Hch & _ & Hec & Hl2 & Hco & Erows).
  assert (Hndc : NoDup (co_cols co)) by exact (ro_columns Hok _ _ _ _ _ _ Hcb Hres).
  assert (Hkeys : forall row k, In row rows -> In k (co_cols co) -> untouched_column E cfg t n' k -> In k (dkeys row)).
  { intros row k Hi Hk [Hkf Hkc]. rewrite Erows in Hi. apply in_map_iff in Hi. destruct Hi as (o & Eo & Ho). subst row. apply copies_Forall2 in Hco.
    destruct (Forall2_In_r Hco Ho) as (ri & Hri0 & g4 & f & g5 & Hf & Hlen & Hcp). unfold filter_kept in Hf. apply bind_Ok in Hf. destruct Hf as ([f0 g6] & Hrun & Hf). injection Hf as <- <-.
    assert (Hri : length (fst ri) = length (co_cols co)).
    { assert (Hx2 : In ri (each_copy (times cfg mults t) (result_rows co))) by (rewrite Hec; apply in_or_app; now left).
      destruct ri as [v i]. apply each_copy_In in Hx2. destruct Hx2 as [Hx2 _]. apply in_map_iff in Hx2. destruct Hx2 as (r0 & <- & _). apply map_length. }
    destruct (chain_untouched Hndc Hch Hri Hrun Hkf) as [_ Hio]. assert (Hlo := Forall2_len Hcp). rewrite combine_length, Hlen, Nat.min_id in Hlo.
    rewrite dict_of_nodup; [|rewrite combine_fst by (now symmetry); apply NoDup_filter; exact (chain_NoDup Hch Hndc)].
    unfold dkeys. rewrite combine_fst by (now symmetry). apply filter_In. split; [exact (Hio Hk)|]. now rewrite Hkc. }
  assert (Hlen : length rows = length l1) by (rewrite Erows, map_length; apply copies_Forall2 in Hco; apply Forall2_len in Hco; now symmetry).
  assert (Hall : length (each_copy (times cfg mults t) (co_rows co)) = length l1 + length l2).
  { rewrite <- app_length, <- Hec. unfold result_rows, each_copy. clear. induction (co_rows co) as [|r0 l IH]; [reflexivity|]. cbn. rewrite !app_length, !map_length, IH. reflexivity. }
  exists co, (firstn (length l1) (each_copy (times cfg mults t) (co_rows co))), (skipn (length l1) (each_copy (times cfg mults t) (co_rows co))).
  split; [exact Hres|]. split; [symmetry; apply firstn_skipn|]. split.
  { intros Hw. specialize (Hl2 Hw). subst l2. apply skipn_all2. rewrite Hall. cbn. lia. }
  set (P := fun k => In k (co_cols co) /\ untouched_column E cfg t n' k).
  assert (Hrows : Forall2 (fun ri row => forall k, P k -> copy_value (mult_cols mults t) (dget_or offs n' []) (times cfg mults t) (snd ri) k (rget (fst ri) k) = Some (rget row k))
    (firstn (length l1) (each_copy (times cfg mults t) (co_rows co))) rows).
  { apply Forall2_all.
    - rewrite firstn_length, Hall, Hlen. lia.
    - intros k (Hk & Hf & Hcomp). destruct (transfer_column Htr Hres Hndc Hk Hf Hcomp) as (k1 & k2 & Hec2 & _ & HF).
      assert (Ek : length k1 = length l1) by (rewrite <- Hlen; exact (Forall2_len HF)). rewrite Hec2, <- Ek, firstn_app, firstn_all, Nat.sub_diag. cbn. rewrite app_nil_r. exact HF. }
  clear - Hrows Hkeys. assert (Hk2 : forall row, In row rows -> forall k, P k -> In k (dkeys row)) by (intros row Hi k [A B]; exact (Hkeys row k Hi A B)). clear Hkeys.
  unfold copied_rows. induction Hrows as [|ri row l rows H HF IH]; constructor.
  - intros k A B. split; [exact (Hk2 row (or_introl eq_refl) k (conj A B))|exact (H k (conj A B))].
  - apply IH. intros row' Hi. apply Hk2. now right.
Qed.

(** Only the last transfer is incomplete. *)
Lemma transfers_complete ms compact st mults offs whole : forall ts g0 l g1, transfers E cfg p ms compact st mults c offs whole ts g0 l g1 ->
  forall a n' rows b, l = a ++ (n', rows) :: b -> b <> [] \/ whole = true -> exists t g2 g3, In t ts /\ transfer E cfg p ms compact st mults c offs true t g2 n' rows g3.
Proof.
  induction 1 as [g0|ts g0|t ts g0 n0 rows0 g1 Ht|whole t ts g0 n0 rows0 g1 l g2 Ht _ IH]; intros a n' rows b El Hb.
  - destruct a; discriminate.
  - destruct a; discriminate.
  - destruct a as [|x [|y a]]; [|discriminate|discriminate]. injection El as _ _ Eb. subst b. destruct Hb as [Hb|Hb]; [now elim Hb|discriminate].
  - destruct a as [|x a].
    + injection El as En Er _. subst n0 rows0. exists t, g0, g1. split; [now left|exact Ht].
    + injection El as _ El. destruct (IH a n' rows b El Hb) as (t' & g3 & g4 & Hi & Htr). exists t', g3, g4. split; [now right|exact Htr].
Qed.

Lemma run_given : exists ms compact st mults offs, computed_with ms compact st mults offs /\
  (forall a b n', In a queries -> In b queries -> to a n' -> to b n' -> a = b) /\
  (forall t n', In t queries -> to t n' -> written (trace w') n' <> [] -> exists co, given_part ms compact st mults offs t n' co (written (trace w') n')) /\
  forall t n' tb, In t queries -> to t n' -> table_of schema n' tb ->
    (exists g', rr = Ok g') \/ (exists s ns, In s queries /\ to s ns /\ references schema ns n' /\ written (trace w') ns <> []) ->
    exists co, given ms compact st mults offs t n' co (written (trace w') n').
Proof.
  destruct (run_trace Hok Hnil Hs) as (ts & dn & tw & d1 & d2 & o1 & Htr & Hi & Hdb & (Hd1 & _ & Hd1t & Hr1 & Hr2) & _ & _ & Hrest).
  assert (Hc : exists created, trace w' = (created ++ map EvDelete dn) ++ tw /\ (forall e, In e created -> exists ts, e = EvCreate ts)).
  { destruct Htr as [[Htr _]|Htr]; [exists []; split; [exact Htr|intros e []]|]. exists [EvCreate ts]. split; [exact Htr|]. intros e [<-|[]]. eauto. }
  destruct Hc as (created & Htc & Hc).
  assert (Hw : forall n, written (trace w') n = written tw n).
  { intros n. rewrite Htc. unfold written. rewrite !batches_app, deletes_batches, app_nil_r. assert (Hb : batches created n = []); [|rewrite Hb; reflexivity].
    clear - Hc. induction created as [|e l IH]; [reflexivity|]. destruct (Hc e (or_introl eq_refl)) as (x & ->). apply IH. intros e He. apply Hc. now right. }
  assert (Hb : tw <> [] \/ exists g', rr = Ok g').
  { destruct Hbeg as [(e & He & Hne)|Hr]; [left|right; exact Hr]. intros ->. rewrite app_nil_r in Htc. rewrite Htc in He. apply Hne. apply in_app_or in He.
    destruct He as [He|He]; [destruct (Hc e He) as (x & ->); exact I|]. apply in_map_iff in He. destruct He as (x & <- & _). exact I. }
  assert (Hb2 : map EvDelete dn ++ tw <> [] \/ exists g', rr = Ok g').
  { destruct Hb as [Hb|Hb]; [left|right; exact Hb]. intros F. apply app_eq_nil in F. exact (Hb (proj2 F)). }
  destruct (Hrest Hb2) as (_ & del & l2 & Edel & Hdel & Hcopy). destruct (Hcopy Hb) as (-> & Hk & order & samples & ms & compact & st & mults & o2 & (Hno & Hin & Hbef) & Hprep & Hof & (Hcb & g1 & Htrs) & Hnd & Hprog & Hall).
  rewrite app_nil_r in Edel. subst del. rewrite <- Hdb in *.
  assert (Hinj : forall a b n', In a queries -> In b queries -> to a n' -> to b n' -> a = b).
  { destruct (validation_first Hok Hnil Hs) as (_ & _ & _ & _ & _ & _ & Hinj & _); [|exact Hinj]. destruct Hbeg as [(e & He & Hne)|Hr]; [left|right; exact Hr]. exists e. split; [exact He|]. intros x ->. apply Hne. exact I. }
  exists ms, compact, st, mults, (ou_offsets o2). split; [|split; [exact Hinj|]].
  { split; [exact Hcb|]. split; [exact Hof|]. intros _. exists d2, o1, o2. split; [|split; [exact Hk|split; [exact Hprep|reflexivity]]].
    intros n tb Ht Htb. destruct (replay_deletes Hr1) as (A & B & _). unfold deletes in Hdel. destruct truncate.
    - apply A. apply Hdel. exact (target_affected Ht Htb).
    - subst dn. rewrite B by (intros []). unfold rows_of. now rewrite Hd1. }
  destruct (progress_written Hprog Hnd) as (_ & Hnone & dn' & rest & Hdr & Hdone & Hlast).
  assert (Hsome : forall n, written tw n <> [] -> exists a rows b, samples = a ++ (n, rows) :: b /\ initial_part (written tw n) rows /\ (forall x, In x a -> In x dn')).
  { intros n Hne. destruct (in_dec (@eq_dec _ _) n (map fst samples)) as [Hi2|Hi2]; [|elim Hne; unfold written; rewrite (Hnone n Hi2); reflexivity].
    rewrite Hdr, map_app in Hi2. apply in_app_or in Hi2. destruct Hi2 as [Hi2|Hi2].
    - apply in_map_iff in Hi2. destruct Hi2 as ([n0 rows] & En & Hi2). cbn in En. subst n0. destruct (in_split _ _ Hi2) as (a & b & Eab). exists a, rows, (b ++ rest).
      split; [rewrite Hdr, Eab, <- app_assoc; reflexivity|]. split; [rewrite (Hdone n rows Hi2); apply initial_refl|]. intros x Hx. rewrite Eab. apply in_or_app. now left.
    - destruct rest as [|[n0 rows] later]; [elim Hi2|]. destruct Hlast as [Hl1 Hl2]. cbn in Hi2. destruct Hi2 as [->|Hi2].
      + exists dn', rows, later. split; [exact Hdr|]. split; [exact Hl1|]. auto.
      + apply in_map_iff in Hi2. destruct Hi2 as ([n1 rows1] & En & Hi2). cbn in En. subst n1. elim Hne. unfold written. rewrite (Hl2 _ _ Hi2). reflexivity. }
  assert (Htt : forall t' t n', In t' order -> In t queries -> to t' n' -> to t n' -> t' = t).
  { intros t' t n' Ht' Ht A B. apply Hin in Ht'. exact (Hinj t' t n' (proj1 Ht') Ht A B). }
  split.
  - intros t n' Ht Hto Hne. rewrite Hw in Hne |- *. destruct (Hsome n' Hne) as (a & rows & b & Es & (more & Hp) & _).
    assert (Hi2 : In (n', rows) samples) by (rewrite Es; apply in_or_app; right; now left).
    destruct (transfers_transfer Htrs Hi2) as (t' & g2 & g3 & wh & Ht' & Htr' & _). assert (t' = t) by exact (Htt t' t n' Ht' Ht (transfer_lands Htr') Hto). subst t'.
    destruct (transfer_given Hcb Htr') as (co & k1 & k2 & Hres & Hec & _ & HF). exists co. split; [exact Hres|]. rewrite Hp in HF. unfold copied_rows in HF.
    apply Forall2_app_inv_r in HF. destruct HF as (k3 & k4 & HF & _ & ->). exists k3, (k4 ++ k2). split; [rewrite app_assoc; exact Hec|exact HF].
  - intros t n' tb Ht Hto Htb Hcase. rewrite Hw.
    assert (Hx : exists a rows b, samples = a ++ (n', rows) :: b /\ (b <> [] \/ succeeded rr = true) /\ written tw n' = rows).
    { destruct (transfers_names Htrs) as (ts1 & (ts2 & Ets) & Heq & HF).
      assert (Hto2 : In t order) by (apply Hin; split; [exact Ht|exists n', tb; split; assumption]).
      destruct Hcase as [(g' & Er)|(s & ns & Hsq & Htos & Href & Hne)].
      - assert (Hsuc : succeeded rr = true) by (rewrite Er; reflexivity). rewrite (Heq Hsuc) in HF. destruct (Forall2_In_l HF Hto2) as ([n2 rows] & Hi2 & Hl). cbn in Hl. rewrite (lands_fun Hl Hto) in Hi2.
        destruct (in_split _ _ Hi2) as (a & b & Eab). exists a, rows, b. split; [exact Eab|]. split; [now right|exact (Hall g' Er n' rows Hi2)].
      - rewrite Hw in Hne. destruct (Hsome ns Hne) as (a & rows & b & Es & _ & Ha).
        rewrite Es in HF. apply Forall2_app_inv_r in HF. destruct HF as (u1 & u2 & HFa & HFb & Eu). inversion HFb as [|t0 y u3 b' Hl0 HFb' Eu3 Eb]. subst y b' u2. cbn in Hl0.
        assert (Ht0 : In t0 order) by (rewrite Ets, Eu; apply in_or_app; left; apply in_or_app; right; now left).
        assert (t0 = s) by exact (Htt t0 s ns Ht0 Hsq Hl0 Htos). subst t0.
        assert (Hbe : GraphSpec.before order t s) by exact (Hbef s t ns n' Ht0 Hto2 Htos Hto Href).
        assert (Hiu : In t u1).
        { destruct Hbe as (q1 & q2 & q3 & Eq). assert (E2 : order = u1 ++ s :: (u3 ++ ts2)) by (rewrite Ets, Eu, <- app_assoc; reflexivity).
          rewrite Eq in Hno. rewrite Eq in E2. clear - E2 Hno. revert q1 E2 Hno. induction u1 as [|x u1 IH]; intros q1 E2 Hno.
          - destruct q1 as [|y q1]; cbn in E2; injection E2 as Ex Er; subst.
            + exfalso. inversion Hno as [|? ? Hn _]. apply Hn. apply in_or_app. right. now left.
            + exfalso. inversion Hno as [|? ? Hn _]. apply Hn. apply in_or_app. right. right. apply in_or_app. right. now left.
          - destruct q1 as [|y q1]; cbn in E2; injection E2 as Ex Er; subst; [now left|]. right. apply (IH q1); [exact Er|]. inversion Hno; assumption. }
        destruct (Forall2_In_l HFa Hiu) as ([n2 rows2] & Hi2 & Hl). cbn in Hl. rewrite (lands_fun Hl Hto) in Hi2. destruct (in_split _ _ Hi2) as (a1 & a2 & Ea).
        exists a1, rows2, (a2 ++ (ns, rows) :: b). split; [rewrite Es, Ea, <- app_assoc; reflexivity|]. split; [left; destruct a2; discriminate|]. apply Hdone. exact (Ha _ Hi2). }
    destruct Hx as (a & rows & b & Es & Hcomp & Hwr). destruct (transfers_complete Htrs Es Hcomp) as (t' & g2 & g3 & Ht' & Htr').
    assert (t' = t) by exact (Htt t' t n' Ht' Ht (transfer_lands Htr') Hto). subst t'.
    destruct (transfer_given Hcb Htr') as (co & k1 & k2 & Hres & Hec & Hk2 & HF). exists co. split; [exact Hres|]. specialize (Hk2 eq_refl). subst k2. rewrite app_nil_r in Hec. rewrite Hec, Hwr. exact HF.
Qed.

(** What is in a table after the run. *)
Lemma rows_after t n' tb : In t queries -> to t n' -> table_of schema n' tb -> replaced_by_key c p t tb ->
  forall r, In r (rows_of (w_dest w') n') -> In r (before n') \/ exists x, In x (written (trace w') n') /\ forall k, In k (dkeys x) -> rget r k = rget x k.
Proof.
  intros Ht Hto Htb Hr r Hi. destruct (table_run Hok Hnil Hs Ht Hto Htb) as (d & Hd & Hcase). rewrite <- (begun_rows Hok Hnil Hs Hbeg Hd (to_tgt Ht Hto) Htb).
  destruct Hcase as [(_ & E0)|(how & cols & Hci & Hnc & Hic & Hkeys & Hins)]; [left; rewrite <- E0; exact Hi|].
  destruct (rows_added Hci Hic Hr Hkeys Hins Hi) as [A|(x & Hx & Hg)]; [now left|right]. exists x. split; [exact Hx|]. intros k Hk. apply Hg. rewrite <- (Hkeys x Hx). exact Hk.
Qed.
Lemma rows_stay t n' tb P : In t queries -> to t n' -> table_of schema n' tb -> found_by_key c p t tb P ->
  (forall o, In o (before n') -> exists r, In r (rows_of (w_dest w') n') /\ forall k, In k P -> rget r k = rget o k) /\
  (forall x, In x (written (trace w') n') -> exists r, In r (rows_of (w_dest w') n') /\ forall k, In k P -> In k (dkeys x) -> rget r k = rget x k).
Proof.
  intros Ht Hto Htb HP. destruct (table_run Hok Hnil Hs Ht Hto Htb) as (d & Hd & Hcase). rewrite <- (begun_rows Hok Hnil Hs Hbeg Hd (to_tgt Ht Hto) Htb).
  destruct Hcase as [(Ew & E0)|(how & cols & Hci & Hnc & Hic & Hkeys & Hins)].
  - rewrite Ew, E0. split; [intros o Ho; exists o; split; [exact Ho|reflexivity]|intros x []].
  - destruct (rows_found Hci Hic HP Hkeys Hins) as [A B]. split; [exact A|]. intros x Hx. destruct (B x Hx) as (r & Hr & Hg). exists r. split; [exact Hr|]. intros k Hk Hkk. apply Hg; [exact Hk|]. rewrite <- (Hkeys x Hx). exact Hkk.
Qed.

(** ** Copies refer to copies *)
Lemma times_plus_null a b v v' : times_plus a b v = Some v' -> (v' = VNull <-> v = VNull).
Proof. destruct v; cbn; intros H; try discriminate; injection H as <-; split; (discriminate || reflexivity). Qed.
Lemma copy_value_null mult offs m i k v v' : copy_value mult offs m i k v = Some v' -> (v' = VNull <-> v = VNull).
Proof.
  unfold copy_value. destruct (in_dec string_dec k mult).
  - destruct (times_plus m i v) as [v1|] eqn:E1; [|discriminate]. destruct (dget offs k); intros H.
    + rewrite (times_plus_null H). exact (times_plus_null E1).
    + injection H as <-. exact (times_plus_null E1).
  - destruct (dget offs k); intros H; [exact (times_plus_null H)|]. injection H as <-. tauto.
Qed.
Lemma copy_value_eq mult mult' offs offs' m m' i k k' v v' x x' : eq_arithmetic (en_cmp E) ->
  (In k mult <-> In k' mult') -> (In k mult -> m = m') -> dget offs k = dget offs' k' ->
  copy_value mult offs m i k v = Some x -> copy_value mult' offs' m' i k' v' = Some x' -> en_cmp E CEq v v' = true -> en_cmp E CEq x x' = true.
Proof.
  intros Ha Hm Hmm Ho. unfold copy_value. rewrite Ho. destruct (in_dec string_dec k mult) as [Hi|Hi], (in_dec string_dec k' mult') as [Hi'|Hi']; try tauto.
  - rewrite (Hmm Hi). destruct (times_plus m' i v) as [y|] eqn:E1; [|discriminate]. destruct (times_plus m' i v') as [y'|] eqn:E2; [|discriminate].
    destruct (dget offs' k'); intros H H' He; assert (Hy := Ha _ _ _ _ _ _ He E1 E2); [exact (Ha _ _ _ _ _ _ Hy H H')|]. injection H as <-. injection H' as <-. exact Hy.
  - destruct (dget offs' k'); intros H H' He; [exact (Ha _ _ _ _ _ _ He H H')|]. injection H as <-. injection H' as <-. exact He.
Qed.
(** With an unmultiplied column the number of the copy does not matter. *)
Lemma copy_value_any mult offs m i j k v : ~ In k mult -> copy_value mult offs m i k v = copy_value mult offs m j k v.
Proof. intros H. unfold copy_value. destruct (in_dec string_dec k mult); [contradiction|reflexivity]. Qed.

Section Pair.
Variables (ms : meta) (compact : dict tname (list string)) (st : tstate) (mults : dict string (list string)) (offs : dict tname (dict string Z)).
Variables (t td : string) (n' nd' : tname) (tb tbd : table) (fk : fkey).
Hypothesis Ht : In t queries.
Hypothesis Htd : In td queries.
Hypothesis Hto : to t n'.
Hypothesis Htod : to td nd'.
Hypothesis Htb : table_of schema n' tb.
Hypothesis Htbd : table_of schema nd' tbd.
Hypothesis Hrep : replaced_by_key c p t tb.
Hypothesis Hfound : found_by_key c p td tbd (fk_dst_cols fk).
Hypothesis Hk : forall k, In k (fk_cols fk) -> untouched_column E cfg t n' k.
Hypothesis Hkd : forall k, In k (fk_dst_cols fk) -> untouched_column E cfg td nd' k.
Hypothesis Harith : eq_arithmetic (en_cmp E).
Hypothesis Hold : fk_holds (en_cmp E) fk (before n') (before nd').
Variables (co cod : copied).
Hypothesis Hgiv : given_part ms compact st mults offs t n' co (written (trace w') n').
Hypothesis Hgivd : given ms compact st mults offs td nd' cod (written (trace w') nd').
Hypothesis Hc : incl (fk_cols fk) (co_cols co).
Hypothesis Hcd : incl (fk_dst_cols fk) (co_cols cod).
Hypothesis Hlen : length (fk_cols fk) = length (fk_dst_cols fk).
Hypothesis Hfk : fk_holds (en_cmp E) fk (co_rows co) (co_rows cod).
Hypothesis Hmult : forall a b, In (a, b) (combine (fk_cols fk) (fk_dst_cols fk)) -> (In a (mult_cols mults t) <-> In b (mult_cols mults td)).
Hypothesis Hoff : forall a b, In (a, b) (combine (fk_cols fk) (fk_dst_cols fk)) -> off offs n' a = off offs nd' b.
(** [td] is copied as often as [t], or once; then no column is multiplied. *)
Hypothesis Htimes : times cfg mults td = times cfg mults t \/ (0 < times cfg mults td)%Z /\ forall b, In b (fk_dst_cols fk) -> ~ In b (mult_cols mults td).

Lemma each_copy_In2 (A : Type) m (l : list A) r i : In r l -> (0 <= i < m)%Z -> In (r, i) (each_copy m l).
Proof. intros Hr Hi. apply in_flat_map. exists r. split; [exact Hr|]. apply in_map_iff. exists (Z.to_nat i). split; [f_equal; lia|]. apply in_seq. lia. Qed.

(** Nothing was written to the referring table. *)
Lemma quiet_fk : written (trace w') n' = [] -> fk_holds (en_cmp E) fk (rows_of (w_dest w') n') (rows_of (w_dest w') nd').
Proof.
  intros Hq. destruct (rows_stay Htd Htod Htbd Hfound) as [Hso _].
  intros row Hrow Hnn. destruct (rows_after Ht Hto Htb Hrep Hrow) as [Ho|(x & Hx & _)]; [|rewrite Hq in Hx; destruct Hx].
  destruct (Hold Ho Hnn) as (o & Ho' & Href). destruct (Hso o Ho') as (r' & Hr' & Hg). exists r'. split; [exact Hr'|].
  unfold refers in *. clear - Href Hg. induction Href as [|a b la lb (H1 & H2 & H3) _ IH]; constructor.
  + rewrite (Hg b (or_introl eq_refl)). auto.
  + apply IH. intros k Hk. apply Hg. now right.
Qed.

(** Every row given for the referring table refers to one given for the other. *)
Lemma copies_written x : In x (written (trace w') n') -> incl (fk_cols fk) (dkeys x) /\
  ((forall k, In k (fk_cols fk) -> rget x k <> VNull) ->
     exists xd, In xd (written (trace w') nd') /\ incl (fk_dst_cols fk) (dkeys xd) /\ refers (en_cmp E) fk x xd).
Proof.
  intros Hx. destruct Hgiv as [_ (l1 & l2 & Hec & HF)]. destruct (Forall2_In_r HF Hx) as ([r i] & Hri & Hcv). cbn [fst snd] in Hcv.
  assert (Hri2 : In (r, i) (each_copy (times cfg mults t) (co_rows co))) by (rewrite Hec; apply in_or_app; now left). clear Hri. rename Hri2 into Hri. apply each_copy_range in Hri. destruct Hri as [Hr Hi].
  split; [intros k Hkk; exact (proj1 (Hcv k (Hc Hkk) (Hk Hkk)))|]. intros Hnn.
  destruct (Hfk Hr) as (rd & Hrd & Href).
  { intros k Hkk F. apply (Hnn k Hkk). apply (proj2 (copy_value_null (proj2 (Hcv k (Hc Hkk) (Hk Hkk))))). exact F. }
  set (j := if Z_lt_dec i (times cfg mults td) then i else 0%Z).
  assert (Hj : (0 <= j < times cfg mults td)%Z /\ (j = i \/ forall b, In b (fk_dst_cols fk) -> ~ In b (mult_cols mults td))).
  { unfold j. destruct (Z_lt_dec i (times cfg mults td)) as [Hl|Hl]; [split; [lia|now left]|]. destruct Htimes as [Et|[Ht0 Hno]]; [rewrite Et in Hl; lia|]. split; [lia|now right]. }
  destruct Hj as [Hj1 Hj2]. destruct Hgivd as [_ HFd].
  destruct (Forall2_In_l HFd (each_copy_In2 Hrd Hj1)) as (xd & Hxd & Hcvd). cbn [fst snd] in Hcvd. exists xd. split; [exact Hxd|].
  split; [intros b Hb; exact (proj1 (Hcvd b (Hcd Hb) (Hkd Hb)))|].
  assert (Hlast : forall a b, In (a, b) (combine (fk_cols fk) (fk_dst_cols fk)) -> rget r a <> VNull /\ rget rd b <> VNull /\ en_cmp E CEq (rget r a) (rget rd b) = true ->
    rget x a <> VNull /\ rget xd b <> VNull /\ en_cmp E CEq (rget x a) (rget xd b) = true).
  { intros a b Hab (M1 & M2 & M3). assert (Ha := in_combine_l _ _ _ _ Hab). assert (Hb := in_combine_r _ _ _ _ Hab).
    destruct (Hcv a (Hc Ha) (Hk Ha)) as [_ Ca]. destruct (Hcvd b (Hcd Hb) (Hkd Hb)) as [Kb Cb].
    split; [intros F; apply M1; exact (proj1 (copy_value_null Ca) F)|]. split; [intros F; apply M2; exact (proj1 (copy_value_null Cb) F)|].
    assert (Cb' : copy_value (mult_cols mults td) (dget_or offs nd' []) (times cfg mults td) i b (rget rd b) = Some (rget xd b)).
    { destruct Hj2 as [->|Hno]; [exact Cb|]. rewrite <- Cb. apply copy_value_any. exact (Hno b Hb). }
    refine (copy_value_eq Harith (Hmult Hab) _ (Hoff Hab) Ca Cb' M3). intros Hia. destruct Htimes as [Et|[_ Hno]]; [now symmetry|]. elim (Hno b Hb). apply (Hmult Hab). exact Hia. }
  unfold refers in *. clear - Href Hlast. revert Hlast. induction Href as [|a b la lb H _ IH]; intros Hlast; constructor.
  + apply Hlast; [now left|exact H].
  + apply IH. intros a' b' Hab. apply Hlast. now right.
Qed.

(** Rows with the same keys refer to each other alike. *)
Lemma refers_alike (f : fkey) x xd r rd : (forall k, In k (fk_cols f) -> rget r k = rget x k) -> (forall k, In k (fk_dst_cols f) -> rget rd k = rget xd k) ->
  refers (en_cmp E) f x xd -> refers (en_cmp E) f r rd.
Proof.
  unfold refers. intros H1 H2 H. induction H as [|a b la lb (A & B & C) _ IH]; constructor.
  - rewrite (H1 a (or_introl eq_refl)), (H2 b (or_introl eq_refl)). auto.
  - apply IH; intros k Hkk; [apply H1|apply H2]; now right.
Qed.

Lemma copies_fk : fk_holds (en_cmp E) fk (rows_of (w_dest w') n') (rows_of (w_dest w') nd').
Proof.
  destruct (rows_stay Htd Htod Htbd Hfound) as [Hso Hsx].
  intros row Hrow Hnn. destruct (rows_after Ht Hto Htb Hrep Hrow) as [Ho|(x & Hx & Hxr)].
  - destruct (Hold Ho Hnn) as (o & Ho' & Href). destruct (Hso o Ho') as (r' & Hr' & Hg). exists r'. split; [exact Hr'|].
    exact (refers_alike (fun k _ => eq_refl) Hg Href).
  - destruct (copies_written Hx) as [Hin Hrf].
    assert (Heq : forall k, In k (fk_cols fk) -> rget row k = rget x k) by (intros k Hkk; apply Hxr; exact (Hin k Hkk)).
    destruct Hrf as (xd & Hxd & Hind & Href); [intros k Hkk F; apply (Hnn k Hkk); rewrite (Heq k Hkk); exact F|].
    destruct (Hsx xd Hxd) as (r' & Hr' & Hg). exists r'. split; [exact Hr'|].
    exact (refers_alike Heq (fun b Hb => Hg b Hb (Hind b Hb)) Href).
Qed.
End Pair.

(** ** Offsets *)
Hypothesis Hq : NoDup queries.
Hypothesis Hinj : forall a b n', In a queries -> In b queries -> to a n' -> to b n' -> a = b.
Notation start := (fun n => before n).

Section Offsets.
Variables (ms : meta) (compact : dict tname (list string)) (st : tstate) (mults : dict string (list string)) (offs : dict tname (dict string Z)).
Hypothesis Hcw : computed_with ms compact st mults offs.
Hypothesis Hm : oc_merge c = true.

Lemma stays_off t n n' k : In t queries -> named t n -> goes_to (en_resub E) (oc_remap c) n n' -> stays E cfg p schema t n n' k -> off offs n' k = None.
Proof.
  intros Ht Hn Hg (tb & Htb & Hwhy). destruct Hcw as ((Hms & _) & _ & Hmm). destruct (Hmm Hm) as (d & o1 & o2 & Hd & Hk & Hprep & ->).
  assert (Hto : to t n') by (exists n; split; assumption). destruct (prepare_spec Hprep Hm Hq Hinj) as (maxes & A & B & C & D).
  destruct (sampler_meta_spec (en_fnm E) (p_queries p) (sc_infer cfg) (ro_source Hok)) as (ms' & Hms' & _ & Hmt' & _). rewrite Hms in Hms'. injection Hms' as <-.
  destruct (in_dec string_dec t pass) as [Hp|Hp].
  - apply D. intros t' Ht' Hp' Hl. rewrite (Hinj Ht' Ht Hl Hto) in Hp'. contradiction.
  - destruct Hwhy as [Hp'|[Hpk Hfk]]; [contradiction|]. destruct (table_meta Hk (ex_intro _ t (conj Ht Hto)) Htb) as (m & Hmeta & Hmt). destruct (C t n n' m Ht Hp Hn Hg Hmeta) as (sm & Hsm & C1 & _).
    rewrite C1, Hmt; [apply key_offset_other; exact Hpk|]. intros fk Hin Hc. unfold ref_max. destruct (dget ms (fk_dst fk)) as [dm|] eqn:Edm; [|reflexivity].
    destruct (eqb (fk_dst_cols fk) (tb_pk (tm_table dm))) eqn:Eq; [|reflexivity]. destruct (Hfk fk) as [(td & Htd & Hpd)|Hne]; [exists ms, sm; auto|exact Hc| |].
    + rewrite <- (named_eq Htd). apply B. now right.
    + apply (proj1 (eqb_true _ _)) in Eq. elim (Hne _ (Hmt' _ _ (dget_In Edm))). congruence.
Qed.
Lemma fresh_off t n n' k : fresh_key E cfg c p schema t n n' k -> off offs n' k = option_map (fun v => (v + 1)%Z) (max_value (before n') k).
Proof.
  intros (Ht & Hp & Hn & Hg & (tb & Htb & Hpk & Hint) & _ & Hfk). destruct Hcw as ((Hms & _) & _ & Hmm). destruct (Hmm Hm) as (d & o1 & o2 & Hd & Hk & Hprep & ->).
  assert (Hto : to t n') by (exists n; split; assumption). destruct (prepare_spec Hprep Hm Hq Hinj) as (maxes & A & B & C & D).
  destruct (table_meta Hk (ex_intro _ t (conj Ht Hto)) Htb) as (m & Hmeta & Hmt). destruct (C t n n' m Ht Hp Hn Hg Hmeta) as (sm & Hsm & C1 & _).
  rewrite C1, Hmt; [rewrite <- (Hd n' tb (to_tgt Ht Hto) Htb); exact (proj1 (key_offset_get d Hpk Hint))|].
  intros fk Hin Hfc. elim (Hfk fk); [|exact Hfc]. exists ms, sm. auto.
Qed.
Lemma max_value_some rows k r y : In r rows -> rget r k = VInt y -> max_value rows k <> None.
Proof. intros Hi Hy F. assert (H := max_value_spec rows k). rewrite F in H. exact (H r y Hi Hy). Qed.
Lemma refers_off t n n' k nd nd' dk : refers_fresh E cfg c p start schema t n n' k nd nd' dk -> off offs n' k = option_map (fun v => (v + 1)%Z) (max_value (before nd') dk).
Proof.
  intros (Ht & Hp & Hn & Hg & (td & Htd & Hpd & Hnd & Hgd & (tbd & Htbd & Hpkd & Hintd) & Hsrcpk & Hfkd) & (fk0 & Hfk0 & Hfc0) & Hone & tb & Htb & Hwhy).
  destruct Hcw as ((Hms & _) & _ & Hmm). destruct (Hmm Hm) as (d & o1 & o2 & Hd & Hk & Hprep & ->).
  assert (Hto : to t n') by (exists n; split; assumption). assert (Htod : to td nd') by (exists nd; split; assumption).
  destruct (prepare_spec Hprep Hm Hq Hinj) as (maxes & A & B & C & D).
  destruct (table_meta Hk (ex_intro _ t (conj Ht Hto)) Htb) as (m & Hmeta & Hmt). destruct (C t n n' m Ht Hp Hn Hg Hmeta) as (sm & Hsm & C1 & C2 & _).
  destruct (table_meta Hk (ex_intro _ td (conj Htd Htod)) Htbd) as (md & Hmetad & Hmtd). destruct (C td nd nd' md Htd Hpd Hnd Hgd Hmetad) as (smd & Hsmd & C1d & _).
  destruct (sampler_meta_spec (en_fnm E) (p_queries p) (sc_infer cfg) (ro_source Hok)) as (ms' & Hms' & _ & Hmt' & _). rewrite Hms in Hms'. injection Hms' as <-.
  assert (Hb : rows_of d n' = before n') by exact (Hd n' tb (to_tgt Ht Hto) Htb).
  assert (Hbd : rows_of d nd' = before nd') by exact (Hd nd' tbd (to_tgt Htd Htod) Htbd).
  assert (Hrm : forall fk', In fk' (tm_fks sm) -> fk_cols fk' = [k] -> ref_max ms maxes fk' = max_value (before nd') dk).
  { intros fk' Hin Hc'. destruct (Hone fk') as [E1 E2]; [exists ms, sm; auto|exact Hc'|]. unfold ref_max. rewrite E1, E2, Hsmd, (Hsrcpk _ (Hmt' _ _ (dget_In Hsmd))), eqb_refl, <- (named_eq Hnd).
    destruct (A td nd' Htd Hpd Htod) as (md' & Hmd' & ->). rewrite Hmetad in Hmd'. injection Hmd' as <-. rewrite Hmtd, <- Hbd. exact (proj2 (key_offset_get d Hpkd Hintd)). }
  destruct (max_value (before nd') dk) as [v|] eqn:Ev; cbn [option_map].
  - apply C2; [intros fk' Hin Hc'; exact (Hrm fk' Hin Hc')|]. destruct Hfk0 as (ms2 & sm2 & X & Y & Z). rewrite Hms in X. injection X as <-. rewrite Hsm in Y. injection Y as <-. eauto.
  - rewrite C1 by (intros fk' Hin Hc'; exact (Hrm fk' Hin Hc')). rewrite Hmt. destruct Hwhy as [Hpk|Hrows]; [apply key_offset_other; exact Hpk|].
    destruct (list_eq_dec string_dec (tb_pk tb) [k]) as [Epk|Epk]; [|apply key_offset_other; exact Epk].
    destruct (en_dst_int E n' k) eqn:Ei.
    + rewrite (proj1 (key_offset_get d Epk Ei)), Hb. assert (H := max_value_spec (before n') k). destruct (max_value (before n') k) as [y|]; [|reflexivity].
      destruct H as [(r & Hr & Ey) _]. destruct (Hrows r y Hr Ey) as (r' & Hr' & Ey'). elim (max_value_some Hr' Ey'). exact Ev.
    + unfold key_offsets, merge_key. rewrite Epk, Ei. reflexivity.
Qed.
End Offsets.

Lemma alike_off ms compact st mults offs t n n' k td nd nd' dk : computed_with ms compact st mults offs ->
  In t queries -> In td queries -> named t n -> named td nd -> goes_to (en_resub E) (oc_remap c) n n' -> goes_to (en_resub E) (oc_remap c) nd nd' ->
  shifted_alike E cfg c p start schema t n n' k td nd nd' dk -> off offs n' k = off offs nd' dk.
Proof.
  intros Hcw Ht Htd Hn Hnd Hg Hgd Ha. destruct (oc_merge c) eqn:Em.
  - destruct (Ha Em) as [[A B]|[[A B]|(ne & ne' & ek & A & B)]].
    + rewrite (stays_off Hcw Em Ht Hn Hg A). symmetry. exact (stays_off Hcw Em Htd Hnd Hgd B).
    + rewrite (refers_off Hcw Em A). symmetry. exact (fresh_off Hcw Em B).
    + rewrite (refers_off Hcw Em A). symmetry. exact (refers_off Hcw Em B).
  - destruct Hcw as (_ & H & _). rewrite (H Em). reflexivity.
Qed.

(** ** Multiplied columns *)
Section Multiplied.
Variables (ms : meta) (mults : dict string (list string)).
Hypothesis Hms : sampler_meta (en_fnm E) (en_source_schema E) (p_queries p) (sc_infer cfg) = Ok ms.
Hypothesis Hmu : get_multiplied_columns (sc_multiplicity cfg) ms (en_src_int E) (en_ord_str E) p = Ok mults.
Hypothesis Hrefl : forall t, In t queries -> exists m, MultiplySpec.source_table ms t m.

Lemma multiplied_cols t k : In k (mult_cols mults t) <-> (1 < mc_multiplier (sc_multiplicity cfg))%Z /\ MultiplySpec.multiplied ms (sc_multiplicity cfg) p t k.
Proof.
  unfold mult_cols, dget_or. destruct (Z_lt_dec 1 (mc_multiplier (sc_multiplicity cfg))) as [Hlt|Hlt].
  - pose proof (MultiplyFacts.multiplied_reflected (en_src_int E) (ro_order Hok) Hrefl Hlt) as S. rewrite Hmu in S. destruct S as (_ & _ & K & C).
    destruct (dget mults t) as [cs|] eqn:Eg; [rewrite (proj2 (C _ _ Eg) k); tauto|]. split; [intros []|]. intros [_ H]. assert (dmem mults t = true) as X by (apply K; destruct H; auto). unfold dmem in X. rewrite Eg in X. discriminate.
  - unfold get_multiplied_columns in Hmu. assert (Hle : (mc_multiplier (sc_multiplicity cfg) <=? 1)%Z = true) by (apply Z.leb_le; lia). rewrite Hle in Hmu. injection Hmu as <-. cbn. split; [intros []|intros [H _]; lia].
Qed.
Lemma times_cols t td : (0 < times cfg mults td)%Z /\ (times cfg mults td = times cfg mults t \/ mult_cols mults td = [] \/ mult_cols mults t = []).
Proof.
  unfold times, mult_cols, dget_or. destruct (Z_lt_dec 1 (mc_multiplier (sc_multiplicity cfg))) as [Hlt|Hlt].
  - destruct (dget mults td), (dget mults t); split; try lia; auto.
  - unfold get_multiplied_columns in Hmu. assert (Hle : (mc_multiplier (sc_multiplicity cfg) <=? 1)%Z = true) by (apply Z.leb_le; lia). rewrite Hle in Hmu. injection Hmu as <-. cbn. split; [lia|auto].
Qed.
End Multiplied.

Theorem run_written t td fk n n' nd' tb tbd :
  (forall ms, sampler_meta (en_fnm E) (en_source_schema E) (p_queries p) (sc_infer cfg) = Ok ms -> forall t, In t queries -> exists m, MultiplySpec.source_table ms t m) ->
  (exists g', rr = Ok g') \/ references schema n' nd' ->
  In t queries -> In td queries -> named t n -> named td (fk_dst fk) ->
  goes_to (en_resub E) (oc_remap c) n n' -> goes_to (en_resub E) (oc_remap c) (fk_dst fk) nd' -> table_of schema n' tb -> table_of schema nd' tbd ->
  length (fk_cols fk) = length (fk_dst_cols fk) ->
  (forall ms compact st mults co cod, computed_by E cfg p ms compact st mults -> result_of E cfg p ms compact st t co -> result_of E cfg p ms compact st td cod ->
     incl (fk_cols fk) (co_cols co) /\ incl (fk_dst_cols fk) (co_cols cod) /\ fk_holds (en_cmp E) fk (co_rows co) (co_rows cod)) ->
  eq_arithmetic (en_cmp E) ->
  (forall k, In k (fk_cols fk) -> untouched_column E cfg t n' k) -> (forall k, In k (fk_dst_cols fk) -> untouched_column E cfg td nd' k) ->
  (forall a b, In (a, b) (combine (fk_cols fk) (fk_dst_cols fk)) -> multiplied_alike E cfg p t a td b) ->
  (forall a b, In (a, b) (combine (fk_cols fk) (fk_dst_cols fk)) -> shifted_alike E cfg c p start schema t n n' a td (fk_dst fk) nd' b) ->
  forall x, In x (written (trace w') n') -> incl (fk_cols fk) (dkeys x) /\
  ((forall k, In k (fk_cols fk) -> rget x k <> VNull) ->
     exists xd, In xd (written (trace w') nd') /\ incl (fk_dst_cols fk) (dkeys xd) /\ refers (en_cmp E) fk x xd).
Proof.
  intros Hrefl Hlink Ht Htd Hn Hnd Hg Hgd Htb Htbd Hlen Hresults Harith Hk Hkd Hmul Hsh x Hx.
  assert (Hto : to t n') by (exists n; split; assumption). assert (Htod : to td nd') by (exists (fk_dst fk); split; assumption).
  assert (Hne : written (trace w') n' <> []) by (intros F; rewrite F in Hx; exact Hx).
  destruct run_given as (ms & compact & st & mults & offs & Hcw & _ & Hpart & Hgiven).
  destruct (Hpart t n' Ht Hto Hne) as (co & Hgiv).
  destruct (Hgiven td nd' tbd Htd Htod Htbd) as (cod & Hgivd); [destruct Hlink as [Hl|Hl]; [now left|right; exists t, n'; auto]|].
  destruct (Hresults ms compact st mults co cod (proj1 Hcw) (proj1 Hgiv) (proj1 Hgivd)) as (Hc & Hcd & Hfk).
  destruct (proj1 Hcw) as (Hms & Hmu & _).
  assert (Hm : forall a b, In (a, b) (combine (fk_cols fk) (fk_dst_cols fk)) -> (In a (mult_cols mults t) <-> In b (mult_cols mults td))).
  { intros a b Hab. rewrite !(multiplied_cols Hmu (Hrefl ms Hms)). split; intros [H1 H2]; (split; [exact H1|]); [apply (Hmul a b Hab H1 ms Hms)|apply (Hmul a b Hab H1 ms Hms)]; exact H2. }
  refine (copies_written Hk Hkd Harith Hgiv Hgivd Hc Hcd Hlen Hfk Hm _ _ Hx).
  - intros a b Hab. exact (alike_off Hcw Ht Htd Hn Hnd Hg Hgd (Hsh a b Hab)).
  - destruct (times_cols Hmu t td) as [Hpos [Heq|[Hno|Hno]]]; [now left| |]; right; (split; [exact Hpos|]); intros b Hb.
    + rewrite Hno. intros [].
    + intros F. assert (Hxx : exists a, In (a, b) (combine (fk_cols fk) (fk_dst_cols fk))).
      { clear - Hlen Hb. revert Hlen Hb. generalize (fk_dst_cols fk). induction (fk_cols fk) as [|x l IH]; intros [|y l'] H Hi; try discriminate; [destruct Hi|]. destruct Hi as [<-|Hi]; [exists x; now left|]. injection H as H. destruct (IH _ H Hi) as (a & Ha). exists a. now right. }
      destruct Hxx as (a & Ha). apply (Hm a b Ha) in F. rewrite Hno in F. exact F.
Qed.
Theorem run_fk t td fk n n' nd' tb tbd :
  (forall ms, sampler_meta (en_fnm E) (en_source_schema E) (p_queries p) (sc_infer cfg) = Ok ms -> forall t, In t queries -> exists m, MultiplySpec.source_table ms t m) ->
  (exists g', rr = Ok g') \/ references schema n' nd' ->
  In t queries -> In td queries -> named t n -> named td (fk_dst fk) ->
  goes_to (en_resub E) (oc_remap c) n n' -> goes_to (en_resub E) (oc_remap c) (fk_dst fk) nd' -> table_of schema n' tb -> table_of schema nd' tbd ->
  length (fk_cols fk) = length (fk_dst_cols fk) ->
  (forall ms compact st mults co cod, computed_by E cfg p ms compact st mults -> result_of E cfg p ms compact st t co -> result_of E cfg p ms compact st td cod ->
     incl (fk_cols fk) (co_cols co) /\ incl (fk_dst_cols fk) (co_cols cod) /\ fk_holds (en_cmp E) fk (co_rows co) (co_rows cod)) ->
  eq_arithmetic (en_cmp E) -> fk_holds (en_cmp E) fk (before n') (before nd') ->
  replaced_by_key c p t tb -> found_by_key c p td tbd (fk_dst_cols fk) ->
  (forall k, In k (fk_cols fk) -> untouched_column E cfg t n' k) -> (forall k, In k (fk_dst_cols fk) -> untouched_column E cfg td nd' k) ->
  (forall a b, In (a, b) (combine (fk_cols fk) (fk_dst_cols fk)) -> multiplied_alike E cfg p t a td b) ->
  (forall a b, In (a, b) (combine (fk_cols fk) (fk_dst_cols fk)) -> shifted_alike E cfg c p start schema t n n' a td (fk_dst fk) nd' b) ->
  fk_holds (en_cmp E) fk (rows_of (w_dest w') n') (rows_of (w_dest w') nd').
Proof.
  intros Hrefl Hlink Ht Htd Hn Hnd Hg Hgd Htb Htbd Hlen Hresults Harith Hold Hrep Hfound Hk Hkd Hmul Hsh.
  assert (Hto : to t n') by (exists n; split; assumption). assert (Htod : to td nd') by (exists (fk_dst fk); split; assumption).
  destruct (list_eq_dec (list_eq_dec (@eq_dec (string * value) _)) (written (trace w') n') []) as [Hq0|Hne]; [exact (quiet_fk Ht Htd Hto Htod Htb Htbd Hrep Hfound Hold Hq0)|].
  destruct run_given as (ms & compact & st & mults & offs & Hcw & _ & Hpart & Hgiven).
  destruct (Hpart t n' Ht Hto Hne) as (co & Hgiv).
  destruct (Hgiven td nd' tbd Htd Htod Htbd) as (cod & Hgivd); [destruct Hlink as [Hl|Hl]; [now left|right; exists t, n'; auto]|].
  destruct (Hresults ms compact st mults co cod (proj1 Hcw) (proj1 Hgiv) (proj1 Hgivd)) as (Hc & Hcd & Hfk).
  destruct (proj1 Hcw) as (Hms & Hmu & _).
  assert (Hm : forall a b, In (a, b) (combine (fk_cols fk) (fk_dst_cols fk)) -> (In a (mult_cols mults t) <-> In b (mult_cols mults td))).
  { intros a b Hab. rewrite !(multiplied_cols Hmu (Hrefl ms Hms)). split; intros [H1 H2]; (split; [exact H1|]); [apply (Hmul a b Hab H1 ms Hms)|apply (Hmul a b Hab H1 ms Hms)]; exact H2. }
  refine (copies_fk Ht Htd Hto Htod Htb Htbd Hrep Hfound Hk Hkd Harith Hold Hgiv Hgivd Hc Hcd Hlen Hfk Hm _ _).
  - intros a b Hab. exact (alike_off Hcw Ht Htd Hn Hnd Hg Hgd (Hsh a b Hab)).
  - destruct (times_cols Hmu t td) as [Hpos [Heq|[Hno|Hno]]]; [now left| |]; right; (split; [exact Hpos|]); intros b Hb.
    + rewrite Hno. intros [].
    + intros F. assert (Hx : exists a, In (a, b) (combine (fk_cols fk) (fk_dst_cols fk))).
      { clear - Hlen Hb. revert Hlen Hb. generalize (fk_dst_cols fk). induction (fk_cols fk) as [|x l IH]; intros [|y l'] H Hi; try discriminate; [destruct Hi|]. destruct Hi as [<-|Hi]; [exists x; now left|]. injection H as H. destruct (IH _ H Hi) as (a & Ha). exists a. now right. }
      destruct Hx as (a & Ha). apply (Hm a b Ha) in F. rewrite Hno in F. exact F.
Qed.
End Run.

Section Packed.
Context {G : Type}.
Variables (E : env G) (cfg : sampler_config) (c : db_config) (p : plan).
Notation queries := (dkeys (p_queries p)).

Lemma planned_reflected pcfg ms : planned_by E p pcfg -> sampler_meta (en_fnm E) (en_source_schema E) (p_queries p) (sc_infer cfg) = Ok ms ->
  forall t, In t queries -> exists m, MultiplySpec.source_table ms t m.
Proof.
  intros (B1 & B2 & B3 & B4 & (ord & ordp & B5 & B6 & B7) & B8 & B9) Hms t Ht.
  destruct (sampler_meta_spec (en_fnm E) (p_queries p) (sc_infer cfg) B3) as (ms' & E' & M1 & M2 & M3). rewrite Hms in E'. injection E' as <-.
  destruct (PlannerWrap.plan_covers B3 B5 B6 B7) as (_ & K & R & _).
  destruct (proj1 (K t) Ht) as (n & Hn & Hcase).
  assert (Htab : exists tb, table_of (en_source_schema E) n tb).
  { assert (Hch : chosen (en_fnm E) pcfg (en_source_schema E) n).
    { destruct Hcase as [H|H]; [apply H|]. apply (@PlannerGraph.connected_active (en_fnm E) pcfg (en_source_schema E)) in H. apply H. }
    exact (PlannerGraph.chosen_table B3 Hch). }
  destruct Htab as (tb & Htb).
  assert (Hk : In n (dkeys ms)). { apply M3. exists tb, t, t. split; [exact Htb|]. split; [exact Hn|]. split; [exact Ht|exact (B9 t Ht)]. }
  apply key_dget in Hk. destruct Hk as (m & Hm). exists m, n. split; [apply parse_named; exact Hn|exact Hm].
Qed.

(** Every row given for the referring table of a foreign key carried over refers to one given for the other. *)
Theorem any_written pcfg truncate create g w w' rr :
  env_ok E -> planned_by E p pcfg -> run_ok E cfg c p (w_dest w) -> trace w = [] -> eq_symmetric (en_cmp E) -> eq_arithmetic (en_cmp E) ->
  source_consistent (en_fnm E) pcfg (en_source_schema E) (en_cmp E) (en_source E) ->
  (forall n g, is_target pcfg n g -> tg_all g = true -> tg_amount g = None) ->
  sample E cfg p truncate create g w = (w', rr) -> began w' rr -> forall fk t td n n' nd' tb tbd,
  considered (en_fnm E) pcfg (en_source_schema E) n fk ->
  (exists g', rr = Ok g') \/ references (ds_tables (w_dest w')) n' nd' ->
  copied_to E cfg c p w' t n n' tb (fk_cols fk) -> copied_to E cfg c p w' td (fk_dst fk) nd' tbd (fk_dst_cols fk) ->
  renumbered_alike E cfg p n fk ->
  (forall a b, In (a, b) (combine (fk_cols fk) (fk_dst_cols fk)) ->
     multiplied_alike E cfg p t a td b /\ shifted_alike E cfg c p (starting truncate w) (ds_tables (w_dest w')) t n n' a td (fk_dst fk) nd' b) ->
  forall x, In x (written (trace w') n') -> incl (fk_cols fk) (dkeys x) /\
  ((forall k, In k (fk_cols fk) -> rget x k <> VNull) ->
     exists xd, In xd (written (trace w') nd') /\ incl (fk_dst_cols fk) (dkeys xd) /\ refers (en_cmp E) fk x xd).
Proof.
  intros A1 A2 A3 A4 A5 A6 A7 A8 Hs Hbeg fk t td n n' nd' tb tbd Hc Hlink (T1 & T2 & T3 & T4 & T5) (D1 & D2 & D3 & D4 & D5) Hren Hal.
  destruct (run_given A3 A4 Hs Hbeg) as (_ & _ & _ & _ & _ & _ & Hinj & _).
  assert (Hq : NoDup queries) by (destruct A2 as (_ & _ & _ & _ & (ord & ordp & _ & _ & B7) & _); exact (proj1 (PlanIOPlanner.planner_plain B7))).
  assert (Hlen : length (fk_cols fk) = length (fk_dst_cols fk)) by (destruct A2 as (_ & B2 & B3 & _); exact (proj2 (PlannerFinal.considered_len B3 B2 Hc))).
  refine (@run_written G E cfg p c w A3 A4 truncate create g w' rr Hs Hbeg Hq Hinj t td fk n n' nd' tb tbd _ Hlink T1 D1 T2 D2 T3 D3 T4 D4 Hlen _ A6 T5 D5 (fun a b H => proj1 (Hal a b H)) (fun a b H => proj2 (Hal a b H))).
  - intros ms Hms. exact (planned_reflected A2 Hms).
  - intros ms compact st mults co cod Hcb Hres Hresd. destruct Hren as [Hnc|(ms' & compact' & Hrn & Hnum & Htr & Hrf & Hst)].
    + destruct A1 as (X1 & X2 & X3). destruct A2 as (B1 & B2 & B3 & B4 & (ord & ordp & B5 & B6 & B7) & B8 & B9).
      exact (plain_results B5 B6 B1 B2 B3 B4 B7 B8 B9 X1 X2 X3 Hnc A5 A7 A8 T1 D1 T2 D2 Hc Hcb Hres Hresd).
    + assert (Eq : ms = ms' /\ compact = compact'). { destruct Hcb as (C1 & _ & C3 & _). destruct Hrn as (R1 & R2 & _). rewrite C1 in R1. injection R1 as ->. rewrite C3 in R2. injection R2 as ->. auto. }
      destruct Eq as [-> ->]. exact (renumbered_results A1 Hnum A2 Hrn A5 Htr Hrf A7 A8 T1 D1 T2 D2 Hc Hst Hcb Hres Hresd).
Qed.

Theorem any_alike pcfg truncate create g w w' rr :
  env_ok E -> planned_by E p pcfg -> run_ok E cfg c p (w_dest w) -> trace w = [] -> eq_symmetric (en_cmp E) -> eq_arithmetic (en_cmp E) ->
  source_consistent (en_fnm E) pcfg (en_source_schema E) (en_cmp E) (en_source E) ->
  (forall n g, is_target pcfg n g -> tg_all g = true -> tg_amount g = None) ->
  sample E cfg p truncate create g w = (w', rr) -> began w' rr -> forall fk t td n n' nd' tb tbd,
  considered (en_fnm E) pcfg (en_source_schema E) n fk ->
  (exists g', rr = Ok g') \/ references (ds_tables (w_dest w')) n' nd' ->
  copied_to E cfg c p w' t n n' tb (fk_cols fk) -> copied_to E cfg c p w' td (fk_dst fk) nd' tbd (fk_dst_cols fk) ->
  fk_holds (en_cmp E) fk (starting truncate w n') (starting truncate w nd') ->
  replaced_by_key c p t tb -> found_by_key c p td tbd (fk_dst_cols fk) -> renumbered_alike E cfg p n fk ->
  (forall a b, In (a, b) (combine (fk_cols fk) (fk_dst_cols fk)) ->
     multiplied_alike E cfg p t a td b /\ shifted_alike E cfg c p (starting truncate w) (ds_tables (w_dest w')) t n n' a td (fk_dst fk) nd' b) ->
  fk_holds (en_cmp E) fk (rows_of (w_dest w') n') (rows_of (w_dest w') nd').
Proof.
  intros A1 A2 A3 A4 A5 A6 A7 A8 Hs Hbeg fk t td n n' nd' tb tbd Hc Hlink (T1 & T2 & T3 & T4 & T5) (D1 & D2 & D3 & D4 & D5) Hold Hrep Hfound Hren Hal.
  destruct (run_given A3 A4 Hs Hbeg) as (_ & _ & _ & _ & _ & _ & Hinj & _).
  assert (Hq : NoDup queries) by (destruct A2 as (_ & _ & _ & _ & (ord & ordp & _ & _ & B7) & _); exact (proj1 (PlanIOPlanner.planner_plain B7))).
  assert (Hlen : length (fk_cols fk) = length (fk_dst_cols fk)) by (destruct A2 as (_ & B2 & B3 & _); exact (proj2 (PlannerFinal.considered_len B3 B2 Hc))).
  refine (@run_fk G E cfg p c w A3 A4 truncate create g w' rr Hs Hbeg Hq Hinj t td fk n n' nd' tb tbd _ Hlink T1 D1 T2 D2 T3 D3 T4 D4 Hlen _ A6 Hold Hrep Hfound T5 D5 (fun a b H => proj1 (Hal a b H)) (fun a b H => proj2 (Hal a b H))).
  - intros ms Hms. exact (planned_reflected A2 Hms).
  - intros ms compact st mults co cod Hcb Hres Hresd. destruct Hren as [Hnc|(ms' & compact' & Hrn & Hnum & Htr & Hrf & Hst)].
    + destruct A1 as (X1 & X2 & X3). destruct A2 as (B1 & B2 & B3 & B4 & (ord & ordp & B5 & B6 & B7) & B8 & B9).
      exact (plain_results B5 B6 B1 B2 B3 B4 B7 B8 B9 X1 X2 X3 Hnc A5 A7 A8 T1 D1 T2 D2 Hc Hcb Hres Hresd).
    + assert (Eq : ms = ms' /\ compact = compact'). { destruct Hcb as (C1 & _ & C3 & _). destruct Hrn as (R1 & R2 & _). rewrite C1 in R1. injection R1 as ->. rewrite C3 in R2. injection R2 as ->. auto. }
      destruct Eq as [-> ->]. exact (renumbered_results A1 Hnum A2 Hrn A5 Htr Hrf A7 A8 T1 D1 T2 D2 Hc Hst Hcb Hres Hresd).
Qed.

Theorem all_alike pcfg truncate w w' : whole_run E cfg c p pcfg truncate w w' -> forall fk t td n n' nd' tb tbd,
  considered (en_fnm E) pcfg (en_source_schema E) n fk ->
  copied_to E cfg c p w' t n n' tb (fk_cols fk) -> copied_to E cfg c p w' td (fk_dst fk) nd' tbd (fk_dst_cols fk) ->
  fk_holds (en_cmp E) fk (starting truncate w n') (starting truncate w nd') ->
  replaced_by_key c p t tb -> found_by_key c p td tbd (fk_dst_cols fk) -> renumbered_alike E cfg p n fk ->
  (forall a b, In (a, b) (combine (fk_cols fk) (fk_dst_cols fk)) ->
     multiplied_alike E cfg p t a td b /\ shifted_alike E cfg c p (starting truncate w) (ds_tables (w_dest w')) t n n' a td (fk_dst fk) nd' b) ->
  fk_holds (en_cmp E) fk (rows_of (w_dest w') n') (rows_of (w_dest w') nd').
Proof.
  intros (A1 & A2 & A3 & A4 & A5 & A6 & A7 & A8 & create & g & g' & Hs) fk t td n n' nd' tb tbd Hc.
  assert (Hr : exists g0, @Ok out_exn G g' = Ok g0) by eauto.
  exact (any_alike A1 A2 A3 A4 A5 A6 A7 A8 Hs (or_intror Hr) Hc (or_introl Hr)).
Qed.

Lemma unmultiplied t a td b : (mc_multiplier (sc_multiplicity cfg) <= 1)%Z -> multiplied_alike E cfg p t a td b.
Proof. intros H F. lia. Qed.
Lemma unmerged start schema t n n' a td nd nd' b : oc_merge c = false -> shifted_alike E cfg c p start schema t n n' a td nd nd' b.
Proof. intros H F. congruence. Qed.

Theorem same_named_alike pcfg truncate w w' n t td fk : whole_run E cfg c p pcfg truncate w w' -> In t queries -> In td queries -> named t n -> named td (fk_dst fk) ->
  same_named_key E cfg p n td fk -> forall a b, In (a, b) (combine (fk_cols fk) (fk_dst_cols fk)) -> multiplied_alike E cfg p t a td b.
Proof.
  intros (A1 & A2 & A3 & A4 & A5 & A6 & A7 & A8 & create & g & g' & Hs) Ht Htd Hn Hnd ((ms0 & m & Hms0 & Hm & Hfk) & Heq & Hp & Hi & Hpk & Hig) a b Hab Hlt ms Hms.
  rewrite Hms in Hms0. injection Hms0 as <-.
  assert (Eab : a = b /\ In a (fk_cols fk)). { rewrite <- Heq in Hab. split; [|exact (in_combine_l _ _ _ _ Hab)]. clear - Hab. induction (fk_cols fk) as [|x l IH]; [destruct Hab|]. destruct Hab as [E|Hab]; [now injection E as <- <-|exact (IH Hab)]. }
  destruct Eab as [<- Ha]. pose proof (planned_reflected A2 Hms) as Hrefl.
  assert (Hmd : MultiplySpec.multiplied ms (sc_multiplicity cfg) p td a).
  { destruct (Hrefl td Htd) as (md & nd & Hpn & Hmd). assert (End : nd = fk_dst fk) by (apply parse_named in Hpn; exact (named_fun Hpn Hnd)). subst nd.
    destruct (sampler_meta_spec (en_fnm E) (p_queries p) (sc_infer cfg) (ro_source A3)) as (ms' & E' & _ & B & _). rewrite Hms in E'. injection E' as <-.
    apply MultiplySpec.mul_pk with (m := md); [exact Htd|intros [F|F]; contradiction|exists (fk_dst fk); split; assumption| |].
    - apply (Hpk _ (B _ _ (dget_In Hmd))). rewrite <- Heq. exact Ha.
    - apply Hig. rewrite <- Heq. exact Ha. }
  split; [intros _; exact Hmd|]. intros _. rewrite (named_eq Hnd) in Hmd.
  assert (Hst : MultiplySpec.source_table ms t m) by (exists n; split; [apply parse_named; exact Hn|exact Hm]).
  destruct (run_given A3 A4 Hs (or_intror (ex_intro _ g' eq_refl))) as (ms1 & compact & st & mults & offs & ((C1 & C2 & _) & _) & _). rewrite Hms in C1. injection C1 as <-.
  pose proof (MultiplyFacts.multiplied_reflected (en_src_int E) (ro_order A3) Hrefl Hlt) as S. rewrite C2 in S. destruct S as (Hne & _).
  destruct (in_dec string_dec t (p_passthrough p)) as [Hx|Hx]; [elim Hne; exists t, m, fk, a; split; [exact Ht|split; [now left|auto]]|].
  destruct (in_dec string_dec t (mc_ignore_tables (sc_multiplicity cfg))) as [Hy|Hy]; [elim Hne; exists t, m, fk, a; split; [exact Ht|split; [now right|auto]]|].
  apply MultiplySpec.mul_fk with (m := m) (fk := fk); [exact Ht|intros [F|F]; contradiction|exact Hst|exact Hfk|exact Ha|exact Hmd].
Qed.

(** C98 *)
Theorem multiplied_consistent pcfg truncate w w' : whole_run E cfg c p pcfg truncate w w' -> no_compaction (sc_compact cfg) -> oc_merge c = false -> oc_strategy c = SError ->
  forall fk t td n n' nd' tb tbd, considered (en_fnm E) pcfg (en_source_schema E) n fk ->
  copied_to E cfg c p w' t n n' tb (fk_cols fk) -> copied_to E cfg c p w' td (fk_dst fk) nd' tbd (fk_dst_cols fk) ->
  fk_holds (en_cmp E) fk (starting truncate w n') (starting truncate w nd') -> same_named_key E cfg p n td fk ->
  fk_holds (en_cmp E) fk (rows_of (w_dest w') n') (rows_of (w_dest w') nd').
Proof.
  intros Hw Hnc Hm Hst fk t td n n' nd' tb tbd Hc Ht Htd Hold Hsn.
  assert (Hs : forall t, strategy_of c p t = SError). { intros x. unfold strategy_of. rewrite Hm. destruct (in_dec string_dec x (p_passthrough p)); exact Hst. }
  refine (all_alike Hw Hc Ht Htd Hold _ _ (or_introl Hnc) _); [intros F; rewrite Hs in F; discriminate|left; apply Hs|].
  intros a b Hab. split; [exact (same_named_alike Hw (proj1 Ht) (proj1 Htd) (proj1 (proj2 Ht)) (proj1 (proj2 Htd)) Hsn Hab)|exact (unmerged _ _ _ _ _ _ _ _ _ _ Hm)].
Qed.
(** C99 *)
Theorem merged_consistent pcfg truncate w w' : whole_run E cfg c p pcfg truncate w w' -> no_compaction (sc_compact cfg) -> (mc_multiplier (sc_multiplicity cfg) <= 1)%Z -> oc_strategy c = SError ->
  forall fk t td n n' nd' tb tbd k dk, considered (en_fnm E) pcfg (en_source_schema E) n fk -> fk_cols fk = [k] -> fk_dst_cols fk = [dk] ->
  copied_to E cfg c p w' t n n' tb (fk_cols fk) -> copied_to E cfg c p w' td (fk_dst fk) nd' tbd (fk_dst_cols fk) ->
  fk_holds (en_cmp E) fk (starting truncate w n') (starting truncate w nd') ->
  fresh_key E cfg c p (ds_tables (w_dest w')) td (fk_dst fk) nd' dk ->
  refers_fresh E cfg c p (starting truncate w) (ds_tables (w_dest w')) t n n' k (fk_dst fk) nd' dk ->
  fk_holds (en_cmp E) fk (rows_of (w_dest w') n') (rows_of (w_dest w') nd').
Proof.
  intros Hw Hnc Hm Hst fk t td n n' nd' tb tbd k dk Hc E1 E2 Ht Htd Hold Hf Hr.
  refine (all_alike Hw Hc Ht Htd Hold _ _ (or_introl Hnc) _).
  - intros F. unfold strategy_of in F. destruct (in_dec string_dec t (p_passthrough p)); [destruct (oc_merge c); congruence|congruence].
  - left. unfold strategy_of. destruct (in_dec string_dec td (p_passthrough p)) as [Hp|Hp]; [elim (proj1 (proj2 Hf) Hp)|exact Hst].
  - intros a b Hab. rewrite E1, E2 in Hab. destruct Hab as [Eq|[]]. injection Eq as <- <-. split; [exact (unmultiplied _ _ _ _ Hm)|]. intros _. right. left. split; assumption.
Qed.
(** C100 *)
Theorem strategy_consistent pcfg truncate w w' : whole_run E cfg c p pcfg truncate w w' -> no_compaction (sc_compact cfg) -> (mc_multiplier (sc_multiplicity cfg) <= 1)%Z -> oc_merge c = false ->
  forall fk t td n n' nd' tb tbd, considered (en_fnm E) pcfg (en_source_schema E) n fk ->
  copied_to E cfg c p w' t n n' tb (fk_cols fk) -> copied_to E cfg c p w' td (fk_dst fk) nd' tbd (fk_dst_cols fk) ->
  fk_holds (en_cmp E) fk (starting truncate w n') (starting truncate w nd') ->
  (oc_strategy c <> SError -> incl (fk_dst_cols fk) (tb_pk tbd) /\ tb_uniques tbd = []) -> (oc_strategy c = SReplace -> tb_uniques tb = []) ->
  fk_holds (en_cmp E) fk (rows_of (w_dest w') n') (rows_of (w_dest w') nd').
Proof.
  intros Hw Hnc Hmu Hm fk t td n n' nd' tb tbd Hc Ht Htd Hold H1 H2.
  assert (Hs : forall t, strategy_of c p t = oc_strategy c). { intros x. unfold strategy_of. rewrite Hm. destruct (in_dec string_dec x (p_passthrough p)); reflexivity. }
  refine (all_alike Hw Hc Ht Htd Hold _ _ (or_introl Hnc) _).
  - intros F. rewrite Hs in F. exact (H2 F).
  - unfold found_by_key. rewrite Hs. destruct (oc_strategy c) eqn:Es; [now left| |]; right; apply H1; discriminate.
  - intros a b Hab. split; [exact (unmultiplied _ _ _ _ Hmu)|exact (unmerged _ _ _ _ _ _ _ _ _ _ Hm)].
Qed.
End Packed.
