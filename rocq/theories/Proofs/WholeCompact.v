(** The planner's plans, carried out with renumbered columns: foreign keys between the destination tables. *)
From Coq Require Import Lia Relations.
From Verif Require Import Model.Base Model.Value Model.Names Model.PlanModel Model.SqlAlgebra Model.PlanBuild Model.Metadata Model.Planner Model.Filters Model.Multiply Model.Materialize Model.Dest Model.Output Model.Sampler.
From Verif Require Import Spec.GraphSpec Spec.SchemaSpec Spec.SqlSem Spec.PlannerSpec Spec.FilterSpec Spec.OutputSpec Spec.RunSpec Spec.SampleSpec Spec.WholeSpec Spec.CompactWholeSpec.
From Verif Require Import Proofs.BaseFacts Proofs.NameFacts Proofs.MetadataFacts Proofs.SimplifyFacts Proofs.GraphFacts Proofs.PlannerGraph Proofs.PlannerTables Proofs.PlannerSem Proofs.PlannerMain Proofs.PlannerFinal Proofs.PlannerWrap Proofs.MaterializeRun Proofs.SampleRun Proofs.SampleTotal Proofs.CompactColumns Proofs.CompactRun Proofs.SampleFinal Proofs.PlanRun Proofs.OutputMain Proofs.OutputMore Proofs.WholeRun Proofs.WholeFk.
From Verif Require Import Model.Dest.
Set Implicit Arguments.
Unset Strict Implicit.
Open Scope list_scope.
#[local] Arguments rn_names {id reopen ms source compact queries} _.
#[local] Arguments rn_compact {id reopen ms source compact queries} _.
#[local] Arguments rn_governs {id reopen ms source compact queries} _ [n c d dc] _ _.
#[local] Arguments rn_meta {id reopen ms source compact queries} _.
#[local] Arguments rn_reads {id reopen ms source compact queries} _ [s q n] _ _.

(** * The internal column does not matter to the plan's statements *)
Section Strip.
Variables (e e' : sqlenv) (cols : ident -> option (list string)) (from : ident) (t : list string) (A : ident -> Prop).
Hypothesis Hcmp : cmp e = cmp e'.
Hypothesis Htext : text e = text e'.
Hypothesis Hfrom : contents e from = contents e' from.
Hypothesis Hsame : forall id rc, A id -> cols id = Some rc ->
  Forall2 (fun r r' => forall c, In c rc -> rget r c = rget r' c) (contents e id) (contents e' id).

Lemma cmp3_same op a b : cmp3 e op a b = cmp3 e' op a b.
Proof. unfold cmp3. rewrite Hcmp. reflexivity. Qed.
Lemma join_same r j : good_join cols t A j -> join_holds e r j = join_holds e' r j.
Proof.
  intros (_ & (_ & rc & Erc & Hrc) & HA). unfold join_holds. pose proof (Hsame HA Erc) as HF. clear - HF Hrc Hcmp.
  induction HF as [|x y l l' H _ IH]; [reflexivity|]. cbn [existsb]. rewrite IH. f_equal. unfold join_match.
  assert (G : forall ps, (forall a b, In (a, b) ps -> In b rc) ->
    forallb (fun lr => is_true (cmp3 e CEq (rget r (fst lr)) (rget x (snd lr)))) ps = forallb (fun lr => is_true (cmp3 e' CEq (rget r (fst lr)) (rget y (snd lr)))) ps).
  { induction ps as [|[a b] ps IHp]; intros Hp; [reflexivity|]. cbn [forallb fst snd]. rewrite (H b (Hp a b (or_introl eq_refl))), cmp3_same, IHp; [reflexivity|].
    intros a' b' Hin. exact (Hp a' b' (or_intror Hin)). }
  apply G. intros a b Hin. apply in_combine_r in Hin. exact (Hrc b Hin).
Qed.
Lemma eval_same z i r c : flat t c -> eval_wc e z i r c = eval_wc e' z i r c.
Proof.
  induction c as [c Hleaf|l IHl|l IHl] using wc_ind'; intros Hf.
  - destruct c as [| |o k v|cs vs neg|cs s neg| | | |]; try contradiction; cbn [eval_wc]; try reflexivity.
    + unfold op3. destruct o; rewrite ?cmp3_same; reflexivity.
    + assert (Ei : in3 e (map (rget r) cs) (map (map lit_value) vs) = in3 e' (map (rget r) cs) (map (map lit_value) vs)).
      { unfold in3. f_equal. apply map_ext. intros x. unfold tuple_eq3. f_equal. apply map_ext. intros y. apply cmp3_same. }
      rewrite Ei. reflexivity.
    + rewrite Htext. reflexivity.
  - cbn [eval_wc]. f_equal. apply flat_and in Hf. clear -IHl Hf. induction l as [|c l IH]; [reflexivity|]. apply Forall_cons_iff in IHl, Hf. cbn [map]. f_equal; [apply IHl; apply Hf|apply IH; [apply IHl|apply Hf]].
  - cbn [eval_wc]. f_equal. apply flat_or in Hf. clear -IHl Hf. induction l as [|c l IH]; [reflexivity|]. apply Forall_cons_iff in IHl, Hf. cbn [map]. f_equal; [apply IHl; apply Hf|apply IH; [apply IHl|apply Hf]].
Qed.
Lemma sel_same z s : good_sel cols from t A s -> sem_sel e z s = sem_sel e' z s.
Proof.
  destruct s as [cs fr w lim js o]. intros (H1 & H2 & H3 & H4). cbn [s_columns s_from s_joins s_where] in *. subst cs fr. cbn [sem_sel]. rewrite Hfrom. f_equal. f_equal.
  apply filter_ext. intros [i r]. cbn [fst snd]. f_equal.
  - destruct js as [[|j l]|]; cbn [joins_hold]; try reflexivity. specialize (H3 _ eq_refl).
    destruct o; [revert H3; generalize (j :: l) | revert H3; generalize (j :: l)]; intros l0; induction l0 as [|k l0 IH]; intros HF; try reflexivity; apply Forall_cons_iff in HF; cbn [existsb forallb]; rewrite (join_same r (proj1 HF)), (IH (proj2 HF)); reflexivity.
  - destruct w as [w|]; [|reflexivity]. rewrite (eval_same z i r (H4 _ eq_refl)). reflexivity.
Qed.
Lemma stmt_same z st : good_stmt cols from t A st -> sem_stmt e z st = sem_stmt e' z st.
Proof.
  destruct st as [s|l]; cbn [good_stmt sem_stmt]; [apply sel_same|]. intros [_ HF]. f_equal. f_equal. apply map_ext_in. intros s Hs. apply sel_same. exact (proj1 (Forall_forall _ _) HF s Hs).
Qed.
End Strip.

(** * Foreign keys between renumbered rows *)
Section Changed.
Variables (cmpf : cmpop -> value -> value -> bool) (ms : meta) (compact : dict tname (list string)).
Variables (rows : tname -> list row) (num : tname -> list Z).
Definition changed (n : tname) (m : tmeta) (k : Z) (r r' : row) : Prop :=
  forall c, In c (tb_cols (tm_table m)) ->
    (compacted compact n c -> rget r' c = VInt k) /\
    (~ compacted compact n c -> forall d dc, decides ms compact n c d dc -> follows cmpf (rows d) (num d) dc (rget r c) (rget r' c)) /\
    (~ compacted compact n c -> (forall d dc, ~ governs ms compact n c d dc) -> rget r' c = rget r c).
Lemma rewritten_changed n m k r r' : rewritten cmpf ms compact rows num n m k r r' -> changed n m k r r'.
Proof. intros [_ H]. exact H. Qed.
Lemma plain_changed n m : not_compacted ms compact n -> length (num n) = length (rows n) ->
  Forall2 (fun kr r' => changed n m (fst kr) (snd kr) r') (combine (num n) (rows n)) (rows n).
Proof.
  intros [H1 H2]. generalize (num n) as l. generalize (rows n) as rs. induction rs as [|r rs IH]; intros [|k l] Hl; try discriminate; [constructor|]. cbn [combine]. constructor; [|apply IH; now injection Hl].
  intros c _. cbn [fst snd]. split; [|split].
  - intros (cs & Hcs & _). elim H1. apply in_map_iff. exists (n, cs). auto.
  - intros _ d dc Hg. elim (H2 _ _ _ (decides_governs Hg)).
  - reflexivity.
Qed.

Hypothesis Hrefl : forall k, cmpf CEq (VInt k) (VInt k) = true.
Hypothesis Hsym : eq_symmetric cmpf.
Hypothesis Htrans : eq_transitive cmpf.

Section Pair.
Variables (n d : tname) (m md : tmeta).
Hypothesis Hs : unique_references cmpf ms compact rows n.
Hypothesis Hsd : unique_references cmpf ms compact rows d.
Variables (out outd : list row).
Hypothesis Hl : length (num n) = length (rows n).
Hypothesis Hld : length (num d) = length (rows d).
Hypothesis HF : Forall2 (fun kr r' => changed n m (fst kr) (snd kr) r') (combine (num n) (rows n)) out.
Hypothesis HFd : Forall2 (fun kr r' => changed d md (fst kr) (snd kr) r') (combine (num d) (rows d)) outd.

Lemma step_nonnull c dc k r r1 : In c (tb_cols (tm_table m)) -> in_step ms compact n c d dc -> changed n m k r r1 -> rget r1 c <> VNull -> rget r c <> VNull.
Proof.
  intros Hc Hstep Hch Hnn. destruct (Hch c Hc) as (_ & C2 & C3).
  assert (Hf : forall rs ks x, follows cmpf rs ks x (rget r c) (rget r1 c) -> rget r c <> VNull).
  { intros rs ks x [(i & ri & ki & _ & _ & (M & _) & _)|[_ E]]; [exact M|contradiction]. }
  destruct Hstep as [[[K1 K2] _]|[[K1 Hg]|(K1 & _ & g & gc & Hg & _)]].
  - rewrite <- (C3 K1 K2). exact Hnn.
  - exact (Hf _ _ _ (C2 K1 _ _ Hg)).
  - exact (Hf _ _ _ (C2 K1 _ _ Hg)).
Qed.
Lemma matches_trans a b c : matches cmpf a b -> matches cmpf a c -> matches cmpf b c.
Proof. intros (A1 & A2 & A3) (B1 & B2 & B3). split; [exact A2|]. split; [exact B2|]. eapply Htrans; [|exact B3]. rewrite Hsym in A3. exact A3. Qed.

Lemma step_matches c dc k r r1 j r' r1' : In c (tb_cols (tm_table m)) -> In dc (tb_cols (tm_table md)) -> in_step ms compact n c d dc ->
  changed n m k r r1 -> nth_error (rows d) j = Some r' -> nth_error outd j = Some r1' -> matches cmpf (rget r c) (rget r' dc) -> rget r1 c <> VNull ->
  matches cmpf (rget r1 c) (rget r1' dc).
Proof.
  intros Hc Hdc Hstep Hch Hr' Hr1' Hm Hnn. destruct (Hch c Hc) as (_ & C2 & C3).
  destruct (Forall2_combine_map Hld HFd) as [_ Hp]. assert (Hj : j < length (rows d)) by (apply nth_error_Some; congruence).
  destruct (Hp j Hj) as (kj & rj & oj & Hkj & Hrj & Hoj & Hchd). rewrite Hr' in Hrj. injection Hrj as <-. rewrite Hr1' in Hoj. injection Hoj as <-. destruct (Hchd dc Hdc) as (D1 & D2 & D3).
  assert (Hint : forall x, matches cmpf (VInt x) (VInt x)) by (intros x; split; [discriminate|]; split; [discriminate|apply Hrefl]).
  destruct Hstep as [[[K1 K2] [L1 L2]]|[[K1 Hg]|(K1 & L1 & g & gc & Hg & Hgd)]].
  - rewrite (C3 K1 K2), (D3 L1 L2). exact Hm.
  - destruct (C2 K1 _ _ Hg) as [(i & ri & ki & Hri & Hki & Hmi & ->)|[_ Ev]]; [|contradiction].
    assert (i = j) as -> by exact (@Hs _ _ _ Hg _ _ _ _ _ Hri Hr' Hmi Hm). rewrite Hkj in Hki. injection Hki as <-.
    destruct Hg as (_ & _ & _ & _ & _ & Hcd & _). rewrite (D1 Hcd). apply Hint.
  - destruct (C2 K1 _ _ Hg) as [(i & ri & ki & Hri & Hki & Hmi & ->)|[_ Ev]]; [|contradiction].
    pose proof (matches_trans Hm Hmi) as Hmd.
    destruct (D2 L1 _ _ Hgd) as [(i2 & ri2 & ki2 & Hri2 & Hki2 & Hmi2 & ->)|[Hno _]]; [|elim (Hno ri); [exact (nth_error_In _ _ Hri)|exact Hmd]].
    assert (i2 = i) as -> by exact (@Hsd _ _ _ Hgd _ _ _ _ _ Hri2 Hri Hmi2 Hmd). rewrite Hki2 in Hki. injection Hki as ->. apply Hint.
Qed.

Variable fk : fkey.
Hypothesis Ed : fk_dst fk = d.
Hypothesis Hlen : length (fk_cols fk) = length (fk_dst_cols fk).
Hypothesis Hi : incl (fk_cols fk) (tb_cols (tm_table m)).
Hypothesis Hid : incl (fk_dst_cols fk) (tb_cols (tm_table md)).
Hypothesis Hstep : forall c dc, In (c, dc) (combine (fk_cols fk) (fk_dst_cols fk)) -> in_step ms compact n c d dc.
Hypothesis Hfk : fk_holds cmpf fk (rows n) (rows d).

Lemma pair_of c : In c (fk_cols fk) -> exists dc, In (c, dc) (combine (fk_cols fk) (fk_dst_cols fk)).
Proof.
  clear - Hlen. revert Hlen. generalize (fk_dst_cols fk). induction (fk_cols fk) as [|a l IH]; intros [|b l'] Hl Hin; try discriminate; [destruct Hin|]. destruct Hin as [<-|Hin]; [exists b; left; reflexivity|].
  destruct (IH l' ltac:(now injection Hl) Hin) as (dc & Hdc). exists dc. right. exact Hdc.
Qed.

Lemma changed_fk : fk_holds cmpf fk out outd.
Proof.
  intros r1 Hr1 Hnn. destruct (Forall2_combine_map Hl HF) as [Hlo Hp]. apply In_nth_error in Hr1. destruct Hr1 as (i & Hri).
  assert (Hi' : i < length (rows n)) by (rewrite <- Hlo; apply nth_error_Some; congruence).
  destruct (Hp i Hi') as (k & r & x & Hk & Hr & Hx & Hch). rewrite Hri in Hx. injection Hx as <-.
  destruct (Hfk (nth_error_In _ _ Hr)) as (r' & Hr' & Href).
  { intros c Hc. destruct (pair_of Hc) as (dc & Hp'). exact (step_nonnull (Hi Hc) (Hstep Hp') Hch (Hnn c Hc)). }
  apply In_nth_error in Hr'. destruct Hr' as (j & Hj). destruct (Forall2_combine_map Hld HFd) as [Hlod _].
  assert (Hj' : j < length outd) by (rewrite Hlod; apply nth_error_Some; congruence). destruct (nth_error outd j) as [r1'|] eqn:Er1'; [|apply nth_error_None in Er1'; lia].
  exists r1'. split; [exact (nth_error_In _ _ Er1')|]. unfold refers in *.
  assert (G : forall cs dcs, Forall2 (fun c dc => matches cmpf (rget r c) (rget r' dc)) cs dcs ->
     (forall c dc, In (c, dc) (combine cs dcs) -> In (c, dc) (combine (fk_cols fk) (fk_dst_cols fk))) ->
     Forall2 (fun c dc => matches cmpf (rget r1 c) (rget r1' dc)) cs dcs).
  { intros cs dcs H. induction H as [|c dc cs dcs H _ IH]; intros Hin; constructor.
    - pose proof (Hin c dc (or_introl eq_refl)) as Hc. exact (step_matches (Hi (in_combine_l _ _ _ _ Hc)) (Hid (in_combine_r _ _ _ _ Hc)) (Hstep Hc) Hch Hj Er1' H (Hnn c (in_combine_l _ _ _ _ Hc))).
    - apply IH. intros c' dc' Hx. apply Hin. right. exact Hx. }
  exact (G _ _ Href (fun c dc H => H)).
Qed.

(** A reference that is renumbered stays a reference. *)
Lemma changed_kept : Forall2 (fun r r1 => (forall c, In c (fk_cols fk) -> rget r c <> VNull) ->
    forall c dc, In (c, dc) (combine (fk_cols fk) (fk_dst_cols fk)) -> ~ compacted compact n c -> decides ms compact n c d dc -> rget r1 c <> VNull) (rows n) out.
Proof.
  assert (G : forall ks rs os, length ks = length rs -> Forall2 (fun kr r' => changed n m (fst kr) (snd kr) r') (combine ks rs) os -> Forall2 (fun r r1 => exists k, changed n m k r r1) rs os).
  { clear. induction ks as [|k ks IH]; intros [|r rs] os Hl H; try discriminate; cbn [combine] in H; inversion H; subst; constructor; [exists k; assumption|]. apply IH; [now injection Hl|assumption]. }
  specialize (G _ _ _ Hl HF).
  assert (G2 : forall rs os, incl rs (rows n) -> Forall2 (fun r r1 => exists k, changed n m k r r1) rs os -> Forall2 (fun r r1 => (forall c, In c (fk_cols fk) -> rget r c <> VNull) ->
    forall c dc, In (c, dc) (combine (fk_cols fk) (fk_dst_cols fk)) -> ~ compacted compact n c -> decides ms compact n c d dc -> rget r1 c <> VNull) rs os).
  { intros rs os Hin H. induction H as [|r r1 rs os (k & Hch) _ IH]; constructor; [|apply IH; intros x Hx; apply Hin; right; exact Hx].
    intros Hnn c dc Hc Hnc Hg. destruct (Hch c (Hi (in_combine_l _ _ _ _ Hc))) as (_ & C2 & _).
    destruct (C2 Hnc _ _ Hg) as [(i & ri & ki & _ & _ & _ & ->)|[Hno _]]; [discriminate|].
    destruct (Hfk (Hin r (or_introl eq_refl)) Hnn) as (r' & Hr' & Href). elim (Hno r' Hr').
    unfold refers in Href. clear - Href Hc. induction Href as [|a b la lb H _ IH]; [destruct Hc|]. destruct Hc as [Eq|Hc]; [injection Eq as -> ->; exact H|exact (IH Hc)]. }
  apply G2; [apply incl_refl|exact G].
Qed.
End Pair.
End Changed.

Section Run.
Variables (fnm : string -> string -> bool) (cfg : config) (db : list table).
Variables (ord : list string -> list string) (ordp : list tname -> list tname).
Hypothesis Hdb : db_ok db.
Hypothesis Hord : any_order ord.
Hypothesis Hordp : any_order ordp.
Hypothesis Hcfg : config_ok cfg.
Hypothesis Hxv : extras_valid cfg.
Hypothesis Htf : targets_fit cfg db.
Variable p : plan.
Hypothesis Hplan : plan_db ord ordp fnm cfg db = Ok p.
Variables (source : tname -> list row) (infer : infer_mode).
Hypothesis Hsrc : source_ok id_column db source.
Hypothesis Hself : forall s, In s (dkeys (p_queries p)) -> fnm s s = true.
Variables (cmpf : cmpop -> value -> value -> bool)
          (textf : string -> option (dict string lit) -> row -> tv) (rawf : string -> option (dict string lit) -> list row)
          (raw_cols : string -> option (dict string lit) -> list string)
          (z : phase -> tname -> rnd) (rank : phase -> tname -> list (list value) -> list nat) (reopen : bool)
          (ms : meta) (compact : dict tname (list string)) (start : Z) (ord' : list tname -> list tname) (insert_order : list string)
          (lt : list value -> list value -> Prop).
Hypothesis Hms : sampler_meta fnm db (p_queries p) infer = Ok ms.
Hypothesis HR : runnable id_column reopen ms source compact (p_queries p).
Hypothesis Hord' : any_order ord'.
Hypothesis Hz : forall ph n, rnd_ok (z ph n).
Hypothesis Hrank : forall ph n, rank_ok lt (rank ph n).
Hypothesis Huniq : forall n c, compacted compact n c -> unique_in cmpf c (source n).

Lemma unique_sub c l l' : unique_in cmpf c l -> incl l' l -> NoDup l' -> unique_in cmpf c l'.
Proof.
  intros Hu Hi Hn v i j r r' Hr Hr' Hm Hm'. destruct (In_nth_error _ _ (Hi _ (nth_error_In _ _ Hr))) as (i0 & Hi0). destruct (In_nth_error _ _ (Hi _ (nth_error_In _ _ Hr'))) as (j0 & Hj0).
  assert (i0 = j0) as -> by exact (Hu v i0 j0 r r' Hi0 Hj0 Hm Hm'). rewrite Hi0 in Hj0. injection Hj0 as ->.
  apply (proj1 (NoDup_nth_error l') Hn); [apply nth_error_Some; congruence|congruence].
Qed.

Theorem compact_run st outs :
  extract source cmpf textf rawf raw_cols z rank reopen ms compact start ord' (p_queries p) insert_order = Ok (st, outs) ->
  exists (rows : tname -> list row) (num : tname -> list Z),
    (forall n m, In (n, m) ms -> dense start (length (rows n)) (num n)) /\
    (forall n, planned p n -> incl (rows n) (source n) /\ NoDup (rows n)) /\
    (forall s q n, In (s, q) (p_queries p) -> named s n ->
       exists ph, rows n = query_result cmpf textf rawf source rows (z ph n) q) /\
    (forall n, planned p n -> unique_references cmpf ms compact rows n) /\
    (forall o m, In o outs -> In (co_name o, m) ms -> unique_references cmpf ms compact rows (co_name o) ->
       Forall2 (fun kr r' => changed cmpf ms compact rows num (co_name o) m (fst kr) (snd kr) r') (combine (num (co_name o)) (rows (co_name o))) (co_rows o)) /\
    (eq_symmetric cmpf -> source_consistent fnm cfg db cmpf source ->
     (forall n g, is_target cfg n g -> tg_all g = true -> tg_amount g = None) ->
     forall n fk, considered fnm cfg db n fk -> planned p n -> planned p (fk_dst fk) -> fk_holds cmpf fk (rows n) (rows (fk_dst fk))).
Proof.
  intros E. destruct (run_written Hord' Hrank HR E) as (sample & rows & num & A & B & C & D). exists rows, num.
  destruct (sampler_meta_spec fnm (p_queries p) infer Hdb) as (ms' & E' & M1 & M2 & M3). rewrite Hms in E'. injection E' as <-.
  assert (Hmsp : forall n, planned p n -> In n (dkeys ms)).
  { intros n Hp. apply M3. exact (planned_matching Hdb Hord Hordp Hplan Hself Hp). }
  destruct (plan_ok_shape Hdb Hord Hordp Hplan) as (passl & ns & _ & Hshape & Hgood & _).
  pose proof (planned_good Hdb Hcfg Hxv Htf M2 Hmsp Hshape Hgood) as Hq.
  assert (Hq' : forall s q n, In (s, q) (p_queries p) -> named s n -> exists st ph, q = mkQuery None None (Some st) /\ reads_only n st /\ table_of db n (tm_table (dget_or ms n (mkMeta (mkTable n [] [] [] []) [] []))) /\
            rows n = sem_stmt (plan_env cmpf textf source rows) (z ph n) st).
  { intros s q n Hin Hn. destruct (Hq s q n Hin Hn) as (stm & t & -> & Ht & Hp & Hro & Hg).
    destruct (A _ _ _ Hin Hn) as ((w & (ph & ->) & Ew) & _). exists stm, ph. split; [reflexivity|]. split; [exact Hro|]. split.
    { destruct (key_dget (Hmsp n Hp)) as (m & Em). unfold dget_or. rewrite Em. exact (M2 _ _ (dget_In Em)). }
    rewrite Ew. unfold query_result. cbn [q_sql q_stmt]. refine (@stmt_same (plan_env cmpf textf source sample) (plan_env cmpf textf source rows) _ (table_from n) _ _ eq_refl eq_refl eq_refl _ _ _ Hg).
    intros id rc [Hsi Hb] Erc. cbn [contents plan_env]. unfold plan_env. cbn [contents]. rewrite Hsi.
    pose proof (ns_planned Hdb Hshape Hgood (before_In_l Hb)) as Hpi. destruct Hpi as (si & Hsi1 & Hsi2). destruct (key_dget Hsi2) as (qi & Eqi).
    destruct (A _ _ _ (dget_In Eqi) Hsi1) as (_ & [Hs|(vs & Hlv & Hs)]); rewrite Hs.
    - clear. induction (rows (i_name id)); constructor; auto.
    - assert (Hnid : ~ In id_column rc).
      { unfold source_cols in Erc. destruct (dget ms (i_name id)) as [mi|] eqn:Emi; [|discriminate]. injection Erc as <-. destruct (M2 _ _ (dget_In Emi)) as [Ht' _]. exact (proj1 (proj2 (Hsrc Ht'))). }
      revert vs Hlv Hs. generalize (sample (i_name id)). generalize (rows (i_name id)). clear - Hnid. intros l l0 vs Hlv _. revert vs Hlv.
      induction l as [|r l IH]; intros [|v vs] Hlv; try discriminate; cbn [combine map]; constructor; [|apply IH; now injection Hlv].
      cbn [fst snd]. intros c Hc. apply rget_cons_ne. intros ->. exact (Hnid Hc). }
  assert (Hsub : forall n, planned p n -> incl (rows n) (source n) /\ NoDup (rows n)).
  { intros n (s & Hs & Hk). destruct (key_dget Hk) as (q & Eq). destruct (Hq' _ _ _ (dget_In Eq) Hs) as (stm & ph & _ & Hro & Ht & Er). rewrite Er. split.
    - intros r Hr. exact (reads_source (Hz ph n) Hro Hr).
    - apply (@reads_nodup cmpf textf source rows (z ph n) n stm (Hz ph n) Hro). rewrite <- (proj2 Ht). exact (proj1 (Hsrc (proj1 Ht))). }
  split; [intros n m Hm; exact (proj1 (B n m Hm))|]. split; [exact Hsub|]. split.
  { intros s q n Hin Hn. destruct (Hq' _ _ _ Hin Hn) as (stm & ph & -> & _ & _ & Er). exists ph. exact Er. }
  split.
  { intros n Hp c d dc Hdec. pose proof (decides_governs Hdec) as Hg.
    assert (Hpd : planned p d).
    { destruct Hp as (s & Hs & Hk). destruct (rn_governs HR (ex_intro _ s (conj Hs Hk)) Hg) as ((sd & Hsd & Hkd) & _). exists sd. auto. }
    destruct (Hsub d Hpd) as [S1 S2]. refine (unique_sub _ S1 S2). apply Huniq. destruct Hg as (_ & _ & _ & _ & _ & _ & Hc). exact Hc. }
  split.
  { intros o m Ho Hm Hs.
    assert (Hlen : length (num (co_name o)) = length (rows (co_name o))).
    { destruct (B _ _ Hm) as [B1 _]. apply Permutation_length in B1. rewrite map_length, seq_length in B1. exact B1. }
    assert (Em : dget ms (co_name o) = Some m) by exact (In_dget (proj1 (rn_meta HR)) Hm).
    assert (Hdec : not_compacted ms compact (co_name o) \/ touched ms compact (co_name o)).
    { destruct (dmem compact (co_name o)) eqn:Ed; [right; left; apply dmem_true; exact Ed|]. destruct (remote_compact compact m) as [|[c [d dc]] l] eqn:Erc.
      - left. split; [apply dmem_false; exact Ed|]. intros c d dc Hg. destruct (governs_remote (rn_meta HR) (rn_compact HR) Em Hg) as (d' & dc' & Ex). rewrite Erc in Ex. discriminate.
      - right. right. exists c, d, dc. apply (remote_governs (rn_compact HR) Em). rewrite Erc. cbn [dget]. destruct (eq_dec c c); [reflexivity|contradiction]. }
    destruct Hdec as [Hn|Ht].
    - rewrite (C o Ho Hn). exact (plain_changed cmpf m Hn Hlen).
    - destruct (D o m Ho Hm Ht Hs) as [_ D2]. eapply OutputKeys.Forall2_impl2; [|exact D2]. intros kr r' Hrw. exact (rewritten_changed Hrw). }
  intros Hsym Hsc Hall n fk Hc Hp Hpd. eapply (fk_preserved Hdb Hord Hordp Hplan); try eassumption.
  intros s q n0 Hin Hn0. destruct (Hq' _ _ _ Hin Hn0) as (stm & ph & -> & _ & _ & Er). exists stm, (z ph n0). split; [reflexivity|]. split; [apply Hz|]. rewrite Er at 1. apply Permutation_refl.
Qed.
End Run.

Section Whole.
Context {G : Type}.
Variables (E : env G) (cfg : sampler_config) (c : db_config) (p : plan) (w : world) (pcfg : config).
Notation db := (en_source_schema E).
Notation fnm := (en_fnm E).
Notation to := (lands (en_resub E) (oc_remap c)).
Hypothesis He : env_ok E.
Hypothesis Hnum : numbers_rows E.
Hypothesis Hpl : planned_by E p pcfg.
Variables (ms : meta) (compact : dict tname (list string)).
Hypothesis Hrn : renumbers E cfg p ms compact.

Lemma renumbered_runnable : runnable id_column (en_reopen E) ms (en_source E) compact (p_queries p).
Proof.
  destruct Hpl as (Hcfg & Hxv & Hdb & Htf & (ord & ordp & Hord & Hordp & Hplan) & Hsrc & Hself). destruct Hrn as (Hms & Hcc & Hnd & Hcols & Hlit & Hu & H1).
  destruct (sampler_meta_spec fnm (p_queries p) (sc_infer cfg) Hdb) as (ms' & E' & M1 & Htab & Hkeys). rewrite Hms in E'. injection E' as <-.
  destruct (@compact_columns_spec (sc_compact cfg) (p_passthrough p) ms (en_src_int E) (en_src_autoinc E) Hnd compact Hcc) as [Hck Hcs].
  apply (whole_runnable Hdb Hord Hordp Hcfg Hxv Htf Hplan Hsrc Hself Hms); [exact Hck|exact (compact_nonempty Hcc)| |exact H1].
  intros n x Hc. apply Hcs in Hc. destruct Hc as (m & Hm & _ & Hc). split.
  - assert (Hk : In n (dkeys ms)) by (apply in_map_iff; exists (n, m); auto). apply Hkeys in Hk. destruct Hk as (t & s & k & _ & Hn & Hk & Hf).
    apply (Hlit s k Hk) in Hf. subst k. exists s. auto.
  - exists (tm_table m). split; [exact (Htab n m Hm)|]. destruct Hc as [(s & cs & Hin & Hn & Hc)|(Hpk & _)].
    + exact (Hcols s cs n _ x Hin Hn (Htab n m Hm) Hc).
    + destruct Hdb as [_ Hall]. destruct (Hall _ (proj1 (Htab n m Hm))) as (_ & _ & Hincl & _). apply Hincl. rewrite Hpk. left. reflexivity.
Qed.

Theorem renumbered_distinct : distinct_columns E cfg p.
Proof.
  intros ms2 compact2 st mults t co (Hms2 & _ & Hc2 & Hst) Hres. pose proof renumbered_runnable as HR. destruct Hrn as (Hms & Hcc & _). rewrite Hms in Hms2. injection Hms2 as <-. rewrite Hcc in Hc2. injection Hc2 as <-.
  destruct He as (A1 & A2 & A3). destruct (copied_columns A1 A2 A3 HR Hst Hres) as (_ & m & Hm & ->).
  destruct Hpl as (_ & _ & Hdb & _). destruct (sampler_meta_spec fnm (p_queries p) (sc_infer cfg) Hdb) as (ms' & E' & _ & B & _). rewrite Hms in E'. injection E' as <-.
  destruct (B _ _ (dget_In Hm)) as [Ht _]. exact (proj1 (proj2 (proj2 Hdb _ Ht))).
Qed.

Hypothesis Hsym : eq_symmetric (en_cmp E).
Hypothesis Htrans : eq_transitive (en_cmp E).
Hypothesis Hrefl : forall k, en_cmp E CEq (VInt k) (VInt k) = true.
Hypothesis Hsc : source_consistent fnm pcfg db (en_cmp E) (en_source E).
Hypothesis Hall : forall n g, is_target pcfg n g -> tg_all g = true -> tg_amount g = None.

(** The results the run copies are consistent. *)
Theorem renumbered_results t td fk n st mults co cod :
  In t (dkeys (p_queries p)) -> In td (dkeys (p_queries p)) -> named t n -> named td (fk_dst fk) -> considered fnm pcfg db n fk ->
  (forall x dx, In (x, dx) (combine (fk_cols fk) (fk_dst_cols fk)) -> in_step ms compact n x (fk_dst fk) dx) ->
  computed_by E cfg p ms compact st mults -> result_of E cfg p ms compact st t co -> result_of E cfg p ms compact st td cod ->
  incl (fk_cols fk) (co_cols co) /\ incl (fk_dst_cols fk) (co_cols cod) /\ fk_holds (en_cmp E) fk (co_rows co) (co_rows cod).
Proof.
  intros Ht Htd Hn Hnd Hc Hstep (_ & _ & _ & Hmat) Hres Hresd.
  pose proof renumbered_runnable as HR. destruct Hrn as (Hms & Hcc & Hndc & Hcols' & Hlit & Hu & Hone).
  destruct He as (A1 & A2 & A3).
  destruct (copied_columns A1 A2 A3 HR Hmat Hres) as (Hnc1 & m & Hmm & Hcols). destruct (copied_columns A1 A2 A3 HR Hmat Hresd) as (Hnc2 & md & Hmmd & Hcolsd).
  assert (En : co_name co = n) by exact (named_fun Hnc1 Hn). assert (End : co_name cod = fk_dst fk) by exact (named_fun Hnc2 Hnd).
  destruct Hpl as (Hcfg & Hxv & Hdb & Htf & (ord & ordp & Hord & Hordp & Hplan) & Hsrc & Hself).
  destruct (sampler_meta_spec fnm (p_queries p) (sc_infer cfg) Hdb) as (ms' & E' & _ & B & _). rewrite Hms in E'. injection E' as <-.
  destruct (considered_fits Hdb Hc) as (t1 & d1 & Ht1 & Hd1 & I1 & I2).
  rewrite En in Hmm. rewrite End in Hmmd. rewrite (MetadataFacts.table_of_fun Hdb Ht1 (B _ _ (dget_In Hmm))) in I1. rewrite (MetadataFacts.table_of_fun Hdb Hd1 (B _ _ (dget_In Hmmd))) in I2.
  destruct (considered_len Hdb Hxv Hc) as [_ Hlen].
  assert (Hex : extract (en_source E) (en_cmp E) (en_text E) (en_raw E) (en_raw_cols E) (en_rnd E) (en_rank E) (en_reopen E) ms compact (cp_start (sc_compact cfg)) (en_ord_name E) (p_queries p) [t; td] = Ok (st, [co; cod])).
  { unfold extract. rewrite Hmat. cbn [bind mapM]. unfold result_of in Hres, Hresd. rewrite Hres, Hresd. reflexivity. }
  assert (Hrk : forall ph x, rank_ok (fun _ _ => False) (en_rank E ph x)). { intros ph x ks. split; [apply Hnum|]. intros i j a b y y' _ _ _ _ []. }
  destruct (compact_run Hdb Hord Hordp Hcfg Hxv Htf Hplan Hsrc Hself Hms HR A1 A2 Hrk Hu Hex) as (rows & num & R1 & R2 & R3 & R4 & R5 & R6).
  assert (Hpn : planned p n) by (exists t; auto). assert (Hpd : planned p (fk_dst fk)) by (exists td; auto).
  assert (Hlens : forall x y, In (x, y) ms -> length (num x) = length (rows x)).
  { intros x y Hxy. pose proof (R1 x y Hxy) as B1. apply Permutation_length in B1. rewrite map_length, seq_length in B1. exact B1. }
  pose proof (R4 n Hpn) as Hs1. pose proof (R4 _ Hpd) as Hs1d.
  assert (HC : Forall2 (fun kr r' => changed (en_cmp E) ms compact rows num n m (fst kr) (snd kr) r') (combine (num n) (rows n)) (co_rows co)).
  { rewrite <- En in *. exact (R5 co m (or_introl eq_refl) (dget_In Hmm) Hs1). }
  assert (HCd : Forall2 (fun kr r' => changed (en_cmp E) ms compact rows num (fk_dst fk) md (fst kr) (snd kr) r') (combine (num (fk_dst fk)) (rows (fk_dst fk))) (co_rows cod)).
  { rewrite <- End. apply (R5 cod md (or_intror (or_introl eq_refl))); rewrite End; [exact (dget_In Hmmd)|exact Hs1d]. }
  pose proof (R6 Hsym Hsc Hall n fk Hc Hpn Hpd) as Hfk0.
  pose proof (changed_fk Hrefl Hsym Htrans Hs1 Hs1d (Hlens _ _ (dget_In Hmm)) (Hlens _ _ (dget_In Hmmd)) HC HCd Hlen I1 I2 Hstep Hfk0) as Hfk.
  rewrite Hcols, Hcolsd. split; [exact I1|]. split; [exact I2|exact Hfk].
Qed.

Hypothesis Hok : run_ok E cfg c p (w_dest w).
Hypothesis Hnil : trace w = [].
Hypothesis Hplain : plain_run cfg c.
Variables (truncate create : bool) (g : G) (w' : world) (g' : G).
Hypothesis Hs : sample E cfg p truncate create g w = (w', Ok g').

Section Key.
Variables (t td : string) (fk : fkey) (n n' nd' : tname).
Hypothesis Ht : In t (dkeys (p_queries p)).
Hypothesis Htd : In td (dkeys (p_queries p)).
Hypothesis Hn : named t n.
Hypothesis Hnd : named td (fk_dst fk).
Hypothesis Hc : considered fnm pcfg db n fk.
Hypothesis Hg : goes_to (en_resub E) (oc_remap c) n n'.
Hypothesis Hgd : goes_to (en_resub E) (oc_remap c) (fk_dst fk) nd'.
Hypothesis Htb : exists tb, table_of (ds_tables (w_dest w')) n' tb.
Hypothesis Htbd : exists tb, table_of (ds_tables (w_dest w')) nd' tb.
Hypothesis Hem : starts_empty (w_dest w) truncate n'.
Hypothesis Hemd : starts_empty (w_dest w) truncate nd'.
Hypothesis Hk : forall k, In k (fk_cols fk) -> untouched_column E cfg t n' k.
Hypothesis Hkd : forall k, In k (fk_dst_cols fk) -> untouched_column E cfg td nd' k.
Hypothesis Hstep : forall x dx, In (x, dx) (combine (fk_cols fk) (fk_dst_cols fk)) -> in_step ms compact n x (fk_dst fk) dx.

Theorem renumbered_fk : fk_holds (en_cmp E) fk (rows_of (w_dest w') n') (rows_of (w_dest w') nd').
Proof.
  destruct Htb as (tb & Htb'). destruct Htbd as (tbd & Htbd').
  assert (Hto : to t n') by (exists n; split; assumption). assert (Htod : to td nd') by (exists (fk_dst fk); split; assumption).
  destruct (plain_destination Hok Hnil Hplain Hs Ht Hto Htb' Hem) as (ms1 & compact1 & st & mults & co & (Hms1 & Hmu1 & Hcc1 & Hmat) & Hres & HF).
  destruct (plain_destination Hok Hnil Hplain Hs Htd Htod Htbd' Hemd) as (ms2 & compact2 & st2 & mults2 & cod & (Hms2 & _ & Hcc2 & Hmat2) & Hresd & HFd).
  destruct Hrn as (Hms & Hcc & _).
  rewrite Hms in Hms1, Hms2. injection Hms1 as <-. injection Hms2 as <-. rewrite Hcc in Hcc1, Hcc2. injection Hcc1 as <-. injection Hcc2 as <-. rewrite Hmat in Hmat2. injection Hmat2 as <-.
  destruct (@renumbered_results t td fk n st mults co cod Ht Htd Hn Hnd Hc Hstep (conj Hms (conj Hmu1 (conj Hcc Hmat))) Hres Hresd) as (I1 & I2 & Hfk).
  assert (Heq : forall r row, (forall k, In k (co_cols co) -> untouched_column E cfg t n' k -> rget row k = rget r k) -> forall k, In k (fk_cols fk) -> rget row k = rget r k).
  { intros r row Hrr k Hi. apply Hrr; [exact (I1 _ Hi)|exact (Hk Hi)]. }
  intros row Hrow Hnn. destruct (Forall2_In_r HF Hrow) as (r & Hr & Hrr).
    destruct (Hfk r Hr) as (r' & Hr' & Href). { intros x Hx. rewrite <- (Heq _ _ Hrr x Hx). exact (Hnn x Hx). }
    destruct (Forall2_In_l HFd Hr') as (row' & Hrow' & Hrr'). exists row'. split; [exact Hrow'|].
    assert (Heqd : forall k, In k (fk_dst_cols fk) -> rget row' k = rget r' k). { intros k Hi. apply Hrr'; [exact (I2 _ Hi)|exact (Hkd Hi)]. }
    pose proof (Heq _ _ Hrr) as Heq'. unfold refers in *. clear - Href Heq' Heqd. induction Href as [|a b la lb (H1 & H2 & H3) _ IH]; constructor.
    + rewrite (Heq' a (or_introl eq_refl)), (Heqd b (or_introl eq_refl)). auto.
    + apply IH; intros k Hk; [apply Heqd|apply Heq']; now right.
Qed.
End Key.

Theorem renumbered_kept t fk n n' :
  In t (dkeys (p_queries p)) -> named t n -> planned p (fk_dst fk) -> considered fnm pcfg db n fk -> goes_to (en_resub E) (oc_remap c) n n' ->
  (exists tb, table_of (ds_tables (w_dest w')) n' tb) -> starts_empty (w_dest w) truncate n' ->
  (forall k, In k (fk_cols fk) -> untouched_column E cfg t n' k) ->
  exists rows, (forall s q m, In (s, q) (p_queries p) -> named s m -> exists ph, rows m = query_result (en_cmp E) (en_text E) (en_raw E) (en_source E) rows (en_rnd E ph m) q) /\
    Forall2 (fun r row => (forall k, In k (fk_cols fk) -> rget r k <> VNull) ->
      forall x dx, In (x, dx) (combine (fk_cols fk) (fk_dst_cols fk)) -> decides ms compact n x (fk_dst fk) dx -> ~ compacted compact n x -> rget row x <> VNull)
      (rows n) (rows_of (w_dest w') n').
Proof.
  intros Ht Hn Hpd Hc Hg (tb & Htb') Hem Hk. assert (Hto : to t n') by (exists n; split; assumption).
  destruct (plain_destination Hok Hnil Hplain Hs Ht Hto Htb' Hem) as (ms1 & compact1 & st & mults & co & (Hms1 & Hmu1 & Hcc1 & Hmat) & Hres & HF).
  pose proof renumbered_runnable as HR. destruct Hrn as (Hms & Hcc & Hndc & Hcols' & Hlit & Hu & Hone).
  rewrite Hms in Hms1. injection Hms1 as <-. rewrite Hcc in Hcc1. injection Hcc1 as <-. destruct He as (A1 & A2 & A3).
  destruct (copied_columns A1 A2 A3 HR Hmat Hres) as (Hnc1 & m & Hmm & Hcols). assert (En : co_name co = n) by exact (named_fun Hnc1 Hn).
  destruct Hpl as (Hcfg & Hxv & Hdb & Htf & (ord & ordp & Hord & Hordp & Hplan) & Hsrc & Hself).
  destruct (sampler_meta_spec fnm (p_queries p) (sc_infer cfg) Hdb) as (ms' & E' & _ & B & _). rewrite Hms in E'. injection E' as <-.
  destruct (considered_fits Hdb Hc) as (t1 & d1 & Ht1 & Hd1 & I1 & I2). rewrite En in Hmm. rewrite (MetadataFacts.table_of_fun Hdb Ht1 (B _ _ (dget_In Hmm))) in I1.
  assert (Hex : extract (en_source E) (en_cmp E) (en_text E) (en_raw E) (en_raw_cols E) (en_rnd E) (en_rank E) (en_reopen E) ms compact (cp_start (sc_compact cfg)) (en_ord_name E) (p_queries p) [t] = Ok (st, [co])).
  { unfold extract. rewrite Hmat. cbn [bind mapM]. unfold result_of in Hres. rewrite Hres. reflexivity. }
  assert (Hrk : forall ph x, rank_ok (fun _ _ => False) (en_rank E ph x)). { intros ph x ks. split; [apply Hnum|]. intros i j a b y y' _ _ _ _ []. }
  destruct (compact_run Hdb Hord Hordp Hcfg Hxv Htf Hplan Hsrc Hself Hms HR A1 A2 Hrk Hu Hex) as (rows & num & R1 & R2 & R3 & R4 & R5 & R6).
  assert (Hpn : planned p n) by (exists t; auto).
  assert (Hlens : length (num n) = length (rows n)).
  { pose proof (R1 n m (dget_In Hmm)) as B1. apply Permutation_length in B1. rewrite map_length, seq_length in B1. exact B1. }
  assert (HC : Forall2 (fun kr r' => changed (en_cmp E) ms compact rows num n m (fst kr) (snd kr) r') (combine (num n) (rows n)) (co_rows co)).
  { pose proof (R4 n Hpn) as Hs1. rewrite <- En in *. exact (R5 co m (or_introl eq_refl) (dget_In Hmm) Hs1). }
  pose proof (changed_kept (d := fk_dst fk) Hlens HC I1 (R6 Hsym Hsc Hall n fk Hc Hpn Hpd)) as Hkept.
  assert (Heq : forall r row, (forall k, In k (co_cols co) -> untouched_column E cfg t n' k -> rget row k = rget r k) -> forall k, In k (fk_cols fk) -> rget row k = rget r k).
  { intros r row Hrr k Hi. apply Hrr; [rewrite Hcols; exact (I1 _ Hi)|exact (Hk k Hi)]. }
  exists rows. split; [exact R3|]. clear - HF Hkept Heq. revert HF. generalize (rows_of (w_dest w') n'). induction Hkept as [|r r1 rs os H _ IH]; intros l HF; inversion HF; subst; constructor; [|apply IH; assumption].
  intros Hnn x dx Hx Hgv Hnc. rewrite (Heq _ _ H2 x (in_combine_l _ _ _ _ Hx)). exact (H Hnn x dx Hx Hnc Hgv).
Qed.
End Whole.

Theorem renumbered_packed {G} (E : env G) cfg c p pcfg ms compact truncate w w' :
  renumbering_run E cfg c p pcfg ms compact truncate w w' -> forall fk n n' nd',
  arrives E cfg c p truncate w w' n n' (fk_cols fk) -> arrives E cfg c p truncate w w' (fk_dst fk) nd' (fk_dst_cols fk) ->
  considered (en_fnm E) pcfg (en_source_schema E) n fk ->
  (forall x dx, In (x, dx) (combine (fk_cols fk) (fk_dst_cols fk)) -> in_step ms compact n x (fk_dst fk) dx) ->
  fk_holds (en_cmp E) fk (rows_of (w_dest w') n') (rows_of (w_dest w') nd').
Proof.
  intros (A1 & A2 & A3 & A4 & A5 & A6 & A7 & A8 & A9 & A10 & A11 & A12 & create & g & g' & Hs) fk n n' nd' (t & B1 & B2 & B3 & B4 & B5 & B6) (td & C1 & C2 & C3 & C4 & C5 & C6) Hc Hstep.
  exact (renumbered_fk A1 A2 A3 A4 A8 A9 A10 A11 A12 A5 A6 A7 Hs B1 C1 B2 C2 Hc B3 C3 B4 C4 B5 C5 B6 C6 Hstep).
Qed.
Theorem kept_packed {G} (E : env G) cfg c p pcfg ms compact truncate w w' :
  renumbering_run E cfg c p pcfg ms compact truncate w w' -> forall fk n n',
  arrives E cfg c p truncate w w' n n' (fk_cols fk) -> planned p (fk_dst fk) ->
  considered (en_fnm E) pcfg (en_source_schema E) n fk ->
  exists rows, (forall s q m, In (s, q) (p_queries p) -> named s m -> exists ph, rows m = query_result (en_cmp E) (en_text E) (en_raw E) (en_source E) rows (en_rnd E ph m) q) /\
    Forall2 (fun r row => (forall k, In k (fk_cols fk) -> rget r k <> VNull) ->
      forall x dx, In (x, dx) (combine (fk_cols fk) (fk_dst_cols fk)) -> decides ms compact n x (fk_dst fk) dx -> ~ compacted compact n x -> rget row x <> VNull)
      (rows n) (rows_of (w_dest w') n').
Proof.
  intros (A1 & A2 & A3 & A4 & A5 & A6 & A7 & A8 & A9 & A10 & A11 & A12 & create & g & g' & Hs) fk n n' (t & B1 & B2 & B3 & B4 & B5 & B6) Hpd Hc.
  refine (renumbered_kept A1 A2 A3 A4 _ A11 A12 A5 A6 A7 Hs B1 B2 Hpd Hc B3 B4 B5 B6); assumption.
Qed.
