(** Proofs about destinations that several runs and other programs write to at the same time (C133, C134). *)
From Coq Require Import Lia.
From Verif Require Import Model.Base Model.Value Model.Names Model.PlanModel Model.Metadata Model.Planner Model.Filters Model.Output Model.Sampler.
From Verif Require Import Spec.GraphSpec Spec.SchemaSpec Spec.SqlSem Spec.PlannerSpec Spec.OutputSpec Spec.RunSpec Spec.RerunSpec Spec.SampleSpec Spec.WholeSpec Spec.CompactWholeSpec Spec.CopiesSpec Spec.MomentsSpec Spec.KeepSpec Spec.SharedSpec.
From Verif Require Import Proofs.BaseFacts Proofs.GraphFacts Proofs.OutputRows Proofs.OutputDb Proofs.OutputCreate Proofs.OutputCopy Proofs.OutputMain Proofs.OutputEvents Proofs.OutputMore Proofs.OutputRerun Proofs.WholeRun Proofs.ConflictFacts Proofs.CopiesInsert Proofs.WholeCopies Proofs.Repeat Proofs.KeepRun Proofs.Moments Proofs.History.
From Verif Require Import Model.Dest.
Set Implicit Arguments. Unset Strict Implicit.
Open Scope list_scope.

(** What an INSERT adds to what was given for a table. *)
Lemma written_snoc tr n m how rows : written (tr ++ [EvInsert m how rows]) n = written tr n ++ (if eq_dec m n then rows else []).
Proof. rewrite OutputCopy.written_app. f_equal. unfold written, batches. cbn. destruct (eq_dec m n); [cbn; now rewrite app_nil_r|reflexivity]. Qed.
Lemma written_snoc_other tr n e : (forall m how rows, e <> EvInsert m how rows) -> written (tr ++ [e]) n = written tr n.
Proof. intros H. rewrite OutputCopy.written_app. rewrite <- (app_nil_r (written tr n)) at 2. f_equal. unfold written, batches. destruct e; try reflexivity. elim (H n0 how rows). reflexivity. Qed.

Section One.
Context {G : Type}.
Variables (E : env G) (cfg : sampler_config) (c : db_config) (p : plan).
Notation queries := (dkeys (p_queries p)).
Notation to := (lands (en_resub E) (oc_remap c)).
Variables (w : world) (g : G) (w' : world) (r : res out_exn G).
Hypothesis Hok : run_ok E cfg c p (w_dest w).
Hypothesis Hnil : trace w = [].

(** Without --truncate and --create there are only INSERTs and sequences are set. *)
Lemma plain_events : sample E cfg p false false g w = (w', r) ->
  ds_tables (w_dest w') = ds_tables (w_dest w) /\ forall e, In e (trace w') -> inserting e \/ e = EvCreate [].
Proof.
  intros Hs. destruct (run_trace Hok Hnil Hs) as (ts & dn & tw & d1 & d2 & o1 & Htr & Hi & Hdb & _ & Hts & _ & Hrest).
  assert (ts = []) as -> by (destruct ts as [|t ts]; [reflexivity|destruct (Hts t (or_introl eq_refl)) as [F _]; discriminate]).
  assert (dn = []) as ->.
  { destruct dn as [|n dn]; [reflexivity|]. assert (Hne : map EvDelete (n :: dn) ++ tw <> []) by discriminate. destruct (Hrest (or_introl Hne)) as (_ & del & l2 & Edel & Hdel & _). cbn in Hdel. subst del. discriminate. }
  rewrite app_nil_r in Hdb. split; [exact Hdb|]. rewrite Forall_forall in Hi. destruct Htr as [[-> _]| ->]; cbn; intros e He; [left; exact (Hi e He)|].
  destruct He as [<-|He]; [now right|left; exact (Hi e He)].
Qed.

(** What a referenced table is given is complete before anything is given for a table referring to it. *)
Lemma parents_first truncate create tr na nb : sample E cfg p truncate create g w = (w', r) -> initial_part tr (trace w') -> references (ds_tables (w_dest w')) na nb ->
  written tr na <> [] -> written (trace w') nb <> [] -> written tr nb = written (trace w') nb.
Proof.
  intros Hs Hp Href Hna Hnb. destruct (crash_prefix Hok Hnil Hs) as (samples & Hnd & Hsam & Hpre).
  assert (Hin : forall n tr, initial_part tr (trace w') -> written tr n <> [] -> exists rows, In (n, rows) samples).
  { intros n tr0 Hp0 Hne. destruct (in_dec (@eq_dec _ _) n (map fst samples)) as [Hi|Hi]; [|elim Hne; unfold written; rewrite (proj1 (Hpre _ Hp0) n Hi); reflexivity].
    apply in_map_iff in Hi. destruct Hi as ([n0 rows] & En & Hi). cbn in En. subst n0. eauto. }
  destruct (Hin na tr Hp Hna) as (ra & Ha). destruct (Hin nb _ (initial_refl _) Hnb) as (rb & Hb).
  destruct Hsam as [->|(order & Hins & Hsa)]; [elim Ha|].
  assert (Hbe : before samples (nb, rb) (na, ra)) by exact (samples_before Hnd Hins Hsa Ha Hb Href).
  assert (Hall : forall tr, initial_part tr (trace w') -> written tr na <> [] -> written tr nb = rb).
  { intros tr0 Hp0 Hna0. destruct (Hpre tr0 Hp0) as (_ & _ & dn & rest & Edr & Hdone & Hrest). rewrite Edr in Hbe. apply before_app_inv in Hbe. destruct Hbe as [Hbe|[[Hi1 Hi2]|Hbe]].
    - exact (Hdone _ _ (before_In_l Hbe)).
    - exact (Hdone _ _ Hi1).
    - exfalso. destruct rest as [|[n rows] later]; [destruct Hbe as (l1 & l2 & l3 & F); destruct l1; discriminate|]. destruct Hrest as [_ Hl]. apply Hna0. apply Hl.
      apply in_map_iff. exists (na, ra). split; [reflexivity|]. apply before_cons_inv in Hbe. destruct Hbe as [[_ Hi]|Hbe]; [exact Hi|exact (before_In_r Hbe)]. }
  rewrite (Hall tr Hp Hna). symmetry. apply Hall; [apply initial_refl|]. destruct Hp as (rest & ->). rewrite OutputCopy.written_app. intros F. apply app_eq_nil in F. exact (Hna (proj1 F)).
Qed.

(** An INSERT of the run. *)
Lemma insert_event truncate create m how rows : sample E cfg p truncate create g w = (w', r) -> In (EvInsert m how rows) (trace w') ->
  exists t tb cols, In t queries /\ to t m /\ table_of (ds_tables (w_dest w')) m tb /\ conflict_insert (oc_dialect c) (strategy_of c p t) tb cols = Ok how /\
    incl cols (tb_cols tb) /\ forall row, In row rows -> dkeys row = cols.
Proof.
  intros Hs He. destruct (run_events Hok Hnil Hs) as [(cf & Hev) _]. rewrite Forall_forall in Hev. destruct (Hev _ He) as (t & tb & H1 & H2 & H3 & H4 & _ & H5 & H6).
  exists t, tb, (cf t). split; [exact H1|]. split; [exact H2|]. split; [exact H3|]. split; [exact H4|]. split; [exact H5|exact H6].
Qed.

(** Rows are found by the columns a foreign key refers to. *)
Lemma found_again pcfg truncate create m how rows n tb0 fk t tb : sample E cfg p truncate create g w = (w', r) -> In (EvInsert m how rows) (trace w') ->
  table_of (ds_tables (w_dest w')) n tb0 -> In fk (tb_fks tb0) -> respected E cfg c p pcfg truncate w (ds_tables (w_dest w')) n fk ->
  m = fk_dst fk -> In t queries -> to t m -> table_of (ds_tables (w_dest w')) m tb -> found_by_key c p t tb (fk_dst_cols fk).
Proof.
  intros Hs He Hn Hfk [Hcar Hby] -> Ht Hto Htb. destruct (target_dec E c p n) as [Htg|Htg]; [|exact (Hby Htg t tb Ht Hto Htb)].
  destruct (Hcar Htg) as (fk0 & t0 & td & n0 & tb1 & tbd & _ & _ & E2 & _ & (D1 & D2 & D3 & D4 & _) & _ & Hf & _).
  assert (td = t) as -> by (refine (OutputMore.lands_inj Hok Hnil Hs He _ D1 Ht _ Hto); [discriminate|exists (fk_dst fk0); split; assumption]).
  rewrite (table_of_fun (tables_distinct Hok Hnil Hs) Htb D4), <- E2. exact Hf.
Qed.
End One.

Lemma found_table ts n tb : NoDup (map tb_name ts) -> find_table ts n = Some tb -> forall tb', table_of ts n tb' -> tb' = tb.
Proof. intros Hnd Hf tb' Ht. exact (table_of_fun Hnd Ht (History.find_table_of Hf)). Qed.

Section Many.
Variable dflt : tname -> string -> list row -> row -> value.
Variable cmpf : cmpop -> value -> value -> bool.

(** What was given for a referenced table can be found there by the key. *)
Definition findable (d : dest) (done : list event) : Prop :=
  forall n tb fk x, table_of (ds_tables d) n tb -> In fk (tb_fks tb) -> In x (written done (fk_dst fk)) ->
    exists r, In r (rows_of d (fk_dst fk)) /\ forall k, In k (fk_dst_cols fk) -> In k (dkeys x) -> rget r k = rget x k.
(** A run in progress that began when the tables were the same. *)
Definition under_way (d : dest) (s : session) : Prop :=
  (exists d1, ds_tables d1 = ds_tables d /\ careful_run dflt cmpf d1 (fst s ++ snd s)) /\ findable d (fst s).

Lemma others_findable d d' done : careful_others cmpf d d' -> findable d done -> findable d' done.
Proof.
  intros (Ht & Hi & _) Hf n tb fk x Htb Hfk Hx. rewrite Ht in Htb. destruct (Hf n tb fk x Htb Hfk Hx) as (r & Hr & Hg). exists r. split; [exact (Hi _ _ Hr)|exact Hg].
Qed.

(** One statement of a run. *)
Lemma statement d d1 done e todo d' : ds_tables d1 = ds_tables d -> careful_run dflt cmpf d1 (done ++ e :: todo) -> findable d done -> holding cmpf d -> exec dflt d e = Some d' ->
  ds_tables d' = ds_tables d /\ holding cmpf d' /\ findable d' (done ++ [e]) /\ forall other, findable d other -> findable d' other.
Proof.
  intros Ht1 Hrun Hf Hh Hx. remember (done ++ e :: todo) as T eqn:ET. destruct Hrun as [G E cfg c p pcfg g w' r Hdf Hcm Hgood Hs Hresp].
  assert (Hgood' := Hgood). destruct Hgood' as (A1 & A2 & A3 & A4 & A5 & A6 & A7 & A8).
  destruct (plain_events (w := mkWorld d1 []) A3 eq_refl Hs) as [Htab Hev]. cbn [w_dest] in Htab. rewrite Ht1 in Htab.
  assert (He : In e (trace w')) by (rewrite ET; apply in_or_app; right; now left).
  assert (Hsame : rows_of d' = rows_of d -> ds_tables d' = ds_tables d -> (forall m how rows, e <> EvInsert m how rows) ->
    ds_tables d' = ds_tables d /\ holding cmpf d' /\ findable d' (done ++ [e]) /\ forall other, findable d other -> findable d' other).
  { intros Hr Ht Hno. split; [exact Ht|]. split; [intros n tb fk H1 H2; rewrite Ht in H1; rewrite Hr; exact (Hh n tb fk H1 H2)|].
    assert (Hk : forall other, findable d other -> findable d' other) by (intros other Ho n tb fk x H1 H2 H3; rewrite Ht in H1; rewrite Hr; exact (Ho n tb fk x H1 H2 H3)).
    split; [|exact Hk]. intros n tb fk x H1 H2 H3. rewrite (written_snoc_other _ _ Hno) in H3. exact (Hk done Hf n tb fk x H1 H2 H3). }
  destruct (Hev e He) as [Hi|Hi]; [|subst e; cbn in Hx; injection Hx as <-; apply Hsame; [reflexivity|apply app_nil_r|discriminate]].
  destruct e as [ts|m|m how rows|m v|q|q r0]; try (elim Hi; fail).
  2:{ cbn in Hx. destruct (serial_table _ m) as [m'|]; [|discriminate]. injection Hx as <-. apply Hsame; [|unfold set_seq; destruct (dmem _ _); reflexivity|discriminate].
      unfold rows_of. rewrite (proj1 (proj2 (set_seq_same d m' v))). reflexivity. }
  clear Hsame Hi. cbn in Hx. destruct (find_table (ds_tables d) m) as [tb|] eqn:Eft; [|discriminate]. destruct (insert_rows dflt tb how (rows_of d m) rows) as [l|] eqn:Ei; [|discriminate]. injection Hx as <-.
  destruct (insert_event (w := mkWorld d1 []) A3 eq_refl Hs He) as (t & tb' & cols & Q1 & Q2 & Q3 & Q4 & Q5 & Q6). rewrite Htab in Q3.
  assert (Hnd : NoDup (map tb_name (ds_tables d))) by (rewrite <- Htab; exact (tables_distinct (w := mkWorld d1 []) A3 eq_refl Hs)).
  assert (tb' = tb) as -> by exact (found_table Hnd Eft Q3). rewrite <- Hdf in Ei.
  split; [reflexivity|].
  (* rows of a referenced table can still be found *)
  assert (Hstay : forall n tb0 fk, table_of (ds_tables d) n tb0 -> In fk (tb_fks tb0) ->
    (forall o, In o (rows_of d (fk_dst fk)) -> exists r', In r' (rows_of (with_rows d m l) (fk_dst fk)) /\ forall k, In k (fk_dst_cols fk) -> rget r' k = rget o k) /\
    (forall x, m = fk_dst fk -> In x rows -> exists r', In r' (rows_of (with_rows d m l) (fk_dst fk)) /\ forall k, In k (fk_dst_cols fk) -> In k (dkeys x) -> rget r' k = rget x k)).
  { intros n tb0 fk H1 H2. destruct (eq_dec (fk_dst fk) m) as [Em|Em].
    - assert (Hfo : found_by_key c p t tb (fk_dst_cols fk)).
      { assert (Hn1 : table_of (ds_tables (w_dest w')) n tb0) by (rewrite Htab; exact H1). assert (Hn2 : table_of (ds_tables (w_dest w')) m tb) by (rewrite Htab; exact Q3).
        exact (found_again (w := mkWorld d1 []) A3 eq_refl Hs He Hn1 H2 (Hresp n tb0 fk Hn1 H2) (eq_sym Em) Q1 Q2 Hn2). }
      rewrite Em, rows_with_same. destruct (rows_found (dflt := en_dflt E) Q4 Q5 (P := fk_dst_cols fk) Hfo Q6 Ei) as [R1 R2]. split; [exact R1|].
      intros x _ Hx. destruct (R2 x Hx) as (r' & Hr' & Hg). exists r'. split; [exact Hr'|]. intros k Hk Hkx. apply Hg; [exact Hk|]. rewrite <- (Q6 x Hx). exact Hkx.
    - rewrite rows_with_other by exact Em. split; [intros o Ho; exists o; split; [exact Ho|reflexivity]|]. intros x F. now elim Em. }
  assert (Hk : forall other, findable d other -> findable (with_rows d m l) other).
  { intros other Ho n tb0 fk x H1 H2 H3. change (ds_tables (with_rows d m l)) with (ds_tables d) in H1. destruct (Ho n tb0 fk x H1 H2 H3) as (r1 & Hr1 & Hg1). destruct (proj1 (Hstay n tb0 fk H1 H2) r1 Hr1) as (r2 & Hr2 & Hg2).
    exists r2. split; [exact Hr2|]. intros k K1 K2. rewrite (Hg2 k K1). exact (Hg1 k K1 K2). }
  assert (Hf' : findable (with_rows d m l) (done ++ [EvInsert m how rows])).
  { intros n tb0 fk x H1 H2 H3. change (ds_tables (with_rows d m l)) with (ds_tables d) in H1. rewrite written_snoc in H3. apply in_app_or in H3. destruct H3 as [H3|H3]; [exact (Hk done Hf n tb0 fk x H1 H2 H3)|].
    destruct (eq_dec m (fk_dst fk)) as [Em|]; [|elim H3]. exact (proj2 (Hstay n tb0 fk H1 H2) x Em H3). }
  split; [|split; [exact Hf'|exact Hk]].
  intros n tb0 fk H1 H2 row Hrow Hnn. change (ds_tables (with_rows d m l)) with (ds_tables d) in H1.
  assert (Hold : In row (rows_of d n) -> exists r', In r' (rows_of (with_rows d m l) (fk_dst fk)) /\ refers cmpf fk row r').
  { intros Ho. destruct (Hh n tb0 fk H1 H2 row Ho Hnn) as (o & Ho' & Hrf). destruct (proj1 (Hstay n tb0 fk H1 H2) o Ho') as (r' & Hr' & Hg). exists r'. split; [exact Hr'|].
    rewrite <- Hcm in Hrf |- *. exact (refers_alike (fun k _ => eq_refl) Hg Hrf). }
  destruct (eq_dec n m) as [En|En]; [|rewrite rows_with_other in Hrow by exact En; exact (Hold Hrow)].
  subst n. assert (tb0 = tb) as -> by exact (found_table Hnd Eft H1). rewrite rows_with_same in Hrow.
  assert (Hn1 : table_of (ds_tables (w_dest w')) m tb) by (rewrite Htab; exact H1).
  destruct (proj1 (Hresp m tb fk Hn1 H2) (to_tgt Q1 Q2)) as (fk0 & t0 & td & n0 & tb1 & tbd & Hc & E1 & E2 & Hct & Hctd & Hrep & Hfound & Hren & Hal).
  assert (t0 = t) as ->.
  { destruct Hct as (T1 & T2 & T3 & _). refine (OutputMore.lands_inj (w := mkWorld d1 []) A3 eq_refl Hs He _ T1 Q1 _ Q2); [discriminate|exists n0; split; assumption]. }
  assert (tb1 = tb) as -> by (destruct Hct as (_ & _ & _ & T4 & _); rewrite Htab in T4; exact (found_table Hnd Eft T4)).
  destruct (rows_added (dflt := en_dflt E) Q4 Q5 Hrep Q6 Ei Hrow) as [Ho|(x & Hx & Hg)]; [exact (Hold Ho)|].
  assert (Hbeg : began w' r) by (left; exists (EvInsert m how rows); split; [exact He|exact (fun F => F)]).
  assert (Hpre : initial_part (done ++ [EvInsert m how rows]) (trace w')) by (exists todo; rewrite ET, <- app_assoc; reflexivity).
  assert (Hxw : In x (written (done ++ [EvInsert m how rows]) m)) by (rewrite written_snoc; apply in_or_app; right; destruct (eq_dec m m); [exact Hx|congruence]).
  assert (Hxall : In x (written (trace w') m)) by (destruct Hpre as (rest & ->); rewrite OutputCopy.written_app; apply in_or_app; now left).
  assert (Href : references (ds_tables (w_dest w')) m (fk_dst fk)) by (exists tb, fk; auto).
  destruct (any_written A1 A2 A3 A4 A5 A6 A7 A8 Hs Hbeg Hc (or_intror Href) Hct Hctd Hren Hal Hxall) as [Hkx Hrf]. rewrite E1 in Hkx.
  assert (Heq : forall k, In k (fk_cols fk) -> rget row k = rget x k) by (intros k Hkk; apply Hg; rewrite <- (Q6 x Hx); exact (Hkx k Hkk)).
  destruct Hrf as (xd & Hxd & Hind & Hrefers); [rewrite E1; intros k Hkk F; apply (Hnn k Hkk); rewrite (Heq k Hkk); exact F|].
  rewrite E2 in Hind. assert (Hxd' : In xd (written (done ++ [EvInsert m how rows]) (fk_dst fk))).
  { rewrite (parents_first (w := mkWorld d1 []) A3 eq_refl Hs Hpre Href); [exact Hxd|intros F; rewrite F in Hxw; exact Hxw|intros F; rewrite F in Hxd; exact Hxd]. }
  destruct (Hf' m tb fk xd H1 H2 Hxd') as (r' & Hr' & Hg'). exists r'. split; [exact Hr'|]. rewrite <- Hcm.
  refine (refers_alike Heq (fun b Hb => Hg' b Hb (Hind b Hb)) _). unfold refers in *. rewrite E1, E2 in Hrefers. exact Hrefers.
Qed.

(** C133 *)
Theorem shared_holding d0 l d : meanwhile dflt (careful_run dflt cmpf) (careful_others cmpf) d0 l d -> holding cmpf d0 -> holding cmpf d.
Proof.
  intros H H0. assert (Hinv : holding cmpf d /\ Forall (under_way d) l); [|exact (proj1 Hinv)].
  induction H as [|l d todo H [IH1 IH2] Hb|l1 l2 done e todo d d' H [IH1 IH2] Hx|l d d' H [IH1 IH2] Ho].
  - split; [exact H0|constructor].
  - split; [exact IH1|]. apply Forall_app. split; [exact IH2|]. constructor; [|constructor]. split; [exists d; split; [reflexivity|exact Hb]|]. intros n tb fk x _ _ [].
  - apply Forall_app in IH2. destruct IH2 as [F1 F2]. inversion F2 as [|s l' Hs F3]; subst. destruct Hs as [(d1 & Ht1 & Hrun) Hf]. cbn [fst snd] in *.
    destruct (statement Ht1 Hrun Hf IH1 Hx) as (K1 & K2 & K3 & K4). split; [exact K2|].
    assert (Hk : forall s, under_way d s -> under_way d' s) by (intros s [(d2 & T2 & R2) S]; split; [exists d2; split; [congruence|exact R2]|exact (K4 _ S)]).
    apply Forall_app. split; [exact (Forall_impl _ Hk F1)|]. constructor; [|exact (Forall_impl _ Hk F3)].
    split; [exists d1; split; [congruence|]; cbn [fst snd]; rewrite <- app_assoc; exact Hrun|exact K3].
  - split; [exact (proj2 (proj2 Ho) IH1)|]. eapply Forall_impl; [|exact IH2]. intros s [(d2 & T2 & R2) S]. split; [exists d2; split; [rewrite T2; symmetry; exact (proj1 Ho)|exact R2]|exact (others_findable Ho S)].
Qed.
End Many.

(** Nothing is lost. *)
Definition no_overwrite (e : event) : Prop := match e with EvDelete _ => False | EvInsert _ how _ => ~ overwrites how | _ => True end.
Lemma keeping_events d T : keeping_run d T -> Forall no_overwrite T.
Proof.
  intros [G E cfg p create g w' r Hr Hs]. destruct (@sample_does G E cfg p false create g _ _ _ Hs) as [(tr' & Htr & _ & Hall) _]. cbn in Htr. rewrite Htr. eapply Forall_impl; [|exact Hall].
  intros e He. destruct e as [ts|m|m how rs|m v|q|q r0]; try exact I; cbn in He |- *; [discriminate|]. intros Ho. destruct (sc_output cfg) as [dir|c] eqn:Eo; [elim He|].
  destruct how; try (elim Ho; fail). exact (Hr c eq_refl He).
Qed.
Lemma exec_keeps dflt d e d' : no_overwrite e -> exec dflt d e = Some d' -> forall n, initial_part (rows_of d n) (rows_of d' n).
Proof.
  intros He Hx n. assert (Hadd : added_to False (rows_of d n) (rows_of d' n)).
  { refine (replay_added (dflt := dflt) (tr := [e]) (replay_cons _ _ _ _ _ _ Hx (replay_nil _ _)) _ n). intros e' [<-|[]]. destruct e; try exact I; exact He. }
  destruct Hadd as (kept & more & Hn & _ & Hk). rewrite (Hk (fun F => F)) in Hn. exists more. exact Hn.
Qed.

Section Kept.
Variable dflt : tname -> string -> list row -> row -> value.

Lemma fail_rows tb : forall rs l l', insert_rows dflt tb Fail l rs = Some l' -> incl l l' /\
  forall x, In x rs -> exists r, In r l' /\ forall k, In k (dkeys x) -> In k (tb_cols tb) -> rget r k = rget x k.
Proof.
  induction rs as [|y rs IH]; intros l l' H; cbn [insert_rows] in H; [injection H as <-; split; [apply incl_refl|intros x []]|].
  destruct (insert_row tb Fail l (complete dflt tb l y)) as [l1|] eqn:E1; [|discriminate]. destruct (IH _ _ H) as [A B].
  unfold insert_row in E1. destruct (existsb _ _); [discriminate|]. injection E1 as <-. split; [intros x Hx; apply A; apply in_or_app; now left|].
  intros x [<-|Hx]; [|exact (B x Hx)]. exists (complete dflt tb l y). split; [apply A; apply in_or_app; right; now left|]. intros k K1 K2. exact (proj2 (complete_made dflt tb l y) k K1 K2).
Qed.

Theorem shared_kept d0 l d : meanwhile dflt keeping_run keeping_others d0 l d ->
  (forall n, incl (rows_of d0 n) (rows_of d n)) /\ Forall (fun s => Forall no_overwrite (fst s ++ snd s)) l.
Proof.
  induction 1 as [|l d todo H [IH1 IH2] Hb|l1 l2 done e todo d d' H [IH1 IH2] Hx|l d d' H [IH1 IH2] Ho].
  - split; [intros n; apply incl_refl|constructor].
  - split; [exact IH1|]. apply Forall_app. split; [exact IH2|]. constructor; [exact (keeping_events Hb)|constructor].
  - assert (IH2' := IH2). apply Forall_app in IH2. destruct IH2 as [F1 F2]. inversion F2 as [|s l' Hs F3]; subst. cbn [fst snd] in Hs. split.
    + intros n. eapply incl_tran; [apply IH1|]. assert (He : no_overwrite e) by (rewrite Forall_forall in Hs; apply Hs; apply in_or_app; right; now left). destruct (exec_keeps He Hx n) as (more & ->). apply incl_appl, incl_refl.
    + apply Forall_app. split; [exact F1|]. constructor; [cbn [fst snd]; rewrite <- app_assoc; exact Hs|exact F3].
  - split; [|exact IH2]. intros n. eapply incl_tran; [apply IH1|apply Ho].
Qed.

(** The rows of INSERTs that demand fresh keys are there as given. *)
Definition in_place (d : dest) (done : list event) : Prop := forall n rows x, In (EvInsert n Fail rows) done -> In x rows -> there_as_given d n x.
Lemma kept_in_place d d' done : (forall n, incl (rows_of d n) (rows_of d' n)) -> in_place d done -> in_place d' done.
Proof. intros Hi H n rows x He Hx. destruct (H n rows x He Hx) as (r & Hr & Hg). exists r. split; [exact (Hi n r Hr)|exact Hg]. Qed.
Lemma settled_keeps d T : settled_run dflt d T -> Forall no_overwrite T.
Proof.
  intros [G E cfg c p g w' r _ Hok Hst Hs]. apply keeping_events with (d := d). eapply keeping; [|exact Hs]. intros c' Hc'. rewrite (ro_output Hok) in Hc'. injection Hc' as <-. exact Hst.
Qed.

Theorem shared_own_rows d0 l d : meanwhile dflt (settled_run dflt) settled_others d0 l d ->
  Forall (fun s => in_place d (fst s) /\ exists d1, ds_tables d1 = ds_tables d /\ settled_run dflt d1 (fst s ++ snd s)) l.
Proof.
  induction 1 as [|l d todo H IH Hb|l1 l2 done e todo d d' H IH Hx|l d d' H IH Ho].
  - constructor.
  - apply Forall_app. split; [exact IH|]. constructor; [|constructor]. split; [intros n rows x []|]. exists d. split; [reflexivity|exact Hb].
  - apply Forall_app in IH. destruct IH as [F1 F2]. inversion F2 as [|s l' Hs F3]; subst. destruct Hs as [Hp (d1 & Ht1 & Hrun)]. cbn [fst snd] in *.
    assert (Hno := settled_keeps Hrun). rewrite Forall_forall in Hno. specialize (Hno e). assert (Hine : In e (done ++ e :: todo)) by (apply in_or_app; right; now left). specialize (Hno Hine).
    assert (Hk : forall n, incl (rows_of d n) (rows_of d' n)) by (intros n; destruct (exec_keeps Hno Hx n) as (more & ->); apply incl_appl, incl_refl).
    assert (Ht : ds_tables d' = ds_tables d /\ in_place d' [e]).
    { remember (done ++ e :: todo) as T eqn:ET. destruct Hrun as [G E cfg c p g w' r Hdf Hok Hst Hs]. destruct (plain_events (w := mkWorld d1 []) Hok eq_refl Hs) as [Htab Hev]. cbn [w_dest] in Htab.
      destruct e as [ts|m|m how rows|m v|q|q r0].
      - cbn in Hx. injection Hx as <-. destruct (Hev _ Hine) as [F|F]; [elim F|]. injection F as ->. split; [apply app_nil_r|]. intros n rows x [F|[]]. discriminate.
      - elim Hno.
      - cbn in Hx. destruct (find_table (ds_tables d) m) as [tb|] eqn:Ef; [|discriminate]. destruct (insert_rows dflt tb how (rows_of d m) rows) as [l'|] eqn:Ei; [|discriminate]. injection Hx as <-. split; [reflexivity|].
        intros n rows' x [F|[]] Hxx. injection F as -> -> ->. destruct (fail_rows Ei) as [_ Hfr]. destruct (Hfr x Hxx) as (r0 & Hr0 & Hg). exists r0. split; [rewrite rows_with_same; exact Hr0|].
        intros k Hkk. apply Hg; [exact Hkk|]. destruct (insert_event (w := mkWorld d1 []) Hok eq_refl Hs Hine) as (t & tb' & cols & _ & _ & Q3 & _ & Q5 & Q6).
        assert (tb' = tb) as ->. { rewrite Htab, Ht1 in Q3. refine (found_table _ Ef Q3). rewrite <- Ht1, <- Htab. exact (tables_distinct (w := mkWorld d1 []) Hok eq_refl Hs). }
        apply Q5. rewrite <- (Q6 x Hxx). exact Hkk.
      - cbn in Hx. destruct (serial_table _ m) as [m'|]; [|discriminate]. injection Hx as <-. split; [unfold set_seq; destruct (dmem _ _); reflexivity|]. intros n rows x [F|[]]. discriminate.
      - cbn in Hx. injection Hx as <-. split; [reflexivity|]. intros n rows x [F|[]]. discriminate.
      - cbn in Hx. injection Hx as <-. split; [reflexivity|]. intros n rows x [F|[]]. discriminate. }
    destruct Ht as [Ht He].
    assert (Himp : forall s, in_place d (fst s) /\ (exists d1, ds_tables d1 = ds_tables d /\ settled_run dflt d1 (fst s ++ snd s)) ->
      in_place d' (fst s) /\ exists d1, ds_tables d1 = ds_tables d' /\ settled_run dflt d1 (fst s ++ snd s)).
    { intros s [A (d2 & B & C)]. split; [exact (kept_in_place Hk A)|]. exists d2. split; [congruence|exact C]. }
    apply Forall_app. split; [exact (Forall_impl _ Himp F1)|]. constructor; [|exact (Forall_impl _ Himp F3)]. cbn [fst snd]. split.
    + intros n rows x Hi Hxx. apply in_app_or in Hi. destruct Hi as [Hi|Hi]; [exact (kept_in_place Hk Hp Hi Hxx)|exact (He n rows x Hi Hxx)].
    + exists d1. split; [congruence|]. rewrite <- app_assoc. exact Hrun.
  - eapply Forall_impl; [|exact IH]. intros s [A (d2 & B & C)]. destruct Ho as [Ht Hk]. split; [exact (kept_in_place Hk A)|]. exists d2. split; [congruence|exact C].
Qed.

(** C134 *)
Theorem own_rows G (E : env G) cfg c p g d0 l d d1 w' r done todo t n' x : meanwhile dflt (settled_run dflt) settled_others d0 l d -> In (done, todo) l ->
  run_ok E cfg c p d1 -> sample E cfg p false false g (mkWorld d1 []) = (w', r) -> done ++ todo = trace w' ->
  In t (dkeys (p_queries p)) -> lands (en_resub E) (oc_remap c) t n' -> strategy_of c p t = SError -> In x (written done n') -> there_as_given d n' x.
Proof.
  intros Hm Hin Hok Hs Htr Ht Hto Hst Hx. pose proof (shared_own_rows Hm) as Hall. rewrite Forall_forall in Hall. destruct (Hall _ Hin) as [Hp _]. cbn [fst] in Hp.
  unfold written, batches in Hx. apply in_concat in Hx. destruct Hx as (b & Hb & Hx). apply in_flat_map in Hb. destruct Hb as (e & He & Hb).
  destruct e as [| |m how rows| | |]; try (elim Hb). destruct (eq_dec m n') as [->|]; [|elim Hb]. destruct Hb as [->|[]].
  assert (He' : In (EvInsert n' how b) (trace w')) by (rewrite <- Htr; apply in_or_app; now left).
  destruct (insert_event (w := mkWorld d1 []) Hok eq_refl Hs He') as (t' & tb & cols & Q1 & Q2 & _ & Q4 & _).
  assert (t' = t) as -> by (refine (OutputMore.lands_inj (w := mkWorld d1 []) Hok eq_refl Hs He' _ Q1 Ht Q2 Hto); discriminate).
  rewrite (how_fail Q4 Hst) in He. exact (Hp n' b x He Hx).
Qed.
Theorem own_references G (E : env G) cfg c p pcfg g d0 l d d1 w' r done todo n' tb fk' x : meanwhile dflt (settled_run dflt) settled_others d0 l d -> In (done, todo) l ->
  good_start E cfg c p pcfg (mkWorld d1 []) -> sample E cfg p false false g (mkWorld d1 []) = (w', r) -> done ++ todo = trace w' ->
  table_of (ds_tables (w_dest w')) n' tb -> In fk' (tb_fks tb) -> carried_over E cfg c p pcfg false (mkWorld d1 []) (ds_tables (w_dest w')) n' fk' ->
  (forall td, In td (dkeys (p_queries p)) -> lands (en_resub E) (oc_remap c) td (fk_dst fk') -> strategy_of c p td = SError) ->
  In x (written done n') -> (forall k, In k (fk_cols fk') -> rget x k <> VNull) ->
  exists xd, In xd (written done (fk_dst fk')) /\ refers (en_cmp E) fk' x xd /\ there_as_given d (fk_dst fk') xd.
Proof.
  intros Hm Hin Hgood Hs Htr Htb Hfk Hcar Hst Hx Hnn. assert (Hgood' := Hgood). destruct Hgood' as (A1 & A2 & A3 & A4 & A5 & A6 & A7 & A8).
  destruct Hcar as (fk0 & t & td & n0 & tb1 & tbd & Hc & E1 & E2 & Hct & Hctd & _ & _ & Hren & Hal).
  assert (Hxall : In x (written (trace w') n')) by (rewrite <- Htr, OutputCopy.written_app; apply in_or_app; now left).
  assert (Href : references (ds_tables (w_dest w')) n' (fk_dst fk')) by (exists tb, fk'; auto).
  assert (Hbeg : began w' r).
  { assert (Hxx := Hxall). unfold written, batches in Hxx. apply in_concat in Hxx. destruct Hxx as (b & Hb & _). apply in_flat_map in Hb. destruct Hb as (e & He & Hb). left. exists e. split; [exact He|]. destruct e; try (elim Hb). exact (fun F => F). }
  destruct (any_written A1 A2 A3 A4 A5 A6 A7 A8 Hs Hbeg Hc (or_intror Href) Hct Hctd Hren Hal Hxall) as [_ Hrf].
  destruct Hrf as (xd & Hxd & _ & Hrefers); [rewrite E1; exact Hnn|].
  assert (Hpre : initial_part done (trace w')) by (exists todo; symmetry; exact Htr).
  assert (Hxd' : In xd (written done (fk_dst fk'))).
  { rewrite (parents_first (w := mkWorld d1 []) A3 eq_refl Hs Hpre Href); [exact Hxd|intros F; rewrite F in Hx; exact Hx|intros F; rewrite F in Hxd; exact Hxd]. }
  exists xd. split; [exact Hxd'|]. split; [unfold refers in *; rewrite E1, E2 in Hrefers; exact Hrefers|].
  destruct Hctd as (D1 & D2 & D3 & _). assert (Hl : lands (en_resub E) (oc_remap c) td (fk_dst fk')) by (exists (fk_dst fk0); split; assumption).
  exact (own_rows Hm Hin A3 Hs Htr D1 Hl (Hst td D1 Hl) Hxd').
Qed.
End Kept.
