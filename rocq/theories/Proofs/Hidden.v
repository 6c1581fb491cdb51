(** Runs on two sources that differ in hidden columns only (C108). *)
From Coq Require Import Lia.
From Verif Require Import Model.Base Model.Solver Model.Value Model.Names Model.PlanModel Spec.SqlSem Model.SqlAlgebra Model.PlanBuild Model.Metadata Model.Planner Model.Filters
  Model.Multiply Model.Materialize Model.Dest Model.Output Model.Sampler.
From Verif Require Import Spec.GraphSpec Spec.SchemaSpec Spec.PlannerSpec Spec.FilterSpec Spec.OutputSpec Spec.SampleSpec Spec.RunSpec Spec.WholeSpec Spec.HiddenSpec.
From Verif Require Import Proofs.BaseFacts Proofs.MetadataFacts Proofs.FilterFacts Proofs.PlanRun Proofs.MaterializeRun Proofs.HiddenSem Proofs.HiddenRun.
Set Implicit Arguments.
Unset Strict Implicit.
Open Scope list_scope.

(** Programs that do the same. *)
Definition same {X A} (m m' : io X A) : Prop := forall w, m w = m' w.
Lemma same_refl {X A} (m : io X A) : same m m.
Proof. intros w. reflexivity. Qed.
Lemma same_bind {X A B} (m m' : io X A) (k k' : A -> io X B) : same m m' -> (forall a, same (k a) (k' a)) -> same (bind_io m k) (bind_io m' k').
Proof. intros Hm Hk w. unfold bind_io. rewrite Hm. destruct (m' w) as [w1 [a|x]]; [apply Hk|reflexivity]. Qed.
Lemma same_bind_l {X A B} (m : io X A) (k k' : A -> io X B) : (forall a, same (k a) (k' a)) -> same (bind_io m k) (bind_io m k').
Proof. apply same_bind. apply same_refl. Qed.
Lemma same_for {X S A B} (P : A -> B -> Prop) (f : S -> A -> io X S) (f' : S -> B -> io X S) l l' :
  Forall2 P l l' -> (forall s a b, P a b -> same (f s a) (f' s b)) -> forall s, same (for_io f l s) (for_io f' l' s).
Proof. intros HF Hf. induction HF as [|a b l l' Hab _ IH]; intros s; cbn [for_io]; [apply same_refl|]. apply same_bind; auto. Qed.
Lemma same_lift {X A B} (x : res X A) (k k' : A -> io X B) : (forall a, x = Ok a -> same (k a) (k' a)) -> same (bind_io (lift x) k) (bind_io (lift x) k').
Proof. intros H w. unfold bind_io, lift. destruct x as [a|e]; [apply H; reflexivity|reflexivity]. Qed.

(** The filters do not see the hidden values. *)
Section Filters.
Context {G : Type}.
Variable F : filter_env G.
Variables (fs : list filter_config) (cols out : list string) (vs : list view).
Hypothesis Hnd : NoDup cols.
Hypothesis Hch : construct_chain (fe_load_plugin F) fs cols = Ok (vs, out).

Lemma value_of_map (f : string -> value) c : forall l, value_of l (map f l) c = if In_dec' c l then Some (f c) else None.
Proof.
  unfold value_of. induction l as [|a l IH]; [destruct (In_dec' c []) as [[]|]; reflexivity|]. cbn [map combine dget]. destruct (eq_dec c a) as [->|Hne].
  - destruct (In_dec' a (a :: l)) as [_|Hn]; [reflexivity|]. destruct Hn. left. reflexivity.
  - rewrite IH. destruct (In_dec' c l) as [Hi|Hi], (In_dec' c (a :: l)) as [Hj|Hj]; try reflexivity; [destruct Hj; right; exact Hi|destruct Hj; [congruence|contradiction]].
Qed.

Lemma chain_blind ds : forall f1 f2 g, (forall c, In c cols -> f1 c = f2 c \/ (In c ds /\ overwritten fs c)) ->
  run_filters F vs (map f1 cols) g = run_filters F vs (map f2 cols) g.
Proof.
  induction ds as [|d ds IH]; intros f1 f2 g H.
  - assert (E : map f1 cols = map f2 cols) by (apply map_ext_in; intros c Hc; destruct (H c Hc) as [|[[] _]]; assumption). rewrite E. reflexivity.
  - set (f3 := fun c => if eq_dec c d then f2 c else f1 c). transitivity (run_filters F vs (map f3 cols) g).
    + assert (Heq : f1 d = f2 d -> map f1 cols = map f3 cols).
      { intros E. apply map_ext. intros c. unfold f3. destruct (eq_dec c d) as [->|]; congruence. }
      destruct (In_dec' d cols) as [Hd|Hd].
      * destruct (H d Hd) as [E|[_ (pre & s & post & Efs & Hpre & Hh)]]; [rewrite (Heq E); reflexivity|]. unfold run_filters. rewrite Efs in Hch.
        apply (@chain_hides _ _ _ _ _ _ (fe_load_plugin F) _ _ _ _ _ _ _ _ _ pre s post cols vs out _ _ g d Hnd Hch Hpre Hh); [apply map_length|apply map_length|].
        intros c Hc. rewrite !value_of_map. destruct (In_dec' c cols); [|reflexivity]. unfold f3. destruct (eq_dec c d); [contradiction|reflexivity].
      * assert (E : map f1 cols = map f3 cols) by (apply map_ext_in; intros c Hc; unfold f3; destruct (eq_dec c d) as [->|]; [contradiction|reflexivity]). rewrite E. reflexivity.
    + apply IH. intros c Hc. unfold f3. destruct (eq_dec c d) as [->|Hne]; [left; reflexivity|]. destruct (H c Hc) as [|[[->|Hi] Ho]]; [auto|congruence|auto].
Qed.
Lemma run_filters_app vs1 vs2 r g : run_filters F (vs1 ++ vs2) r g = let* (r, g) := run_filters F vs1 r g in run_filters F vs2 r g.
Proof.
  unfold run_filters. revert r g. induction vs1 as [|v l IH]; intros r g; [reflexivity|]. cbn [app apply_chain].
  match goal with |- bind ?x _ = bind (bind ?x _) _ => destruct x as [[r1 g1]|]; [|reflexivity] end. cbn [bind]. apply IH.
Qed.
End Filters.

Section Output.
Context {G : Type}.
Variable E : env G.
Variable src : tname -> list row.
Notation E' := (with_source E src).

(** rows that give the same output *)
Definition rows_same (chain : list view) (r r' : list value) : Prop := forall more g, run_filters (en_filters E) (chain ++ more) r g = run_filters (en_filters E) (chain ++ more) r' g.
Lemma copies_same chain m rows rows' : Forall2 (rows_same chain) rows rows' ->
  Forall2 (fun x x' => snd x = snd x' /\ rows_same chain (fst x) (fst x')) (row_copies m rows) (row_copies m rows').
Proof.
  intros H. unfold row_copies. apply (Forall2_flat_map (P := rows_same chain)); [|exact H]. intros r r' Hr. induction (range m) as [|i l IH]; constructor; auto.
Qed.
Lemma row_same chain more multiplied m offs r r' i g : rows_same chain r r' ->
  output_row (en_filters E) (chain ++ more) multiplied m offs r i g = output_row (en_filters E) (chain ++ more) multiplied m offs r' i g.
Proof. intros H. unfold output_row. rewrite H. reflexivity. Qed.

Lemma output_same o ps n chain cols rows rows' m mult g : Forall2 (rows_same chain) rows rows' ->
  same (output_result_set E o ps n chain cols rows m mult g) (output_result_set E' o ps n chain cols rows' m mult g).
Proof.
  intros HF. destruct o as [dir|c o]; cbn [output_result_set with_source en_filters en_dflt en_accepts en_resub en_computed en_autoinc en_currval en_buffer].
  - unfold directory_output. apply same_bind_l. intros u. refine (same_for (copies_same m HF) _ _). intros s [r i] [r' i'] [Ei Hr]. cbn [fst snd] in *. subst i'.
    pose proof (row_same [] (multiplied_indexes cols mult) m [] i s Hr) as Hrow. rewrite !app_nil_r in Hrow. rewrite Hrow. apply same_refl.
  - unfold database_output. apply same_bind_l. intros n'. apply same_bind_l. intros tm. destruct (negb _); [apply same_refl|].
    assert (Hgo : forall more cols',
      same (let offsets := offset_indexes cols' (dget_or (ou_offsets o) n' []) in
            let autoinc_index := match needs_updating c, en_autoinc E n' with true, Some c0 => index_of c0 cols' 0 | _, _ => None end in
            let cs := if oc_merge c && memb (render n) (set_of ps) then SSkip else oc_strategy c in
            let+ s := for_io (loop_body (en_filters E) (en_dflt E) (en_accepts E) (en_buffer E) c cs (tm_table tm) (chain ++ more) cols' (multiplied_indexes cols' mult) m offsets autoinc_index) (row_copies m rows) (mkLoop [] VNull g) in
            let+ _ := if is_nil (lp_buffer s) then ret tt else flush (en_dflt E) (en_accepts E) c cs (tm_table tm) cols' (lp_buffer s) in
            let+ _ := autoincrement_update (en_dflt E) (en_accepts E) (en_autoinc E) (en_currval E) c n' (lp_max s) in ret (lp_g s))
           (let offsets := offset_indexes cols' (dget_or (ou_offsets o) n' []) in
            let autoinc_index := match needs_updating c, en_autoinc E n' with true, Some c0 => index_of c0 cols' 0 | _, _ => None end in
            let cs := if oc_merge c && memb (render n) (set_of ps) then SSkip else oc_strategy c in
            let+ s := for_io (loop_body (en_filters E) (en_dflt E) (en_accepts E) (en_buffer E) c cs (tm_table tm) (chain ++ more) cols' (multiplied_indexes cols' mult) m offsets autoinc_index) (row_copies m rows') (mkLoop [] VNull g) in
            let+ _ := if is_nil (lp_buffer s) then ret tt else flush (en_dflt E) (en_accepts E) c cs (tm_table tm) cols' (lp_buffer s) in
            let+ _ := autoincrement_update (en_dflt E) (en_accepts E) (en_autoinc E) (en_currval E) c n' (lp_max s) in ret (lp_g s))).
    { intros more cols'. cbn zeta. apply same_bind; [|intros s; apply same_refl]. refine (same_for (copies_same m HF) _ _). intros s [r i] [r' i'] [Ei Hr]. cbn [fst snd] in *. subst i'.
      unfold loop_body. cbn [fst snd]. rewrite (row_same more _ m _ i (lp_g s) Hr). apply same_refl. }
    destruct (is_nil (filter (en_computed E n') cols)).
    + intros w. specialize (Hgo [] cols w). rewrite app_nil_r in Hgo. exact Hgo.
    + intros w. unfold bind_io at 1 2 5 6. unfold lift at 1 2.
      destruct (filter_omit cols (filter (en_computed E n') cols)) as [v|x]; [|reflexivity]. cbn [of_filter ret].
      exact (Hgo [VwSimple v] (sv_out v) w).
Qed.
End Output.

Section Whole.
Variable hidden : tname -> string -> Prop.
Context {G : Type}.
Variables (E : env G) (cfg : sampler_config) (p : plan) (src : tname -> list row).
Notation E' := (with_source E src).
Hypothesis Hbl : HiddenSpec.blind hidden E cfg p.
Hypothesis Hvis : same_visible hidden E src.

Lemma table_same o mults table g c c' : crel hidden (p_queries p) table (Some c) (Some c') ->
  same (let+ (chain, cols_out) := lift (of_filter (construct_chain (fe_load_plugin (en_filters E)) (dget_or (sc_filters cfg) table []) (co_cols c))) in
        output_result_set E o (p_passthrough p) (co_name c) chain cols_out (map (fun r => map (rget r) (co_cols c)) (co_rows c))
          (match dget mults table with None => 1%Z | Some _ => mc_multiplier (sc_multiplicity cfg) end) (dget_or mults table []) g)
       (let+ (chain, cols_out) := lift (of_filter (construct_chain (fe_load_plugin (en_filters E)) (dget_or (sc_filters cfg) table []) (co_cols c'))) in
        output_result_set E' o (p_passthrough p) (co_name c') chain cols_out (map (fun r => map (rget r) (co_cols c')) (co_rows c'))
          (match dget mults table with None => 1%Z | Some _ => mc_multiplier (sc_multiplicity cfg) end) (dget_or mults table []) g).
Proof.
  intros (Hin & Hn & -> & -> & Hnd & HF). apply same_lift. intros [chain cols] Hch.
  destruct (construct_chain (fe_load_plugin (en_filters E)) (dget_or (sc_filters cfg) table []) (co_cols c)) as [[chain0 cols0]|] eqn:Ec; [|discriminate]. cbn in Hch. injection Hch as -> ->.
  apply output_same. apply Forall2_map2. refine (Forall2_impl' _ HF). intros r r' Hr more g0. rewrite !run_filters_app.
  rewrite (chain_blind (F := en_filters E) Hnd Ec (ds := co_cols c) (f1 := rget r) (f2 := rget r')); [reflexivity|]. intros x Hx. destruct (alike_get x Hr) as [He|He]; [left; exact He|]. right. split; [exact Hx|].
  exact (@bl_filters _ _ _ _ _ Hbl _ _ _ Hn Hin He).
Qed.

Theorem hidden_same truncate create g w : sample E' cfg p truncate create g w = sample E cfg p truncate create g w.
Proof.
  symmetry. revert w. change (same (sample E cfg p truncate create g) (sample E' cfg p truncate create g)). unfold sample.
  cbn [with_source en_filters en_fnm en_source_schema en_src_int en_ord_str en_src_autoinc en_source en_cmp en_text en_raw en_rnd en_rank en_reopen en_ord_name].
  pose proof (@bl_schema _ _ _ _ _ Hbl) as Hdb. destruct (sampler_meta_spec (en_fnm E) (p_queries p) (sc_infer cfg) Hdb) as (ms & Ems & Hms & Htab & _). rewrite Ems.
  apply same_lift. intros ms0 E0. cbn in E0. injection E0 as <-. apply same_bind_l. intros u. apply same_bind_l. intros mults. apply same_bind; [apply same_refl|].
  intros o. apply same_bind; [apply same_refl|]. intros o'. apply same_bind; [apply same_refl|]. intros order. apply same_bind; [apply same_refl|]. intros u'.
  apply same_bind; [apply same_refl|]. intros o2. apply same_bind_l. intros compact.
  destruct (@bl_env _ _ _ _ _ Hbl) as (Eo & Ez & Er). destruct Hvis as (S1 & S2 & Sa).
  assert (Ht : forall n m, dget ms n = Some m -> table_of (en_source_schema E) n (tm_table m)) by (intros n m Hm; exact (Htab _ _ (dget_In Hm))).
  assert (Hu : forall s, source_ok id_column (en_source_schema E) s -> source_unique ms s).
  { intros s Hs n m Hm Hpk. destruct (Htab _ _ Hm) as [T1 T2]. rewrite <- T2. exact (proj2 (proj2 (Hs _ T1)) Hpk). }
  assert (Hcols : forall n m, dget ms n = Some m -> NoDup (tb_cols (tm_table m)) /\ ~ In id_column (tb_cols (tm_table m))).
  { intros n m Hm. destruct (Ht _ _ Hm) as [T1 T2]. split; [exact (proj1 (proj2 (proj2 Hdb _ T1)))|exact (proj1 (proj2 (S1 _ T1)))]. }
  assert (Hdot : forall n m, dget ms n = Some m -> no_dot (fst n)).
  { intros n m Hm. destruct (Ht _ _ Hm) as [T1 T2]. rewrite <- T2. exact (proj1 (proj2 Hdb _ T1)). }
  assert (Hkey : forall n m c, dget ms n = Some m -> hidden n c -> tb_pk (tm_table m) <> [] /\ seen hidden n (tb_pk (tm_table m))).
  { intros n m c Hm Hc. destruct (Ht _ _ Hm) as [T1 T2]. rewrite <- T2 in Hc |- *. exact (@bl_key _ _ _ _ _ Hbl _ _ T1 Hc). }
  assert (Hfks : forall n m fk, dget ms n = Some m -> In fk (tm_fks m) -> seen hidden n (fk_cols fk) /\ seen hidden (fk_dst fk) (fk_dst_cols fk)).
  { intros n m fk Hm Hfk. apply (@bl_fks _ _ _ _ _ Hbl). exists ms, m. auto. }
  pose proof (@rel_mats hidden (en_source E) src (en_cmp E) (en_text E) (en_raw E) (en_rnd E) (en_rank E) (en_reopen E) ms compact (cp_start (sc_compact cfg)) (en_ord_name E) (p_queries p)
    Eo Hms Hcols Hdot (Hu _ S1) (Hu _ S2) Sa (fun ph n => conj (Ez ph n) (@bl_random _ _ _ _ _ Hbl ph n)) Hkey (@bl_names _ _ _ _ _ Hbl) (@bl_wf _ _ _ _ _ Hbl) (@bl_reads _ _ _ _ _ Hbl) (@bl_plan _ _ _ _ _ Hbl)) as HM.
  intros w. unfold bind_io at 1 2. unfold lift at 1 2.
  destruct (materialize_tables (en_source E) _ _ _ _ _ _ _ _ _ _ _) as [st|x] eqn:E1, (materialize_tables src _ _ _ _ _ _ _ _ _ _ _) as [st'|x'] eqn:E2; cbn [xrel] in HM;
    try contradiction; cbn [of_samp]; [|congruence].
  destruct HM as (Hr & W & W' & C). revert w. change (same (copy_results E cfg o2 p ms compact st mults order g) (copy_results E' cfg o2 p ms compact st' mults order g)).
  unfold copy_results. refine (same_for (P := eq) _ _ _). { clear. induction order; constructor; auto. }
  intros g0 table b <-. unfold copy_one.
  cbn [with_source en_filters en_source en_cmp en_text en_raw en_raw_cols en_rnd en_rank en_reopen].
  pose proof (@rel_copy hidden (en_source E) src (en_cmp E) (en_text E) (en_raw E) (en_raw_cols E) (en_rnd E) (en_rank E) (en_reopen E) ms compact (cp_start (sc_compact cfg)) (p_queries p)
    Hms Hcols (Hu _ S1) (Hu _ S2) Sa (fun ph n => conj (Ez ph n) (@bl_random _ _ _ _ _ Hbl ph n)) Hkey (@bl_id _ _ _ _ _ Hbl) Hfks (@bl_wf _ _ _ _ _ Hbl) (@bl_reads _ _ _ _ _ Hbl) (@bl_plan _ _ _ _ _ Hbl) st st' table Hr W W' C) as HC.
  intros w. unfold bind_io at 1 3. unfold lift at 1 3.
  destruct (copy_table (en_source E) _ _ _ _ _ _ _ _ _ _ _ _ table) as [oc|x] eqn:E3, (copy_table src _ _ _ _ _ _ _ _ _ _ _ _ table) as [oc'|x'] eqn:E4; cbn [xrel] in HC;
    try contradiction; cbn [of_samp]; [|congruence].
  destruct oc as [c|], oc' as [c'|]; cbn [crel] in HC; try contradiction; [|reflexivity]. exact (table_same o2 mults g0 HC w).
Qed.
End Whole.
