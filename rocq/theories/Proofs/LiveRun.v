(** A run on a changing source is a run on the source in which each table is as it was at its own moment (C111). *)
From Coq Require Import Lia.
From Verif Require Import Model.Base Model.Value Model.Names Model.PlanModel Model.SqlAlgebra Model.PlanBuild Model.Metadata Model.Filters Model.Multiply Model.Materialize Model.Dest Model.Output Model.Sampler Model.Live.
From Verif Require Import Spec.GraphSpec Spec.SchemaSpec Spec.SqlSem Spec.PlannerSpec Spec.OutputSpec Spec.RunSpec Spec.SampleSpec Spec.LiveSpec.
From Verif Require Import Proofs.BaseFacts Proofs.NameFacts Proofs.MetadataFacts Proofs.MaterializeOrder Proofs.MaterializeRun Proofs.SampleRun Proofs.SemCong Proofs.PlanRun Proofs.OutputDb Proofs.OutputCreate Proofs.OutputSample.
Set Implicit Arguments. Unset Strict Implicit.
Open Scope list_scope.
Open Scope nat_scope.

(** ** Positions in a list *)
Fixpoint pos (s : string) (l : list string) : nat :=
  match l with [] => 0 | x :: l' => if eqb x s then 0 else S (pos s l') end.
Lemma pos_here s l : pos s (s :: l) = 0.
Proof. cbn. now rewrite eqb_refl. Qed.
Lemma pos_app_l s l l' : In s l -> pos s (l ++ l') = pos s l.
Proof. induction l as [|x l IH]; [intros []|]. intros [->|H]; cbn; [now rewrite eqb_refl|]. destruct (eqb x s); [reflexivity|]. now rewrite IH. Qed.
Lemma pos_app_r s l l' : ~ In s l -> pos s (l ++ l') = length l + pos s l'.
Proof. induction l as [|x l IH]; intros H; [reflexivity|]. cbn. destruct (eqb x s) eqn:E; [rewrite eqb_true in E; elim H; now left|]. rewrite IH; [reflexivity|]. intros Hx. apply H. now right. Qed.
Lemma pos_lt s l : In s l -> pos s l < length l.
Proof. induction l as [|x l IH]; [intros []|]. intros [->|H]; cbn; [rewrite eqb_refl; lia|]. destruct (eqb x s); [lia|]. specialize (IH H). lia. Qed.
Lemma pos_inj s t l : In s l -> In t l -> pos s l = pos t l -> s = t.
Proof.
  induction l as [|x l IH]; [intros []|]. cbn. intros Hs Ht E. destruct (eqb x s) eqn:E1, (eqb x t) eqn:E2; try discriminate E.
  - rewrite eqb_true in E1, E2. congruence.
  - rewrite eqb_false in E1, E2. injection E as E. apply IH; [destruct Hs; [congruence|assumption]|destruct Ht; [congruence|assumption]|exact E].
Qed.
Lemma pos_before l a b : NoDup l -> before l a b -> pos a l < pos b l.
Proof.
  intros Hn (l1 & l2 & l3 & ->). apply NoDup_app_iff in Hn. destruct Hn as (_ & Hn & Hd).
  rewrite (@pos_app_r a), (@pos_app_r b), pos_here.
  - cbn [pos]. apply NoDup_cons_iff in Hn. destruct (eqb a b) eqn:E; [|lia]. rewrite eqb_true in E. subst b. elim (proj1 Hn). apply in_app_iff. right. now left.
  - intros H. apply (Hd b H). right. apply in_app_iff. right. now left.
  - intros H. apply (Hd a H). now left.
Qed.

Section Live.
Context {G : Type}.
Variable E : env G.
Variable h : nat -> tname -> list row.
Variable raw : (tname -> list row) -> string -> option (dict string lit) -> list row.
Variable cfg : sampler_config.
Variables (ms : meta) (compact : dict tname (list string)) (p : plan).
Notation queries := (p_queries p).
Notation start := (cp_start (sc_compact cfg)).
Notation mat1 src := (materialize_one src (en_cmp E) (en_text E) (raw src) (en_rnd E) (en_rank E) (en_reopen E) ms compact start).
Notation ctx := (build_ctx (en_reopen E) ms).
Hypothesis Hon : any_order (en_ord_name E).
Hypothesis Hms : meta_ok ms.
Hypothesis Hkeys : forall k, source_unique ms (h k).
Hypothesis Hq : queries_ok queries.
Hypothesis Hwf : plan_wf queries.
Hypothesis Hown : own_table_only queries.

Lemma mixed_unique moment : source_unique ms (at_moments h moment).
Proof. intros n m Hin Hpk. exact (Hkeys (moment n) Hin Hpk). Qed.

(** A built query gives the same rows on sources that agree on its table. *)
Lemma same_rows s1 s2 zz st s q n b c : source_unique ms s1 -> source_unique ms s2 -> s1 n = s2 n -> In (s, q) queries -> named s n -> swf st ->
  build_query (ctx st) q [] = Ok (b, c) ->
  eval_query (temp_db s1 (en_cmp E) (en_text E) (raw s1) st) zz b = eval_query (temp_db s2 (en_cmp E) (en_text E) (raw s2) st) zz b.
Proof.
  intros H1 H2 He Hin Hn Hw Hb. destruct (Hown Hin Hn) as [Hsql Hids].
  destruct (q_stmt q) as [stm|] eqn:Es; [|unfold build_query in Hb; rewrite Hsql, Es in Hb; discriminate].
  rewrite (build_rows (en_cmp E) (en_text E) (raw s1) Hms H1 zz Hw (smp := data st) (fun _ _ => eq_refl) Hsql Es (Hwf Hin Es) Hb).
  rewrite (build_rows (en_cmp E) (en_text E) (raw s2) Hms H2 zz Hw (smp := data st) (fun _ _ => eq_refl) Hsql Es (Hwf Hin Es) Hb).
  apply sem_cong; [reflexivity|reflexivity| |now left].
  intros id Hid. cbn [plan_env contents]. destruct (i_sampled id) eqn:Ei; [reflexivity|].
  rewrite (Hids id); [exact He| |exact Ei]. unfold query_ids. rewrite Hsql, Es. exact Hid.
Qed.

Lemma same_step s1 s2 n cnt st : source_unique ms s1 -> source_unique ms s2 -> s1 n = s2 n -> swf st -> named (render n) n ->
  mat1 s1 queries st (n, cnt) = mat1 s2 queries st (n, cnt).
Proof.
  intros H1 H2 He Hw Hn. unfold materialize_one. destruct (dfind SxKeyError ms n) as [m|]; [|reflexivity]. cbn [bind].
  destruct (dfind SxKeyError queries (render n)) as [q|] eqn:Eq; [|reflexivity]. cbn [bind]. apply dfind_Ok in Eq.
  destruct (build_query (sql_build_context ms (ts_objs st) (en_reopen E)) q []) as [[b c]|] eqn:Eb; [|reflexivity]. cbn [bind lift_build].
  rewrite (same_rows (en_rnd E PMaterialize n) H1 H2 He (dget_In Eq) Hn Hw Eb). reflexivity.
Qed.

(** The rest of a statement reads temporary tables only. *)
Lemma copy_row_same s1 s2 st id r cols : swf st -> (forall c t a b, In (c, FromRemote t a b) cols -> exists k, dget (ts_objs st) k = Some t) ->
  copy_row s1 (en_cmp E) (en_text E) (raw s1) st id r cols = copy_row s2 (en_cmp E) (en_text E) (raw s2) st id r cols.
Proof.
  intros Hw. induction cols as [|[c x] cols IH]; intros Hc; [reflexivity|]. cbn [copy_row].
  rewrite IH; [|intros c' t a b Hin; apply (Hc c' t a b); now right].
  destruct x as [c'| |t a b]; [reflexivity|reflexivity|]. f_equal. unfold remote_values.
  destruct (Hc c t a b (or_introl eq_refl)) as ([n i] & Hk). destruct (Hw _ _ _ Hk) as (Ht & _). rewrite Ht. reflexivity.
Qed.
Lemma copy_columns_temps st cols ccols remote l : forall counts xs, copy_columns (en_reopen E) ms st cols ccols remote counts l = Ok xs ->
  forall c t a b, In (c, FromRemote t a b) xs -> exists k, dget (ts_objs st) k = Some t.
Proof.
  induction l as [|x l IH]; intros counts xs H c t a b Hin; cbn [copy_columns] in H; [inv H; destruct Hin|].
  apply bind_Ok in H. destruct H as ([y counts'] & Hy & H). apply bind_Ok in H. destruct H as (ys & Hys & H). inv H.
  destruct Hin as [Hx|Hin]; [|exact (IH _ _ Hys _ _ _ _ Hin)]. inv Hx. unfold copy_column in Hy.
  destruct (memb c ccols); [discriminate|]. destruct (dget remote c) as [[d dc]|].
  - apply bind_Ok in Hy. destruct Hy as ([t0 c0] & Ht & Hy). unfold lift_build in Ht.
    destruct (build_ctx (en_reopen E) ms st (mkIdent (fst d) (snd d) true) counts) as [[t1 c1]|] eqn:Eb; [|discriminate]. inv Ht.
    apply bind_Ok in Hy. destruct Hy as (u1 & _ & Hy). apply bind_Ok in Hy. destruct Hy as (u2 & _ & Hy). apply bind_Ok in Hy. destruct Hy as (u3 & _ & Hy). inv Hy.
    apply ctx_inv in Eb. destruct Eb as [(_ & i & Hi & _)|(Hs & _)]; [eauto|discriminate Hs].
  - apply bind_Ok in Hy. destruct Hy as (u & _ & Hy). inv Hy.
Qed.

Lemma same_copy s1 s2 st t : source_unique ms s1 -> source_unique ms s2 -> swf st ->
  (forall n, named t n -> ~ In (n, 0) (dkeys (ts_objs st)) -> s1 n = s2 n) ->
  copy_table s1 (en_cmp E) (en_text E) (raw s1) (en_raw_cols E) (en_rnd E) (en_rank E) (en_reopen E) ms compact start st queries t =
  copy_table s2 (en_cmp E) (en_text E) (raw s2) (en_raw_cols E) (en_rnd E) (en_rank E) (en_reopen E) ms compact start st queries t.
Proof.
  intros H1 H2 Hw He. unfold copy_table. unfold parse. destruct (parse_table_name t) as [n|] eqn:Ep; [|reflexivity]. cbn [bind]. apply parse_named in Ep.
  destruct (dget queries t) as [q|] eqn:Eq; [|reflexivity].
  destruct (copy_statement (en_reopen E) ms compact st n q) as [cs|] eqn:Ec; [|reflexivity]. cbn [bind].
  assert (Hr : copy_rows s1 (en_cmp E) (en_text E) (raw s1) (en_rnd E) (en_rank E) start st n cs =
               copy_rows s2 (en_cmp E) (en_text E) (raw s2) (en_rnd E) (en_rank E) start st n cs); [|now rewrite Hr].
  unfold copy_statement in Ec. apply bind_Ok in Ec. destruct Ec as ([b counts] & Hb & Ec).
  assert (Hev : eval_query (temp_db s1 (en_cmp E) (en_text E) (raw s1) st) (en_rnd E PCopy n) b = eval_query (temp_db s2 (en_cmp E) (en_text E) (raw s2) st) (en_rnd E PCopy n) b).
  { destruct (dget (ts_objs st) (n, 0)) as [tt|] eqn:Et.
    - inv Hb. rewrite !select_all. destruct (Hw _ _ _ Et) as (E1 & _). rewrite E1. reflexivity.
    - unfold lift_build in Hb. destruct (build_query (build_ctx (en_reopen E) ms st) q []) as [[b0 c0]|] eqn:Eb; [|discriminate]. inv Hb.
      apply (same_rows (en_rnd E PCopy n) H1 H2 (He n Ep (proj1 (dget_None _ _) Et)) (dget_In Eq) Ep Hw Eb). }
  apply bind_Ok in Ec. destruct Ec as (m & _ & Ec). destruct (is_nil _ && is_nil _); [inv Ec; exact Hev|].
  apply bind_Ok in Ec. destruct Ec as (cols & _ & Ec). apply bind_Ok in Ec. destruct Ec as (u & _ & Ec). apply bind_Ok in Ec. destruct Ec as (xs & Hxs & Ec). inv Ec.
  cbn [copy_rows]. rewrite Hev. apply flat_map_ext. intros [v r]. cbn [fst snd].
  apply (copy_row_same _ _ _ _ Hw). exact (copy_columns_temps Hxs).
Qed.

(** ** The loops *)
Variable moment : tname -> nat.
Notation mixed := (at_moments h moment).
Variable order : list (tname * nat).
Hypothesis Ho : materialization_order (en_ord_name E) ms compact queries = Ok order.
Hypothesis Hnd : NoDup (map fst order).
Hypothesis Hnamed : forall n, In n (map fst order) -> named (render n) n.

Lemma live_loop l : forall l1 st, order = l1 ++ l -> (forall n c l2 l3, order = l2 ++ (n, c) :: l3 -> moment n = length l2) -> swf st ->
  (forall n c i, In (n, c) l -> ~ In (n, i) (dkeys (ts_objs st))) ->
  forM (fun ks nc => let '(k, st) := ks in let* st := mat1 (h k) queries st nc in Ok (S k, st)) l (length l1, st) =
  (let* st' := forM (mat1 mixed queries) l st in Ok (length order, st')).
Proof.
  induction l as [|[n c] l IH]; intros l1 st Hl Hm Hw Hfr.
  - cbn [forM bind]. rewrite app_nil_r in Hl. now subst l1.
  - cbn [forM]. assert (Es : mat1 (h (length l1)) queries st (n, c) = mat1 mixed queries st (n, c)).
    { apply same_step; [apply Hkeys|apply mixed_unique| |exact Hw|].
      - unfold at_moments. now rewrite (Hm n c l1 l Hl).
      - apply Hnamed. rewrite Hl, map_app. apply in_app_iff. right. now left. }
    rewrite Es. destruct (mat1 mixed queries st (n, c)) as [st'|e] eqn:E1; [|reflexivity]. cbn [bind].
    pose proof (mat1_spec Hw (fun i => Hfr n c i (or_introl eq_refl)) E1) as S1.
    replace (S (length l1)) with (length (l1 ++ [(n, c)])) by (rewrite app_length; cbn; lia).
    apply IH; [rewrite <- app_assoc; exact Hl|exact Hm|exact (step_wf S1)|].
    intros n' c' i Hin Hk. assert (Hne : n' <> n).
    { intros ->. rewrite Hl, map_app in Hnd. apply NoDup_app_iff in Hnd. destruct Hnd as (_ & Hx & _). cbn [map fst] in Hx. apply NoDup_cons_iff in Hx.
      apply (proj1 Hx). apply in_map_iff. exists (n, c'). auto. }
    destruct (key_dget Hk) as (t & Ht). rewrite (step_other S1 i Hne) in Ht. exact (Hfr n' c' i (or_intror Hin) (dget_Some_key Ht)).
Qed.

Lemma materialize_same : (forall n c l2 l3, order = l2 ++ (n, c) :: l3 -> moment n = length l2) ->
  materialize_live E h raw cfg ms compact queries =
  (let* st := materialize_tables mixed (en_cmp E) (en_text E) (raw mixed) (en_rnd E) (en_rank E) (en_reopen E) ms compact start (en_ord_name E) queries in Ok (length order, st)).
Proof.
  intros Hm. unfold materialize_live, materialize_tables. rewrite Ho. cbn [bind].
  apply (@live_loop order [] no_temps eq_refl Hm); [intros n i t Ht; discriminate|intros n c i _ []].
Qed.

Lemma copy_loop o mults st : swf st -> forall l l1 ord g w, ord = l1 ++ l ->
  (forall t n l2 l3, ord = l2 ++ t :: l3 -> named t n -> ~ In (n, 0) (dkeys (ts_objs st)) -> moment n = length order + length l2) ->
  (let+ kg := for_io (fun kg table => let '(k, g) := kg in let+ g := copy_one (reading_from E raw (h k)) cfg o p ms compact st mults g table in ret (S k, g)) l (length order + length l1, g) in ret (snd kg)) w =
  for_io (copy_one (reading_from E raw mixed) cfg o p ms compact st mults) l g w.
Proof.
  intros Hw. induction l as [|t l IH]; intros l1 ord g w Hl Hm; [reflexivity|]. cbn [for_io].
  set (k := length order + length l1) in *.
  assert (Es : copy_one (reading_from E raw (h k)) cfg o p ms compact st mults g t = copy_one (reading_from E raw mixed) cfg o p ms compact st mults g t).
  { unfold copy_one. cbn [reading_from en_source en_cmp en_text en_raw en_raw_cols en_rnd en_rank en_reopen].
    rewrite (@same_copy (h k) mixed st t (Hkeys k) (mixed_unique moment) Hw); [reflexivity|].
    intros n Hn Hk. unfold at_moments. now rewrite (Hm t n l1 l Hl Hn Hk). }
  unfold bind_io in *. unfold ret in *. rewrite Es. destruct (copy_one (reading_from E raw mixed) cfg o p ms compact st mults g t w) as [w1 [g1|e]] eqn:E1; [|reflexivity].
  specialize (IH (l1 ++ [t]) ord g1 w1). rewrite app_length in IH. cbn [length] in IH.
  replace (length order + (length l1 + 1)) with (S k) in IH by (unfold k; lia). rewrite <- app_assoc in IH. exact (IH Hl Hm).
Qed.
End Live.
