(** sampler.py: compaction of keys (C40, C41). *)
From Coq Require Import Lia.
From Verif Require Import Model.Base Model.Solver Model.Value Model.Names Model.PlanModel Spec.SqlSem Model.SqlAlgebra Model.PlanBuild
  Model.Metadata Model.Materialize Spec.GraphSpec Spec.SchemaSpec Spec.PlannerSpec Spec.SampleSpec
  Proofs.BaseFacts Proofs.NameFacts Proofs.GraphFacts Proofs.BuildFacts Proofs.BuildRefs Proofs.MaterializeOrder Proofs.MaterializeRun
  Proofs.MetadataFacts Proofs.SampleRun.
Set Implicit Arguments.
Unset Strict Implicit.

Lemma rget_cons_ne c c' v r : c <> c' -> rget ((c', v) :: r) c = rget r c.
Proof. intros H. unfold rget, dget_or. cbn [dget]. destruct (eq_dec c c'); [contradiction|reflexivity]. Qed.
Lemma rget_cons_eq c v r : rget ((c, v) :: r) c = v.
Proof. unfold rget, dget_or. cbn [dget]. destruct (eq_dec c c); [reflexivity|contradiction]. Qed.
Lemma is_true_cmp3 e a b : is_true (cmp3 e CEq a b) = true <-> matches (cmp e) a b.
Proof.
  unfold matches, cmp3. destruct a, b; cbn; (split; [intros H; try discriminate H|intros (H1 & H2 & H3); try congruence]);
  try (repeat split; [discriminate|discriminate|]; destruct (cmp e CEq _ _); [reflexivity|discriminate]); try (rewrite H3; reflexivity).
Qed.

Lemma combine_map_l {A B C} (f : A -> C) (l : list A) (l' : list B) : combine (map f l) l' = map (fun x => (f (fst x), snd x)) (combine l l').
Proof. revert l'. induction l as [|a l IH]; intros [|b l']; cbn; [reflexivity..|]. rewrite IH. reflexivity. Qed.
Lemma filter_map {A B} (f : A -> B) p l : filter p (map f l) = map f (filter (fun x => p (f x)) l).
Proof. induction l as [|a l IH]; [reflexivity|]. cbn. destruct (p (f a)); cbn; rewrite IH; reflexivity. Qed.
Lemma nth_error_combine {A B} (l : list A) (l' : list B) i a b : nth_error (combine l l') i = Some (a, b) <-> nth_error l i = Some a /\ nth_error l' i = Some b.
Proof.
  revert l' i. induction l as [|x l IH]; intros [|y l'] [|i]; cbn; try (split; [discriminate|intros [? ?]; discriminate]).
  - split; [intros E; inv E; auto|intros [E1 E2]; inv E1; inv E2; reflexivity].
  - apply IH.
Qed.
Lemma nth_error_map_inv {A B} (f : A -> B) l i b : nth_error (map f l) i = Some b -> exists a, nth_error l i = Some a /\ b = f a.
Proof. revert i. induction l as [|x l IH]; intros [|i] H; cbn in *; try discriminate; [inv H; eauto|eauto]. Qed.
Lemma Forall2_map_r {A B} (f : A -> B) (P : A -> B -> Prop) l : (forall x, In x l -> P x (f x)) -> Forall2 P l (map f l).
Proof. induction l as [|x l IH]; intros H; cbn; constructor; [apply H; left; reflexivity|apply IH; intros y Hy; apply H; right; exact Hy]. Qed.
Lemma flat_map_single {A B} (f : A -> list B) (g : A -> B) l : (forall x, In x l -> f x = [g x]) -> flat_map f l = map g l.
Proof.
  induction l as [|x l IH]; intros H; [reflexivity|]. cbn [flat_map map]. rewrite (H x (or_introl eq_refl)), IH; [reflexivity|].
  intros y Hy. apply H. right. exact Hy.
Qed.
(** at most one position satisfies [p] *)
Lemma filter_single {A} (p : A -> bool) l : (forall i j a b, nth_error l i = Some a -> nth_error l j = Some b -> p a = true -> p b = true -> i = j) ->
  filter p l = [] \/ exists i a, nth_error l i = Some a /\ p a = true /\ filter p l = [a].
Proof.
  induction l as [|x l IH]; intros H; [left; reflexivity|]. cbn [filter]. destruct (p x) eqn:E.
  - right. exists 0, x. split; [reflexivity|]. split; [exact E|]. f_equal.
    assert (Hn : forall a, In a l -> p a = false).
    { intros a Ha. destruct (p a) eqn:Ea; [|reflexivity]. apply In_nth_error in Ha. destruct Ha as (i & Hi).
      pose proof (H 0 (S i) x a eq_refl Hi E Ea). lia. }
    clear -Hn. induction l as [|y l IH]; [reflexivity|]. cbn [filter]. rewrite (Hn y (or_introl eq_refl)). apply IH. intros a Ha. apply Hn. right. exact Ha.
  - destruct IH as [IH|(i & a & H1 & H2 & H3)].
    + intros i j a b H1 H2 H3 H4. assert (S i = S j) by (apply (H (S i) (S j) a b); assumption). lia.
    + left. exact IH.
    + right. exists (S i), a. auto.
Qed.

Lemma flat_map_zip {A B C V} (F : V * B -> list C) (f : A -> B) (P : A -> C -> Prop) : forall (vs : list V) (l : list A), length vs = length l ->
  (forall i v x, nth_error vs i = Some v -> nth_error l i = Some x -> exists c, F (v, f x) = [c] /\ P x c) ->
  Forall2 P l (flat_map F (combine vs (map f l))).
Proof.
  induction vs as [|v vs IH]; intros [|x l] Hl H; try discriminate; [constructor|]. cbn [map combine flat_map].
  destruct (H 0 v x eq_refl eq_refl) as (c & E & HP). rewrite E. cbn [app]. constructor; [exact HP|]. apply IH; [injection Hl; auto|].
  intros i v' x' Hv Hx. exact (H (S i) v' x' Hv Hx).
Qed.

(** selected columns of a built statement *)
Section Selected.
Context {S : Type} (context : ident -> S -> res build_exn (tobj * S)).
Lemma build_joins_from t outer js : forall n from cols exs s f c x s', build_joins context t outer js n from cols exs s = Ok ((f, c, x), s') ->
  from_table f = from_table from.
Proof.
  induction js as [|j js IH]; intros n from cols exs s f c x s' H; cbn [build_joins] in H; [inv H; reflexivity|].
  apply bind_Ok in H. destruct H as ([rt s1] & _ & H). apply bind_Ok in H. destruct H as (on & _ & H).
  destruct (j_half_unique j && negb (is_nil (t_pk t))).
  - apply bind_Ok in H. destruct H as (u & _ & H). apply IH in H. exact H.
  - exact (IH _ _ _ _ _ _ _ _ _ H).
Qed.
Lemma build_sel_columns x s q s' : build_sel context x s = Ok (q, s') ->
  exists t s1 f gb ws lim, context (s_from x) s = Ok (t, s1) /\ q = QSelect (s_columns x) f gb ws lim /\ from_table f = t.
Proof.
  destruct x as [cs from w lim js o]. intros H. cbn [build_sel] in H. apply bind_Ok in H. destruct H as ([t s1] & Ht & H).
  apply bind_Ok in H. destruct H as (u & _ & H). apply bind_Ok in H. destruct H as ([[[f gb] wh] s2] & Hj & H).
  apply bind_Ok in H. destruct H as ([wh' s3] & _ & H). inv H. exists t, s1, f, gb, wh', lim. cbn [s_from s_columns]. split; [exact Ht|]. split; [reflexivity|].
  unfold build_join_part in Hj. destruct js as [[|j js]|]; [inv Hj; reflexivity| |inv Hj; reflexivity].
  apply bind_Ok in Hj. destruct Hj as ([[[f' c'] e'] s4] & Hb & Hj). inv Hj. exact (build_joins_from Hb).
Qed.
End Selected.
Lemma reads_selected reopen ms st stm n m b c cnt cols : reads_only n stm -> dget ms n = Some m ->
  build_stmt (build_ctx reopen ms st) stm c = Ok (b, cnt) -> selected_columns b = Ok cols -> tb_cols (tm_table m) = cols.
Proof.
  intros Hr Hm Hb Hc.
  assert (Hsel : forall x s q s', s_from x = mkIdent (fst n) (snd n) false /\ s_columns x = None -> build_sel (build_ctx reopen ms st) x s = Ok (q, s') ->
            exists f gb ws lim, q = QSelect None f gb ws lim /\ t_cols (from_table f) = tb_cols (tm_table m)).
  { intros x s q s' [Hf Hcs] H. apply build_sel_columns in H. destruct H as (t & s1 & f & gb & ws & lim & Ht & -> & Hft).
    rewrite Hcs. exists f, gb, ws, lim. split; [reflexivity|]. rewrite Hft. apply ctx_inv in Ht. rewrite Hf in Ht. unfold i_name in Ht. cbn [i_sampled i_schema i_table] in Ht.
    destruct Ht as [(X & _)|(_ & _ & m' & Hm' & ->)]; [discriminate|]. assert (En : (fst n, snd n) = n) by (destruct n; reflexivity). rewrite En in Hm'.
    rewrite Hm in Hm'. inv Hm'. reflexivity. }
  destruct stm as [x|l]; cbn [reads_only] in Hr.
  - destruct (Hsel x c b cnt Hr Hb) as (f & gb & ws & lim & -> & E). cbn [selected_columns] in Hc. inv Hc. symmetry. exact E.
  - rewrite build_union in Hb. apply bind_Ok in Hb. destruct Hb as ([qs s1] & Hqs & Hb). inv Hb. destruct l as [|x l]; cbn [build_sels] in Hqs; [inv Hqs; discriminate|].
    apply bind_Ok in Hqs. destruct Hqs as ([q0 s2] & Hq0 & Hqs). apply bind_Ok in Hqs. destruct Hqs as ([qs1 s3] & _ & Hqs). inv Hqs.
    destruct (Hsel x c q0 s2 (Hr x (or_introl eq_refl)) Hq0) as (f & gb & ws & lim & -> & E). cbn [selected_columns] in Hc. inv Hc. symmetry. exact E.
Qed.

Section Run.
Variables (source : tname -> list row) (cmpf : cmpop -> value -> value -> bool)
          (textf : string -> option (dict string lit) -> row -> tv)
          (rawf : string -> option (dict string lit) -> list row)
          (raw_cols : string -> option (dict string lit) -> list string)
          (z : phase -> tname -> rnd) (rank : phase -> tname -> list (list value) -> list nat) (reopen : bool)
          (ms : meta) (compact : dict tname (list string)) (start : Z) (ord : list tname -> list tname)
          (queries : dict string table_query).
Notation tdb := (temp_db source cmpf textf rawf).
Notation mats := (materialize_tables source cmpf textf rawf z rank reopen ms compact start ord).
Notation ctx := (build_ctx reopen ms).
Notation smp := (run_sample source cmpf textf rawf z queries).

Hypothesis Hord : any_order ord.
Hypothesis Hms : meta_ok ms.
Hypothesis Hsrc : source_unique ms source.
Hypothesis Hq : queries_ok queries.
Hypothesis Hwf : plan_wf queries.
Hypothesis Hco : compact_ok ms compact id_column.
Hypothesis Hreads : plan_reads queries.
Variable lt : list value -> list value -> Prop.
Hypothesis Hrank : forall p n, rank_ok lt (rank p n).

Lemma rank_len p n ks : length (rank p n ks) = length ks.
Proof. destruct (Hrank p n ks) as [HP _]. apply Permutation_length in HP. rewrite HP, seq_length. reflexivity. Qed.

Definition phase_of (st : tstate) (n : tname) : phase := if dmem (ts_objs st) (n, 0) then PMaterialize else PCopy.
Definition rows_of (st : tstate) (n : tname) : list row :=
  match dget queries (render n) with Some q => query_result cmpf textf rawf source (smp st) (z (phase_of st n) n) q | None => [] end.
Definition pk_of (n : tname) : list string := match dget ms n with Some m => tb_pk (tm_table m) | None => [] end.
Definition num_of (st : tstate) (n : tname) : list Z :=
  map (fun k => Z.of_nat k + start - 1)%Z (rank (phase_of st n) n (map (fun r => map (rget r) (pk_of n)) (rows_of st n))).

Lemma num_len st n : length (num_of st n) = length (rows_of st n).
Proof. unfold num_of. rewrite map_length, rank_len, map_length. reflexivity. Qed.
Lemma num_dense st n : dense start (length (rows_of st n)) (num_of st n).
Proof.
  unfold dense, num_of. destruct (Hrank (phase_of st n) n (map (fun r => map (rget r) (pk_of n)) (rows_of st n))) as [HP _].
  rewrite (Permutation_map _ HP), map_length. rewrite <- seq_shift, map_map.
  erewrite map_ext; [reflexivity|]. intros a. cbn beta. lia.
Qed.
Lemma num_increasing st n : increasing lt (pk_of n) (rows_of st n) (num_of st n).
Proof.
  intros i j r r' k k' H1 H2 H3 H4 Hlt. unfold num_of in *.
  destruct (nth_error_map_inv H3) as (x & Hx & ->). destruct (nth_error_map_inv H4) as (y & Hy & ->).
  destruct (Hrank (phase_of st n) n (map (fun r => map (rget r) (pk_of n)) (rows_of st n))) as [_ HR].
  assert (Hxy : x < y); [|lia].
  refine (HR i j _ _ x y _ _ Hx Hy Hlt); [exact (map_nth_error _ _ _ H1)|exact (map_nth_error _ _ _ H2)].
Qed.

Definition numbered_rows (st : tstate) (n : tname) : list (Z * row) := combine (num_of st n) (rows_of st n).
Lemma number_rows_eq st n m : dget ms n = Some m ->
  number_rows rank start (phase_of st n) n (tb_pk (tm_table m)) (rows_of st n) = map (fun kr => (VInt (fst kr), snd kr)) (numbered_rows st n).
Proof.
  intros Hm. unfold number_rows, numbered_rows, num_of, pk_of. rewrite Hm. rewrite !combine_map_l, map_map. apply map_ext. intros x. reflexivity.
Qed.

Lemma sample_temp st n : mats queries = Ok st -> In (n, 0) (dkeys (ts_objs st)) ->
  smp st n = if dmem compact n then map (fun kr => (id_column, VInt (fst kr)) :: snd kr) (numbered_rows st n) else rows_of st n.
Proof.
  intros Hst Hk. destruct (mats_spec Hord Hq Hst) as (_ & _ & order & Ho & _ & Hkeys & Hsteps).
  assert (Hk' := Hk). apply Hkeys in Hk'. destruct Hk' as (c & Hc & _). destruct (Hsteps n c Hc) as (s1 & s2 & _ & Hs & _).
  destruct (step_all Hs) as (m & q & _ & _ & _ & _ & E1 & E2 & _).
  assert (Hph : phase_of st n = PMaterialize) by (unfold phase_of; rewrite (proj2 (dmem_true _ _) Hk); reflexivity).
  assert (Hin : In (render n, q) queries) by exact (dget_In E2).
  assert (Hn : named (render n) n).
  { pose proof (order_inside Hord Hq Ho) as Hi. destruct (order_spec Hord Hq (proj1 Hco) (proj1 Hms) Hi Ho) as (_ & Hm & _).
    assert (Hn' : In n (map fst order)) by (apply in_map_iff; exists (n, c); auto).
    apply Hm in Hn'. destruct Hn' as ((s & Hs' & _) & _). rewrite <- (named_eq Hs'). exact Hs'. }
  assert (Er : rows_of st n = query_result cmpf textf rawf source (smp st) (z PMaterialize n) q) by (unfold rows_of; rewrite E2, Hph; reflexivity).
  destruct (sample_materialized Hord Hms Hsrc Hq Hwf Hst Hin Hn Hk) as [(HA & HB)|(HA & m' & Hm' & HB)].
  - destruct (dmem compact n) eqn:Ed; [apply dmem_true in Ed; contradiction|]. rewrite HB, Er. reflexivity.
  - rewrite (proj2 (dmem_true _ _) HA). rewrite HB. rewrite <- Er, <- Hph. rewrite (number_rows_eq st (In_dget (proj1 Hms) Hm')), map_map. reflexivity.
Qed.

Lemma sample_plain st s q n b c : mats queries = Ok st -> In (s, q) queries -> named s n ->
  (match dget (ts_objs st) (n, 0) with
   | Some t => Ok (QSelect None (FTable t) None [] None, [])
   | None => lift_build (build_query (ctx st) q []) end) = Ok (b, c) -> ~ In (n, 0) (dkeys (ts_objs st)) -> smp st n = rows_of st n.
Proof.
  intros Hst Hin Hn Hb Hk. destruct (copy_query Hord Hms Hsrc Hq Hwf Hst Hin Hn Hb) as [_ HB]. rewrite (HB Hk). unfold rows_of.
  rewrite (proj2 (in_queries Hq Hin Hn)). unfold phase_of. destruct (dmem (ts_objs st) (n, 0)) eqn:E; [apply dmem_true in E; contradiction|]. reflexivity.
Qed.

(** columns of the copying statement *)
Lemma copy_columns_spec st cols ccols remote l : forall counts xs, copy_columns reopen ms st cols ccols remote counts l = Ok xs ->
  map fst xs = l /\
  forall c x, In (c, x) xs ->
    if memb c ccols then x = FromId
    else match dget remote c with
         | Some (d, dc) => exists i t, dget (ts_objs st) (d, i) = Some t /\ x = FromRemote t c dc
         | None => x = FromRow c end.
Proof.
  induction l as [|c l IH]; intros counts xs H; cbn [copy_columns] in H.
  - inv H. split; [reflexivity|intros c x []].
  - apply bind_Ok in H. destruct H as ([x counts1] & Hx & H). apply bind_Ok in H. destruct H as (xs1 & Hxs & H). inv H.
    destruct (IH _ _ Hxs) as [A B]. cbn [map fst]. split; [rewrite A; reflexivity|]. intros c' x' [E|Hin]; [|exact (B c' x' Hin)]. inv E.
    unfold copy_column in Hx. destruct (memb c' ccols); [inv Hx; reflexivity|]. destruct (dget remote c') as [[d dc]|].
    + apply bind_Ok in Hx. destruct Hx as ([t c1] & Ht & Hx). unfold lift_build in Ht.
      destruct (ctx st (mkIdent (fst d) (snd d) true) counts) as [[t' c1']|] eqn:Ec; [|discriminate]. inv Ht.
      apply bind_Ok in Hx. destruct Hx as (u1 & _ & Hx). apply bind_Ok in Hx. destruct Hx as (u2 & _ & Hx). apply bind_Ok in Hx. destruct Hx as (u3 & _ & Hx). inv Hx.
      apply ctx_inv in Ec. destruct Ec as [(_ & i0 & Hi & _)|(Hs & _)]; [|discriminate]. unfold i_name in Hi. cbn [i_schema i_table] in Hi.
      assert (Ed : (fst d, snd d) = d) by (destruct d; reflexivity). rewrite Ed in Hi. eauto.
    + apply bind_Ok in Hx. destruct Hx as (u & _ & Hx). inv Hx. reflexivity.
Qed.

Definition col_values (st : tstate) (id : value) (r : row) (x : colsrc) : list value :=
  match x with
  | FromRow c => [rget r c]
  | FromId => [id]
  | FromRemote t src dst => remote_values source cmpf textf rawf st t src dst r
  end.
Lemma copy_row_single st id r xs (g : string * colsrc -> value) : (forall cx, In cx xs -> col_values st id r (snd cx) = [g cx]) ->
  copy_row source cmpf textf rawf st id r xs = [map (fun cx => (fst cx, g cx)) xs].
Proof.
  induction xs as [|[c x] xs IH]; intros H; [reflexivity|]. cbn [copy_row map]. pose proof (H (c, x) (or_introl eq_refl)) as Hx. cbn [snd] in Hx.
  change (flat_map (fun v => map (cons (c, v)) (copy_row source cmpf textf rawf st id r xs)) (col_values st id r x) =
          [(c, g (c, x)) :: map (fun cx => (fst cx, g cx)) xs]).
  rewrite Hx. cbn [flat_map]. rewrite IH; [|intros cx Hcx; apply H; right; exact Hcx]. reflexivity.
Qed.

(** a column following a unique compacted column *)
Lemma remote_value st n d c dc i t r : mats queries = Ok st -> governs ms compact n c d dc -> unique_in cmpf dc (rows_of st d) ->
  dget (ts_objs st) (d, i) = Some t ->
  exists v, remote_values source cmpf textf rawf st t c dc r = [v] /\ follows cmpf (rows_of st d) (num_of st d) dc (rget r c) v.
Proof.
  intros Hst Hg Hu Ht. destruct (mats_spec Hord Hq Hst) as (Hw & _). destruct (Hw _ _ _ Ht) as (E1 & E2 & Hk & _).
  assert (Hd : dmem compact d = true).
  { apply dmem_true. destruct Hg as (_ & _ & _ & _ & _ & _ & cs & Hcs & _). apply in_map_iff. exists (d, cs). auto. }
  assert (Hrows : db_rows (tdb st) (t_ref t) = map (fun kr => (id_column, VInt (fst kr)) :: snd kr) (numbered_rows st d)).
  { rewrite E1. cbn [temp_db db_rows]. unfold dget_or. rewrite E2. pose proof (sample_temp Hst Hk) as Hs. rewrite Hd in Hs. rewrite <- Hs.
    unfold run_sample. rewrite (proj2 (dmem_true _ _) Hk). reflexivity. }
  assert (Hne : dc <> id_column) by exact (proj2 (proj2 (proj2 Hco)) _ _ _ _ Hg).
  unfold remote_values. rewrite Hrows, filter_map.
  match goal with |- context [filter ?f (numbered_rows st d)] => set (p := f) end.
  assert (Hp : forall kr, p kr = true <-> matches cmpf (rget r c) (rget (snd kr) dc)).
  { intros kr. unfold p. rewrite (rget_cons_ne _ _ Hne). rewrite is_true_cmp3. reflexivity. }
  assert (Hmatch : forall kr j, nth_error (numbered_rows st d) j = Some kr -> nth_error (num_of st d) j = Some (fst kr) /\ nth_error (rows_of st d) j = Some (snd kr)).
  { intros [k r0] j Hj. apply nth_error_combine in Hj. exact Hj. }
  destruct (filter_single (p := p) (l := numbered_rows st d)) as [Hf|(j & kr & Hj & Hpj & Hf)].
  - intros i1 i2 a b Ha Hb Pa Pb. apply Hp in Pa, Pb. destruct (Hmatch _ _ Ha) as [_ Ha']. destruct (Hmatch _ _ Hb) as [_ Hb'].
    exact (Hu _ _ _ _ _ Ha' Hb' Pa Pb).
  - rewrite Hf. cbn [map]. exists VNull. split; [reflexivity|]. right. split; [|reflexivity]. intros r0 Hr0 Hm.
    apply In_nth_error in Hr0. destruct Hr0 as (j & Hj). assert (Hlen : j < length (num_of st d)) by (rewrite num_len; apply nth_error_Some; congruence).
    destruct (nth_error (num_of st d) j) as [k|] eqn:Ek; [|apply nth_error_None in Ek; lia].
    assert (Hin : In (k, r0) (filter p (numbered_rows st d))).
    { apply filter_In. split; [apply (nth_error_In _ j); apply nth_error_combine; auto|]. apply Hp. exact Hm. }
    rewrite Hf in Hin. destruct Hin.
  - rewrite Hf. cbn [map]. rewrite rget_cons_eq. exists (VInt (fst kr)). split; [reflexivity|]. left.
    destruct (Hmatch _ _ Hj) as [H1 H2]. exists j, (snd kr), (fst kr). split; [exact H2|]. split; [exact H1|]. split; [apply Hp; exact Hpj|reflexivity].
Qed.

Lemma compacted_iff n c : compacted compact n c <-> In c (dget_or compact n []).
Proof.
  unfold compacted, dget_or. split.
  - intros (cs & Hin & Hc). rewrite (In_dget (proj1 Hco) Hin). exact Hc.
  - intros Hc. destruct (dget compact n) as [cs|] eqn:E; [|destruct Hc]. exists cs. split; [exact (dget_In E)|exact Hc].
Qed.
Lemma remote_governs n m c d dc : dget ms n = Some m -> dget (remote_compact compact m) c = Some (d, dc) -> governs ms compact n c d dc.
Proof.
  intros Hm H. apply remote_compact_In in H. destruct H as (fk & F1 & F2 & F3 & F4). exists m, fk.
  split; [exact (dget_In Hm)|]. split; [exact F1|]. split; [exact F2|]. split; [exact F3|]. apply compacted_iff. exact F4.
Qed.
Lemma governs_remote n m c d dc : dget ms n = Some m -> governs ms compact n c d dc -> exists d' dc', dget (remote_compact compact m) c = Some (d', dc').
Proof.
  intros Hm (m' & fk & G1 & G2 & G3 & G4 & G5). rewrite (In_dget (proj1 Hms) G1) in Hm. inv Hm. apply compacted_iff in G5.
  assert (Hk : In c (dkeys (remote_compact compact m))).
  { unfold remote_compact. match goal with |- In c (dkeys (dict_of ?l)) => apply (proj1 (proj2 (proj2 (dict_of_spec l)) c)) end. apply in_map_iff. exists (c, (fk_dst fk, dc)). split; [reflexivity|].
    apply in_flat_map. exists fk. split; [exact G2|]. apply in_flat_map. exists (c, dc). split; [exact G4|]. cbn [fst snd].
    rewrite (proj2 (memb_true _ _) G5). left. reflexivity. }
  destruct (key_dget Hk) as ([d' dc'] & E). eauto.
Qed.

Lemma decides_governs n c d dc : decides ms compact n c d dc -> governs ms compact n c d dc.
Proof.
  intros (m & b & a & Hm & Hp & Hc & _). assert (Hin : In (c, (d, dc)) (column_pairs m)) by (rewrite Hp; apply in_or_app; right; left; reflexivity).
  apply in_flat_map in Hin. destruct Hin as (fk & Hfk & Hin). apply in_map_iff in Hin. destruct Hin as ([x y] & Eq & Hin). cbn [fst snd] in Eq. injection Eq as -> <- ->. exists m, fk. repeat split; assumption.
Qed.
Lemma remote_pairs m : remote_compact compact m = dict_of (filter (fun x => memb (snd (snd x)) (dget_or compact (fst (snd x)) [])) (column_pairs m)).
Proof.
  unfold remote_compact, column_pairs. f_equal. induction (tm_fks m) as [|fk l IH]; [reflexivity|]. cbn [flat_map]. rewrite filter_app, IH. f_equal.
  induction (combine (fk_cols fk) (fk_dst_cols fk)) as [|[x y] ps IHp]; [reflexivity|]. cbn [flat_map map filter fst snd]. rewrite IHp. destruct (memb y _); reflexivity.
Qed.
Lemma dict_of_last {K V} `{EqDec K} (l : list (K * V)) k v : dget (dict_of l) k = Some v <-> exists b a, l = b ++ (k, v) :: a /\ ~ In k (map fst a).
Proof.
  revert v. induction l as [|[k' v'] l IH] using rev_ind; intros v.
  - split; [discriminate|]. intros (b & a & Eq & _). destruct b; discriminate.
  - unfold dict_of. rewrite fold_left_app. cbn [fold_left fst snd]. fold (dict_of l). destruct (eq_dec k k') as [<-|Hne].
    + rewrite dget_dset_eq. split.
      * intros Eq. injection Eq as <-. exists l, []. split; [reflexivity|intros []].
      * intros (b & a & Eq & Hn). destruct a as [|x a _] using rev_ind; [apply app_inj_tail in Eq; destruct Eq as [_ Eq]; congruence|].
        rewrite app_comm_cons, app_assoc in Eq. apply app_inj_tail in Eq. destruct Eq as [_ <-]. elim Hn. rewrite map_app. apply in_or_app. right. left. reflexivity.
    + rewrite dget_dset_ne by congruence. rewrite IH. split.
      * intros (b & a & -> & Hn). exists b, (a ++ [(k', v')]). split; [rewrite <- app_assoc; reflexivity|]. rewrite map_app. intros Hi. apply in_app_or in Hi. destruct Hi as [Hi|[Hi|[]]]; [exact (Hn Hi)|cbn in Hi; congruence].
      * intros (b & a & Eq & Hn). destruct a as [|x a _] using rev_ind; [apply app_inj_tail in Eq; destruct Eq as [_ Eq]; congruence|].
        rewrite app_comm_cons, app_assoc in Eq. apply app_inj_tail in Eq. destruct Eq as [-> _]. exists b, a. split; [reflexivity|]. intros Hi. apply Hn. rewrite map_app. apply in_or_app. now left.
Qed.
Lemma filter_split {A} (P : A -> bool) : forall l b x a, filter P l = b ++ x :: a -> exists b' a', l = b' ++ x :: a' /\ filter P a' = a /\ P x = true.
Proof.
  induction l as [|y l IH]; intros b x a Eq; cbn [filter] in Eq; [destruct b; discriminate|]. destruct (P y) eqn:Ey.
  - destruct b as [|y0 b]; cbn in Eq; injection Eq as -> Eq; [exists [], l; auto|]. destruct (IH _ _ _ Eq) as (b' & a' & -> & H1 & H2). exists (y0 :: b'), a'. auto.
  - destruct (IH _ _ _ Eq) as (b' & a' & -> & H1 & H2). exists (y :: b'), a'. auto.
Qed.
Lemma remote_decides n m c d dc : dget ms n = Some m -> (dget (remote_compact compact m) c = Some (d, dc) <-> decides ms compact n c d dc).
Proof.
  intros Hm. rewrite remote_pairs, dict_of_last. split.
  - intros (b & a & Eq & Hn). destruct (filter_split Eq) as (b' & a' & Hp & Ha & Hx). cbn [fst snd] in Hx. exists m, b', a'. split; [exact (dget_In Hm)|]. split; [exact Hp|].
    split; [apply compacted_iff; apply memb_true; exact Hx|]. intros d' dc' Hi Hc. apply Hn. rewrite <- Ha. apply in_map_iff. exists (c, (d', dc')). split; [reflexivity|].
    apply filter_In. split; [exact Hi|]. cbn [fst snd]. apply memb_true. apply compacted_iff. exact Hc.
  - intros (m' & b & a & Hm' & Hp & Hc & Hl). rewrite (In_dget (proj1 Hms) Hm') in Hm. injection Hm as <-. rewrite Hp, filter_app. cbn [filter fst snd].
    rewrite (proj2 (memb_true _ _) (proj1 (compacted_iff _ _) Hc)). eexists _, _. split; [reflexivity|]. intros Hi. apply in_map_iff in Hi. destruct Hi as ([c' [d' dc']] & Eq & Hi). cbn in Eq. subst c'.
    apply filter_In in Hi. destruct Hi as [Hi Hx]. cbn [fst snd] in Hx. apply (Hl d' dc' Hi). apply compacted_iff. apply memb_true. exact Hx.
Qed.
Lemma decides_fun n c d dc d' dc' : decides ms compact n c d dc -> decides ms compact n c d' dc' -> (d, dc) = (d', dc').
Proof.
  intros H H'. assert (Hm : exists m, dget ms n = Some m) by (destruct H as (m & _ & _ & Hm & _); exists m; exact (In_dget (proj1 Hms) Hm)). destruct Hm as (m & Hm).
  apply (remote_decides c d dc Hm) in H. apply (remote_decides c d' dc' Hm) in H'. congruence.
Qed.
Lemma governs_decides n c d dc : governs ms compact n c d dc -> exists d' dc', decides ms compact n c d' dc'.
Proof.
  intros H. assert (Hm : exists m, dget ms n = Some m) by (destruct H as (m & _ & Hm & _); exists m; exact (In_dget (proj1 Hms) Hm)). destruct Hm as (m & Hm).
  destruct (governs_remote Hm H) as (d' & dc' & E). exists d', dc'. apply (remote_decides c d' dc' Hm). exact E.
Qed.

Lemma rget_map_In (g : string * colsrc -> value) xs c x : NoDup (map fst xs) -> In (c, x) xs -> rget (map (fun cx => (fst cx, g cx)) xs) c = g (c, x).
Proof.
  intros Hn Hin. unfold rget, dget_or. rewrite (In_dget (v := g (c, x))); [reflexivity| |].
  - unfold dkeys. rewrite map_map. exact Hn.
  - apply in_map_iff. exists (c, x). auto.
Qed.

(** the statement of a table selects all its columns *)
Lemma reads_columns st s q n m b c cols : In (s, q) queries -> named s n -> dget ms n = Some m ->
  lift_build (build_query (ctx st) q []) = Ok (b, c) -> selected_columns b = Ok cols -> tb_cols (tm_table m) = cols.
Proof.
  intros Hin Hn Hm Hb Hcols. destruct (build_query (ctx st) q []) as [[b0 c0]|] eqn:Eb; [|discriminate]. inv Hb.
  destruct (Hreads Hin Hn) as (E1 & stm & E2 & Hr). unfold build_query in Eb. rewrite E1, E2 in Eb. exact (reads_selected Hr Hm Eb Hcols).
Qed.

(** the rows written for one table *)
Lemma copy_rewritten st s q n m cs : mats queries = Ok st -> In (s, q) queries -> named s n -> dget ms n = Some m ->
  copy_statement reopen ms compact st n q = Ok cs -> unique_references cmpf ms compact (rows_of st) n -> ~ not_compacted ms compact n ->
  Forall2 (fun kr r' => rewritten cmpf ms compact (rows_of st) (num_of st) n m (fst kr) (snd kr) r') (numbered_rows st n)
          (copy_rows source cmpf textf rawf z rank start st n cs) /\ copy_keys raw_cols cs = tb_cols (tm_table m).
Proof.
  intros Hst Hin Hn Hm H Hs2 Htouch. unfold copy_statement in H.
  apply bind_Ok in H. destruct H as ([b cnt] & Hb & H). unfold dfind in H. rewrite Hm in H. cbn [bind] in H.
  destruct (copy_query Hord Hms Hsrc Hq Hwf Hst Hin Hn Hb) as [Hrows _].
  destruct Hco as (Hcn & Hcne & Htab & Hgid). destruct (Htab n m (dget_In Hm)) as (Htc & Hid & Hpk).
  destruct (is_nil (remote_compact compact m) && is_nil (dget_or compact n [])) eqn:Ep.
  { exfalso. apply Htouch. apply andb_prop in Ep. destruct Ep as [E1 E2]. split.
    - intros Hk. destruct (key_dget Hk) as (cs0 & E). unfold dget_or in E2. rewrite E in E2. destruct cs0; [|discriminate]. exact (Hcne _ _ (dget_In E) eq_refl).
    - intros c d dc Hg. destruct (governs_remote Hm Hg) as (d' & dc' & E). destruct (remote_compact compact m); [discriminate|discriminate]. }
  apply bind_Ok in H. destruct H as (cols & Hcols & H). apply bind_Ok in H. destruct H as (u & Hu & H). apply bind_Ok in H. destruct H as (xs & Hxs & H). inv H.
  destruct (copy_columns_spec Hxs) as [Hfst Hcol]. cbn [copy_rows copy_keys]. split; [|exact Hfst].
  (* the numbered rows of the statement *)
  set (numbered := if memb id_column cols then map (fun r => (rget r id_column, r)) (eval_query (tdb st) (z PCopy n) b)
                   else number_rows rank start PCopy n (tb_pk (tm_table m)) (eval_query (tdb st) (z PCopy n) b)).
  assert (Hnum : exists (f : Z * row -> row) vs, numbered = combine vs (map f (numbered_rows st n)) /\ length vs = length (numbered_rows st n) /\
      (forall kr c, c <> id_column -> rget (f kr) c = rget (snd kr) c) /\
      (In n (dkeys compact) -> vs = map (fun kr => VInt (fst kr)) (numbered_rows st n))).
  { assert (Esnd : map snd (numbered_rows st n) = rows_of st n).
    { unfold numbered_rows. generalize (num_len st n). generalize (num_of st n) (rows_of st n). clear.
      induction l as [|a l IH]; intros [|b l'] H; cbn in *; try discriminate; [reflexivity|]. rewrite IH by lia. reflexivity. }
    assert (Elen : length (numbered_rows st n) = length (rows_of st n)) by (rewrite <- Esnd, map_length; reflexivity).
    unfold numbered. destruct (dget (ts_objs st) (n, 0)) as [t|] eqn:Et.
    - pose proof (dget_Some_key Et) as Hk. inv Hb. rewrite Hrows. cbn [selected_columns from_table] in Hcols. inv Hcols.
      destruct (mats_spec Hord Hq Hst) as (_ & _ & order & Ho & _ & Hkeys & Hsteps).
      assert (Hk' := Hk). apply Hkeys in Hk'. destruct Hk' as (c & Hc & _). destruct (Hsteps n c Hc) as (s1 & s2 & _ & Hs & _ & _ & Hobj).
      destruct (step_all Hs) as (m' & q' & b' & c' & cols' & _ & E1 & E2 & E3 & E4 & _ & _ & E7). rewrite Hobj in Et. destruct (E7 _ _ Et) as [Ecols _].
      pose proof (sample_temp Hst Hk) as Hsm. destruct (dmem compact n) eqn:Ed.
      + exists (fun kr => (id_column, VInt (fst kr)) :: snd kr), (map (fun kr => VInt (fst kr)) (numbered_rows st n)).
        rewrite map_length. split; [|split; [reflexivity|split; [intros kr c0 Hc0; apply rget_cons_ne; exact Hc0|reflexivity]]].
        rewrite Ecols. cbn [memb existsb]. rewrite eqb_refl. cbn [orb]. rewrite Hsm.
        generalize (numbered_rows st n). clear. induction l as [|kr l IH]; [reflexivity|]. cbn [map combine]. rewrite rget_cons_eq, IH. reflexivity.
      + exists (@snd Z row). rewrite Hsm, Esnd, Elen. destruct (memb id_column (t_cols t)).
        * exists (map (fun r => rget r id_column) (rows_of st n)). rewrite map_length. split; [|split; [reflexivity|split; [reflexivity|]]].
          -- rewrite combine_map_l. generalize (rows_of st n). clear. induction l as [|a l IH]; [reflexivity|]. cbn. rewrite IH. reflexivity.
          -- intros Hx; apply dmem_true in Hx; congruence.
        * eexists. split; [reflexivity|]. split; [rewrite map_length, rank_len, map_length; reflexivity|]. split; [reflexivity|].
          intros Hx; apply dmem_true in Hx; congruence.
    - assert (Hk : ~ In (n, 0) (dkeys (ts_objs st))) by (apply dget_None; exact Et).
      assert (Hsm : smp st n = rows_of st n).
      { apply (sample_plain (s := s) (q := q) (b := b) (c := cnt) Hst Hin Hn); [rewrite Et; exact Hb|exact Hk]. }
      assert (Ei : memb id_column cols = false).
      { apply memb_false. rewrite <- (reads_columns Hin Hn Hm Hb Hcols). exact Hid. }
      rewrite Ei, Hrows, Hsm. exists (@snd Z row), (map (fun kr => VInt (fst kr)) (numbered_rows st n)). rewrite map_length.
      assert (Hph : phase_of st n = PCopy) by (unfold phase_of; destruct (dmem (ts_objs st) (n, 0)) eqn:E; [apply dmem_true in E; contradiction|reflexivity]).
      split; [|split; [reflexivity|split; reflexivity]]. rewrite <- Hph. rewrite (number_rows_eq st Hm).
      generalize (numbered_rows st n). clear. induction l as [|kr l IH]; [reflexivity|]. cbn [map combine]. rewrite IH. reflexivity. }
  destruct Hnum as (f & vs & -> & Hlen & Hf & Hvs).
  apply flat_map_zip; [exact Hlen|]. intros i v [k r] Hv Hkr. cbn [fst snd].
  assert (Hvk : In n (dkeys compact) -> v = VInt k).
  { intros Hx. rewrite (Hvs Hx) in Hv. destruct (nth_error_map_inv Hv) as (kr' & Hkr' & ->). rewrite Hkr in Hkr'. inv Hkr'. reflexivity. }
  assert (Hcv : forall c x, In (c, x) xs -> exists w, col_values st v (f (k, r)) x = [w] /\
      (compacted compact n c -> w = VInt k) /\
      (~ compacted compact n c -> forall d dc, decides ms compact n c d dc -> follows cmpf (rows_of st d) (num_of st d) dc (rget r c) w) /\
      (~ compacted compact n c -> (forall d dc, ~ governs ms compact n c d dc) -> w = rget r c)).
  { intros c x Hcx. pose proof (Hcol c x Hcx) as Hx.
    assert (Hc : In c (tb_cols (tm_table m))) by (rewrite <- Hfst; apply in_map_iff; exists (c, x); auto).
    assert (Hcid : c <> id_column) by (intros ->; exact (Hid Hc)).
    destruct (memb c (dget_or compact n [])) eqn:Em.
    - subst x. apply memb_true in Em. assert (Hcc : compacted compact n c) by (apply compacted_iff; exact Em). exists v. split; [reflexivity|].
      split; [|split; intros Hx; contradiction]. intros _. apply Hvk. destruct Hcc as (cs & Hcs & _). apply in_map_iff. exists (n, cs). auto.
    - assert (Hnc : ~ compacted compact n c) by (intros Hx'; apply compacted_iff in Hx'; apply memb_false in Em; contradiction).
      destruct (dget (remote_compact compact m) c) as [[d dc]|] eqn:Er.
      + destruct Hx as (i0 & t & Ht & ->). pose proof (remote_governs Hm Er) as Hg. assert (Hdec : decides ms compact n c d dc) by (apply (remote_decides c d dc Hm); exact Er).
        destruct (remote_value (f (k, r)) Hst Hg (Hs2 _ _ _ Hdec) Ht) as (w & Hw1 & Hw2). exists w. split; [exact Hw1|].
        split; [intros Hx'; contradiction|]. split; [|intros _ Hno; exfalso; exact (Hno _ _ Hg)].
        intros _ d' dc' Hg'. pose proof (decides_fun Hdec Hg') as E. inv E. rewrite (Hf (k, r) c Hcid) in Hw2. exact Hw2.
      + subst x. exists (rget (f (k, r)) c). split; [reflexivity|]. split; [intros Hx'; contradiction|]. split.
        * intros _ d dc Hg. destruct (governs_remote Hm (decides_governs Hg)) as (d' & dc' & E). congruence.
        * intros _ _. exact (Hf (k, r) c Hcid). }
  set (g := fun cx : string * colsrc => hd VNull (col_values st v (f (k, r)) (snd cx))).
  exists (map (fun cx => (fst cx, g cx)) xs). split.
  - apply copy_row_single. intros [c x] Hcx. destruct (Hcv c x Hcx) as (w & E & _). unfold g. cbn [snd]. rewrite E. reflexivity.
  - split; [rewrite map_map; exact Hfst|]. intros c Hc. rewrite <- Hfst in Hc. apply in_map_iff in Hc. destruct Hc as ([c0 x] & E & Hcx). cbn in E. subst c0.
    assert (Hnx : NoDup (map fst xs)) by (rewrite Hfst; exact Htc).
    rewrite (rget_map_In g Hnx Hcx). destruct (Hcv c x Hcx) as (w & E & A & B & C). unfold g. cbn [snd]. rewrite E. cbn [hd]. auto.
Qed.

(** C40, C41 *)
Theorem run_compaction insert_order st outs :
  extract source cmpf textf rawf raw_cols z rank reopen ms compact start ord queries insert_order = Ok (st, outs) ->
  exists (sample rows : tname -> list row) (num : tname -> list Z),
    (forall s q n, In (s, q) queries -> named s n ->
       (exists p, rows n = query_result cmpf textf rawf source sample (z p n) q) /\
       (sample n = rows n \/
        In n (dkeys compact) /\ sample n = map (fun kr => (id_column, VInt (fst kr)) :: snd kr) (combine (num n) (rows n)))) /\
    (forall n m, In (n, m) ms -> dense start (length (rows n)) (num n) /\ increasing lt (tb_pk (tm_table m)) (rows n) (num n)) /\
    (forall o, In o outs -> exists s m, named s (co_name o) /\ In s insert_order /\ In s (dkeys queries) /\ In (co_name o, m) ms /\
       (not_compacted ms compact (co_name o) -> co_rows o = rows (co_name o)) /\
       (~ not_compacted ms compact (co_name o) -> unique_references cmpf ms compact rows (co_name o) ->
          co_cols o = tb_cols (tm_table m) /\
          Forall2 (fun kr r' => rewritten cmpf ms compact rows num (co_name o) m (fst kr) (snd kr) r')
                  (combine (num (co_name o)) (rows (co_name o))) (co_rows o))).
Proof.
  intros H. unfold extract in H. apply bind_Ok in H. destruct H as (st0 & Hst & H). apply bind_Ok in H. destruct H as (l & Hl & H). inv H.
  destruct (mats_spec Hord Hq Hst) as (Hw & _ & order & Ho & _ & Hkeys & _). apply mapM_Ok in Hl.
  exists (smp st), (rows_of st), (num_of st). split; [|split].
  - intros s q n Hin Hn. destruct (in_queries Hq Hin Hn) as [_ Eq]. split.
    + exists (phase_of st n). unfold rows_of. rewrite Eq. reflexivity.
    + destruct (In_dec' (n, 0) (dkeys (ts_objs st))) as [Hk|Hk].
      * pose proof (sample_temp Hst Hk) as Hs. destruct (dmem compact n) eqn:Ed; [|left; exact Hs]. right. split; [apply dmem_true; exact Ed|exact Hs].
      * left. rewrite (sample_copied Hord Hms Hq (proj1 Hco) Hst Hin Hn Hk). unfold rows_of, phase_of. rewrite Eq.
        destruct (dmem (ts_objs st) (n, 0)) eqn:E; [apply dmem_true in E; contradiction|reflexivity].
  - intros n m Hm. split; [apply num_dense|]. pose proof (@num_increasing st n) as Hi. unfold pk_of in Hi. rewrite (In_dget (proj1 Hms) Hm) in Hi. exact Hi.
  - intros o Ho'. apply in_flat_map in Ho'. destruct Ho' as (oo & Hoo & Ho'). destruct oo as [o'|]; [|destruct Ho'].
    destruct Ho' as [->|[]]. destruct (Forall2_In_r Hl Hoo) as (s & Hs & Eo). unfold copy_table in Eo. apply bind_Ok in Eo. destruct Eo as (n & Hp & Eo).
    unfold parse in Hp. destruct (parse_table_name s) as [n0|] eqn:Ep; [|discriminate]. inv Hp. apply parse_named in Ep.
    destruct (dget queries s) as [q|] eqn:Eq; [|discriminate]. apply bind_Ok in Eo. destruct Eo as (c & Ec & Eo). inv Eo. cbn [co_name co_rows co_cols].
    assert (Hm : exists m, dget ms n = Some m).
    { unfold copy_statement in Ec. apply bind_Ok in Ec. destruct Ec as ([b cnt] & Eb & Ec). apply bind_Ok in Ec. destruct Ec as (m & Em & Ec). apply dfind_Ok in Em. eauto. }
    destruct Hm as (m & Hm). exists s, m. split; [exact Ep|]. split; [exact Hs|]. split; [exact (dget_Some_key Eq)|]. split; [exact (dget_In Hm)|]. split.
    + intros Hnc. unfold copy_statement in Ec. apply bind_Ok in Ec. destruct Ec as ([b cnt] & Eb & Ec). unfold dfind in Ec. rewrite Hm in Ec. cbn [bind] in Ec.
      destruct (not_compacted_plain (proj1 Hco) (proj1 Hms) Hm Hnc) as [E1 E2]. rewrite E1, E2 in Ec. cbn [is_nil andb] in Ec. inv Ec.
      cbn [copy_rows]. rewrite (proj1 (copy_query Hord Hms Hsrc Hq Hwf Hst (dget_In Eq) Ep Eb)).
      destruct (In_dec' (n, 0) (dkeys (ts_objs st))) as [Hk|Hk].
      * rewrite (sample_temp Hst Hk). destruct (dmem compact n) eqn:Ed; [|reflexivity]. apply dmem_true in Ed. exfalso. exact (proj1 Hnc Ed).
      * exact (sample_plain Hst (dget_In Eq) Ep Eb Hk).
    + intros Hnc Hsr. destruct (copy_rewritten Hst (dget_In Eq) Ep Hm Ec Hsr Hnc) as [HA HB]. split; [exact HB|exact HA].
Qed.
End Run.

(** consequences for the written tables *)
Section Written.
Variables (cmpf : cmpop -> value -> value -> bool) (ms : meta) (compact : dict tname (list string)).

Lemma Forall2_combine_map {A B C} (P : A -> B -> C -> Prop) : forall (num : list A) (rows : list B) (out : list C),
  length num = length rows -> Forall2 (fun kr r' => P (fst kr) (snd kr) r') (combine num rows) out ->
  length out = length rows /\ forall i, i < length rows -> exists k r r', nth_error num i = Some k /\ nth_error rows i = Some r /\ nth_error out i = Some r' /\ P k r r'.
Proof.
  induction num as [|k num IH]; intros [|r rows] out Hl HF; cbn in *; try discriminate.
  - inversion HF. split; [reflexivity|]. intros i Hi. lia.
  - inversion HF as [|x y l l' H1 H2 E1 E2]. subst. destruct (IH rows l') as [A1 A2]; [lia|exact H2|]. cbn [length]. split; [lia|].
    intros [|i] Hi; [exists k, r, y; cbn; auto|]. cbn [nth_error]. apply A2. lia.
Qed.

Lemma written_numbers rows num n m c out start : NoDup (tb_cols (tm_table m)) -> length (num n) = length (rows n) ->
  Forall2 (fun kr r' => rewritten cmpf ms compact rows num n m (fst kr) (snd kr) r') (combine (num n) (rows n)) out ->
  dense start (length (rows n)) (num n) -> compacted compact n c -> In c (tb_cols (tm_table m)) ->
  length out = length (rows n) /\ map (fun r => rget r c) out = map VInt (num n) /\
  Permutation (map (fun r => rget r c) out) (map (fun i => VInt (start + Z.of_nat i)) (seq 0 (length out))).
Proof.
  intros Hnd Hl HF Hd Hc Hin. destruct (Forall2_combine_map Hl HF) as [Hlen _].
  assert (E : map (fun r => rget r c) out = map VInt (num n)).
  { revert Hl HF. clear Hd Hlen. generalize (num n) (rows n). intros l. revert out. induction l as [|k l IH]; intros out [|r rs] Hl HF; cbn in *; try discriminate.
    - inversion HF. reflexivity.
    - inversion HF as [|x y l1 l2 H1 H2 E1 E2]. subst. cbn [map fst snd] in *. destruct H1 as [_ H1]. rewrite (proj1 (H1 c Hin) Hc). f_equal. apply (IH l2 rs); [lia|exact H2]. }
  split; [exact Hlen|]. split; [exact E|]. rewrite E, Hlen. unfold dense in Hd. rewrite (Permutation_map VInt Hd), map_map. reflexivity.
Qed.

(** a single-column foreign key to a compacted column still holds between the written rows *)
Lemma written_fk rows num n m d md fk c dc out outd :
  length (num n) = length (rows n) -> length (num d) = length (rows d) ->
  Forall2 (fun kr r' => rewritten cmpf ms compact rows num n m (fst kr) (snd kr) r') (combine (num n) (rows n)) out ->
  Forall2 (fun kr r' => rewritten cmpf ms compact rows num d md (fst kr) (snd kr) r') (combine (num d) (rows d)) outd ->
  fk_cols fk = [c] -> fk_dst_cols fk = [dc] -> In c (tb_cols (tm_table m)) -> In dc (tb_cols (tm_table md)) ->
  decides ms compact n c d dc -> ~ compacted compact n c -> (forall k, cmpf CEq (VInt k) (VInt k) = true) ->
  fk_holds cmpf fk out outd.
Proof.
  intros Hl Hld HF HFd Ec Edc Hc Hdc Hg Hnc Hrefl r' Hr' Hnn.
  destruct (Forall2_combine_map Hl HF) as [Hlen Hp]. destruct (Forall2_combine_map Hld HFd) as [Hlend Hpd].
  apply In_nth_error in Hr'. destruct Hr' as (i & Hi). assert (Hi' : i < length (rows n)) by (rewrite <- Hlen; apply nth_error_Some; congruence).
  destruct (Hp i Hi') as (k & r & r1 & Hk & Hr & Hr1 & Hw). rewrite Hi in Hr1. inv Hr1. destruct Hw as [_ Hw]. destruct (Hw c Hc) as (_ & Hw2 & _).
  specialize (Hnn c). rewrite Ec in Hnn. specialize (Hnn (or_introl eq_refl)).
  destruct (Hw2 Hnc d dc Hg) as [(j & rd & kd & Hj & Hkd & Hm & Ev)|[_ Ev]]; [|congruence].
  assert (Hj' : j < length (rows d)) by (apply nth_error_Some; congruence).
  destruct (Hpd j Hj') as (kd' & rd' & rd1 & Hkd' & Hrd' & Hrd1 & Hwd). rewrite Hkd in Hkd'. inv Hkd'. destruct Hwd as [_ Hwd]. destruct (Hwd dc Hdc) as (Hwd1 & _).
  destruct Hg as (_ & _ & _ & _ & _ & Hcd & _). specialize (Hwd1 Hcd).
  exists rd1. split; [exact (nth_error_In _ _ Hrd1)|]. unfold refers. rewrite Ec, Edc. constructor; [|constructor].
  rewrite Ev, Hwd1. split; [discriminate|]. split; [discriminate|]. apply Hrefl.
Qed.
End Written.
