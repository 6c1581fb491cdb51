(** The INSERT and setval statements of a run. *)
From Coq Require Import Lia Relations.Relation_Operators.
From Verif Require Import Model.Base Model.Value Model.Names Model.PlanModel Model.Solver Model.PlanBuild Model.Metadata Model.Filters Model.Multiply Model.Materialize Model.Dest Model.Output Model.Sampler.
From Verif Require Import Spec.GraphSpec Spec.SchemaSpec Spec.FilterSpec Spec.OutputSpec Spec.RunSpec.
From Verif Require Import Proofs.BaseFacts Proofs.NameFacts Proofs.MetadataFacts Proofs.FilterFacts Proofs.PlanRun Proofs.OutputRows Proofs.OutputRun Proofs.OutputDb Proofs.OutputCreate Proofs.OutputCopy Proofs.OutputSample Proofs.OutputMain Proofs.OutputColumn Proofs.OutputMerge Proofs.OutputKeys.
Set Implicit Arguments. Unset Strict Implicit.
Open Scope list_scope.



Lemma greater_ints x y : py_greater (VInt x) (VInt y) = Ok (Z.ltb y x).
Proof.
  unfold py_greater. cbn [py_num]. f_equal. destruct (Qle_bool (inject_Z x) (inject_Z y)) eqn:E; cbn [negb].
  - apply Qle_bool_iff in E. rewrite <- Zle_Qle in E. symmetry. apply Z.ltb_ge. exact E.
  - symmetry. apply Z.ltb_lt. destruct (Z_lt_le_dec y x) as [H|H]; [exact H|]. rewrite Zle_Qle in H. apply Qle_bool_iff in H. congruence.
Qed.
Lemma max_ints : forall zs z0 mx, forM next_max (map VInt zs) (VInt z0) = Ok mx ->
  exists z, mx = VInt z /\ (z = z0 \/ In z zs) /\ (z0 <= z)%Z /\ forall y, In y zs -> (y <= z)%Z.
Proof.
  induction zs as [|a zs IH]; intros z0 mx H; cbn [map forM] in H.
  - injection H as <-. exists z0. split; [reflexivity|]. split; [now left|]. split; [lia|intros y []].
  - apply bind_Ok in H. destruct H as (m & Hm & H). unfold next_max in Hm. rewrite greater_ints in Hm. cbn [bind] in Hm. injection Hm as <-.
    destruct (Z.ltb z0 a) eqn:El.
    + apply Z.ltb_lt in El. destruct (IH _ _ H) as (z & -> & Hz & Hle & Hall). exists z. split; [reflexivity|]. split; [right; destruct Hz as [->|Hz]; [now left|now right]|].
      split; [lia|]. intros y [<-|Hy]; [exact Hle|exact (Hall y Hy)].
    + apply Z.ltb_ge in El. destruct (IH _ _ H) as (z & -> & Hz & Hle & Hall). exists z. split; [reflexivity|]. split; [destruct Hz as [->|Hz]; [now left|right; now right]|].
      split; [exact Hle|]. intros y [<-|Hy]; [lia|exact (Hall y Hy)].
Qed.
Lemma item_nth {A} (l : list A) i x : item l i = Ok x <-> nth_error l i = Some x.
Proof. unfold item. destruct (nth_error l i); split; intros H; inv H; reflexivity. Qed.
Lemma nth_value cols out i k v : NoDup cols -> nth_error cols i = Some k -> nth_error out i = Some v -> value_of cols out k = Some v.
Proof.
  unfold value_of. revert out i. induction cols as [|c cols IH]; intros [|x out] [|i] Hnd Hk Hv; cbn in Hk, Hv; try discriminate.
  - injection Hk as ->. injection Hv as ->. cbn. destruct (eq_dec k k); congruence.
  - inversion Hnd as [|? ? Hni Hnd']; subst. cbn [combine dget]. destruct (eq_dec k c) as [->|]; [elim Hni; eapply nth_error_In; exact Hk|]. exact (IH out i Hnd' Hk Hv).
Qed.
Lemma setvals_app t1 t2 n : setvals (t1 ++ t2) n = setvals t1 n ++ setvals t2 n.
Proof. apply flat_map_app. Qed.
Lemma setvals_inserts n how bs n' : setvals (map (EvInsert n how) bs) n' = [].
Proof. induction bs as [|b bs IH]; [reflexivity|exact IH]. Qed.
Lemma copy_of_length cols mult offs m i r out : copy_of cols mult offs m i r out -> length out = length cols.
Proof.
  intros [Hl HF]. assert (H : length (combine cols r) = length out). { clear Hl. induction HF; [reflexivity|cbn; f_equal; assumption]. }
  rewrite <- H, combine_length. lia.
Qed.

Section Events.
Context {G : Type}.
Variable E : env G.
Variable cfg : sampler_config.
Variable p : plan.
Variables (ms : meta) (compact : dict tname (list string)) (st : tstate) (mults : dict string (list string)).
Variables (c : db_config) (o : db_output).
Hypothesis Hdist : forall t co, result_of E cfg p ms compact st t co -> NoDup (co_cols co).
Hypothesis Hmeta : meta_ok (ou_meta o).
Notation to := (lands (en_resub E) (oc_remap c)).

(** The INSERTs into [n] give every row the same columns, and have the form the strategy demands. *)
Definition event_ok (cols : list string) (t : string) (e : event) : Prop :=
  match e with
  | EvInsert n how rows => to t n /\ exists tm, dget (ou_meta o) n = Some tm /\ conflict_insert (oc_dialect c) (strategy_of c p t) (tm_table tm) cols = Ok how /\
      NoDup cols /\ incl cols (tb_cols (tm_table tm)) /\ forall row, In row rows -> dkeys row = cols
  | EvSetval n z => to t n /\ In n (dkeys (ou_meta o))
  | _ => False
  end.
(** The sequence is set to the largest key written unless [currval] is larger. *)
Definition seq_ok (n : tname) (rows : list row) (zs : list Z) : Prop :=
  (rows = [] \/ oc_dialect c <> PostgreSQL \/ en_autoinc E n = None -> zs = []) /\
  forall k, oc_dialect c = PostgreSQL -> en_autoinc E n = Some k -> rows <> [] -> (forall row, In row rows -> exists z, rget row k = VInt z) ->
    exists z, largest rows k z /\ (zs = [z] /\ (forall v, en_currval E n = Some v -> (v <= z)%Z) \/ zs = [] /\ exists v, en_currval E n = Some v /\ (z < v)%Z).

Lemma strategy_used t n : named t n -> used_strategy c (p_passthrough p) n = strategy_of c p t.
Proof.
  intros Hn. unfold used_strategy, strategy_of. rewrite <- (named_eq Hn). destruct (in_dec string_dec t (p_passthrough p)) as [Hi|Hi].
  - assert (Hm : memb t (set_of (p_passthrough p)) = true) by (apply memb_true; apply (proj2 (set_of_In _ _)); exact Hi). rewrite Hm. destruct (oc_merge c); reflexivity.
  - assert (Hm : memb t (set_of (p_passthrough p)) = false). { apply memb_false. intros F. apply (proj1 (set_of_In _ _)) in F. contradiction. } rewrite Hm. destruct (oc_merge c); reflexivity.
Qed.

Lemma copy_one_events t g w w' r : In t (dkeys (p_queries p)) -> copy_one E cfg (OutDatabase c o) p ms compact st mults g t w = (w', r) ->
  exists tr cols, trace w' = trace w ++ tr /\ Forall (event_ok cols t) tr /\
    (succeeded r = true -> exists n', to t n' /\ seq_ok n' (written tr n') (setvals tr n')).
Proof.
  intros Hin H. unfold copy_one in H.
  apply bind_io_inv in H. destruct H as [(w1 & co & H1 & H)|(e & H1 & ->)].
  2:{ apply lift_inv in H1. destruct H1 as [-> _]. exists [], []. rewrite app_nil_r. split; [reflexivity|]. split; [constructor|discriminate]. }
  apply lift_inv in H1. destruct H1 as [-> Hco]. unfold of_samp in Hco.
  destruct (copy_table _ _ _ _ _ _ _ _ _ _ _ _ _ _) as [co'|] eqn:Hct; [|discriminate]. inv Hco.
  destruct co as [co|].
  2:{ exfalso. unfold copy_table in Hct. apply bind_Ok in Hct. destruct Hct as (n & _ & Hct). apply key_dget in Hin. destruct Hin as (q & Hq). rewrite Hq in Hct.
      apply bind_Ok in Hct. destruct Hct as (x & _ & Hx). discriminate. }
  apply bind_io_inv in H. destruct H as [(w1 & [chain cols] & H1 & H)|(e & H1 & ->)].
  2:{ apply lift_inv in H1. destruct H1 as [-> _]. exists [], []. rewrite app_nil_r. split; [reflexivity|]. split; [constructor|discriminate]. }
  apply lift_inv in H1. destruct H1 as [-> Hch]. unfold of_filter in Hch.
  destruct (construct_chain _ _ _) as [x|] eqn:Hcc; [|discriminate]. inv Hch.
  cbn [output_result_set] in H. assert (Hnt : named t (co_name co)) by exact (proj1 (result_named Hct)).
  assert (Hndc : NoDup cols) by exact (chain_NoDup Hcc (Hdist Hct)).
  apply (database_output_spec Hcc) in H; [|exact (Hdist Hct)|].
  2:{ intros x Hx. apply in_map_iff in Hx. destruct Hx as (y & <- & _). apply map_length. }
  destruct H as [((e & ->) & Htr)|H].
  { exists [], []. rewrite app_nil_r. split; [exact Htr|]. split; [constructor|discriminate]. }
  destruct H as (n' & tm & l1 & l2 & outs & g1 & bs & tail & Hn' & Htm & Hincl & Heach & Hcop & Hinit & Hall & Htr & Htail & Hci & Hok).
  assert (Hto : to t n') by (exists (co_name co); split; [exact Hnt|apply remap_goes; exact Hn']).
  rewrite (strategy_used Hnt) in *.
  set (plain := plain_columns (en_computed E) n' cols) in *. assert (Hndp : NoDup plain) by (apply NoDup_filter; exact Hndc).
  assert (Hlen : Forall (fun out => length out = length plain) outs).
  { clear - Hcop. apply copies_Forall2 in Hcop. induction Hcop as [|ri out l outs (g0 & f & g2 & _ & Hc) _ IH]; constructor; [exact (copy_of_length Hc)|exact IH]. }
  assert (Hname : tb_name (tm_table tm) = n') by (apply dget_In in Htm; exact (proj2 Hmeta _ _ Htm)).
  assert (Hsub : forall b out, In b bs -> In out b -> In out outs).
  { intros b out Hb Ho. destruct Hinit as (rest & ->). apply in_or_app. left. apply in_concat. eauto. }
  assert (Hrow : forall out, In out outs -> dkeys (as_row plain out) = plain /\ forall k v, value_of plain out k = Some v -> rget (as_row plain out) k = v).
  { intros out Ho. rewrite Forall_forall in Hlen. specialize (Hlen out Ho). unfold as_row. split; [|intros k v Hv; exact (rget_dict_of Hndp Hlen Hv)].
    rewrite dict_of_nodup by (rewrite combine_fst by exact Hlen; exact Hndp). unfold dkeys. apply combine_fst. exact Hlen. }
  assert (Hev : Forall (event_ok plain t) (map (sent c (strategy_of c p t) (tm_table tm) plain) bs)).
  { apply Forall_map. apply Forall_forall. intros b Hb. unfold sent, event_ok. rewrite Hname. split; [exact Hto|]. destruct Hci as (h & Hh); [intros F; rewrite F in Hb; elim Hb|].
    exists tm. rewrite Hh. split; [exact Htm|]. split; [reflexivity|]. split; [exact Hndp|]. split; [intros x Hx; apply Hincl; apply filter_In in Hx; apply Hx|].
    intros row Hrow'. apply in_map_iff in Hrow'. destruct Hrow' as (out & <- & Ho). exact (proj1 (Hrow out (Hsub _ _ Hb Ho))). }
  exists (map (sent c (strategy_of c p t) (tm_table tm) plain) bs ++ tail), plain. split; [exact Htr|]. split.
  { apply Forall_app. split; [exact Hev|]. destruct Htail as [->|(z & -> & _)]; repeat constructor; [exact Hto|exact (dget_Some_key Htm)]. }
  intros Hs. exists n'. split; [exact Hto|]. destruct r as [g'|]; [|discriminate]. destruct (Hok g' eq_refl) as (_ & Hcat & _ & mx & w2 & Hmx & Htr2 & Hup).
  set (how := match conflict_insert (oc_dialect c) (strategy_of c p t) (tm_table tm) plain with Ok h => h | Err _ => Fail end).
  assert (Hmap : map (sent c (strategy_of c p t) (tm_table tm) plain) bs = map (EvInsert n' how) (map (map (as_row plain)) bs)).
  { rewrite map_map. apply map_ext. intros b. unfold sent. fold how. rewrite Hname. reflexivity. }
  assert (Hbt : batches tail n' = []) by (destruct Htail as [->|(z & -> & _)]; reflexivity).
  assert (Hwr : written (map (sent c (strategy_of c p t) (tm_table tm) plain) bs ++ tail) n' = map (as_row plain) outs).
  { unfold written. rewrite batches_app, Hbt, app_nil_r, Hmap, batches_inserts, <- Hcat. symmetry. apply concat_map. }
  assert (Hsv : setvals (map (sent c (strategy_of c p t) (tm_table tm) plain) bs ++ tail) n' = setvals tail n') by (rewrite setvals_app, Hmap, setvals_inserts; reflexivity).
  rewrite Hwr, Hsv. assert (Htail2 : trace w' = trace w2 ++ tail) by (rewrite Htr, Htr2, app_assoc; reflexivity).
  assert (Hsend : (w', Ok tt) = (w2, @Ok out_exn unit tt) -> tail = []). { intros Eq. injection Eq as ->. rewrite <- (app_nil_r (trace w2)) in Htail2 at 1. apply app_inv_head in Htail2. now symmetry. }
  split.
  { intros Hor. rewrite Hsend; [reflexivity|]. rewrite <- Hup. unfold autoincrement_update, ai_of in *. destruct Hor as [Hnone|[Hor|Hor]].
    - apply map_eq_nil in Hnone. rewrite Hnone in Hmx. assert (Emx : mx = VNull). { unfold maxed in Hmx. destruct (match needs_updating c with true => _ | false => _ end); [|exact Hmx]. destruct Hmx as (vs & Hvs & Hm). cbn in Hvs. injection Hvs as <-. cbn in Hm. congruence. }
      rewrite Emx. destruct (needs_updating c), (en_autoinc E n'); reflexivity.
    - unfold needs_updating. destruct (oc_dialect c); try reflexivity. congruence.
    - rewrite Hor. destruct (needs_updating c); reflexivity. }
  intros k Hpg Hai Hne Hint.
  assert (Hup' := Hup). unfold autoincrement_update in Hup'. unfold ai_of, needs_updating in *. rewrite Hpg in *. rewrite Hai in *. fold plain in Hmx.
  assert (Hk : exists i, index_of k plain 0 = Some i).
  { destruct (index_of k plain 0) as [i|] eqn:Ei; [eauto|]. apply index_of_None in Ei. exfalso. destruct outs as [|out outs]; [elim Hne; reflexivity|].
    destruct (Hint (as_row plain out) (or_introl eq_refl)) as (z & Hz). assert (Hd := proj1 (Hrow out (or_introl eq_refl))). unfold rget, dget_or in Hz.
    destruct (dget (as_row plain out) k) as [v|] eqn:Ev; [|discriminate]. apply Ei. rewrite <- Hd. exact (dget_Some_key Ev). }
  destruct Hk as (i & Hi). rewrite Hi in Hmx. cbn [maxed] in Hmx. destruct Hmx as (vs & Hvs & Hmx). apply index_of_Some in Hi. destruct Hi as (j & -> & Hj). cbn in Hvs.
  apply mapM_Ok in Hvs.
  assert (Hz : exists zs, vs = map VInt zs /\ Forall2 (fun out z => rget (as_row plain out) k = VInt z) outs zs).
  { clear - Hvs Hj Hrow Hint Hndp. revert Hrow Hint. induction Hvs as [|out v outs vs Hv HF IH]; intros Hrow Hint; [exists []; split; [reflexivity|constructor]|].
    destruct IH as (zs & -> & HF2); [intros out' Ho; apply Hrow; now right|intros row Hr; apply Hint; now right|].
    destruct (Hint (as_row plain out) (or_introl eq_refl)) as (z & Hz). apply item_nth in Hv. assert (Hv2 := proj2 (Hrow out (or_introl eq_refl)) _ _ (nth_value Hndp Hj Hv)).
    exists (z :: zs). split; [cbn; congruence|]. constructor; assumption. }
  destruct Hz as (zs & -> & HF). destruct zs as [|z0 zs]; [elim Hne; inversion HF as [Eo|]; reflexivity|]. cbn [map forM next_max bind] in Hmx.
  destruct (max_ints Hmx) as (z & -> & Hz & Hle & Hmax).
  assert (Hmem : forall y, In y (z0 :: zs) <-> exists row, In row (map (as_row plain) outs) /\ rget row k = VInt y).
  { intros y. split.
    - intros Hy. destruct (Forall2_In_r HF Hy) as (out & Ho & Hr). exists (as_row plain out). split; [apply in_map; exact Ho|exact Hr].
    - intros (row & Hr & Hy). apply in_map_iff in Hr. destruct Hr as (out & <- & Ho). destruct (Forall2_In_l HF Ho) as (y' & Hy' & E1). congruence. }
  exists z. split.
  - split.
    + apply Hmem. destruct Hz as [->|Hz]; [now left|now right].
    + intros row y Hr Hy. assert (Hy' : In y (z0 :: zs)) by (apply Hmem; eauto). destruct Hy' as [<-|Hy']; [exact Hle|exact (Hmax y Hy')].
  - assert (Hsent : send (en_dflt E) (en_accepts E) OxDbError (EvSetval n' z) w2 = (w', Ok tt) -> tail = [EvSetval n' z]).
    { intros Hx. apply send_inv in Hx. destruct Hx as [(_ & _ & Hx)|(Hx & _)]; [|discriminate]. { rewrite Hx in Htail2; apply app_inv_head in Htail2; now symmetry. } }
    assert (Hone : setvals [EvSetval n' z] n' = [z]) by (cbn; destruct (eq_dec n' n'); [reflexivity|congruence]).
    destruct (en_currval E n') as [v|] eqn:Ecv.
    + destruct (Z.ltb z v) eqn:El.
      * unfold bind_io, reading in Hup'. destruct (serial_table (ds_tables (w_dest w2)) n') as [sm|] eqn:Est.
        2:{ exfalso. apply send_inv in Hup'. destruct Hup' as [(_ & Hx & _)|(Hx & _)]; [|discriminate]. apply exec_setval in Hx. destruct Hx as (m & Hm & _). congruence. }
        right. rewrite (Hsend (eq_sym Hup')). split; [reflexivity|]. exists v. split; [reflexivity|]. apply Z.ltb_lt. exact El.
      * left. rewrite (Hsent Hup'). split; [exact Hone|]. intros v' Ev'. injection Ev' as <-. apply Z.ltb_ge. exact El.
    + left. rewrite (Hsent Hup'). split; [exact Hone|discriminate].
Qed.

Lemma events_other cf order tr n' : Forall (fun e => exists t, In t order /\ event_ok (cf t) t e) tr -> (forall t, In t order -> ~ to t n') -> batches tr n' = [] /\ setvals tr n' = [].
Proof.
  induction 1 as [|e tr (t & Ht & He) _ IH]; intros Hno; [split; reflexivity|]. destruct (IH Hno) as [A B]. unfold batches, setvals in *. cbn [flat_map]. rewrite A, B.
  destruct e; cbn in He; try (split; reflexivity).
  - destruct He as [He _]. destruct (eq_dec n n') as [->|]; [elim (Hno t Ht He)|split; reflexivity].
  - destruct He as [He _]. destruct (eq_dec n n') as [->|]; [elim (Hno t Ht He)|split; reflexivity].
Qed.

Lemma copy_results_events : forall order g w w' r, incl order (dkeys (p_queries p)) -> NoDup order ->
  (forall a b n', In a order -> In b order -> to a n' -> to b n' -> a = b) ->
  copy_results E cfg (OutDatabase c o) p ms compact st mults order g w = (w', r) ->
  exists tr cf, trace w' = trace w ++ tr /\ Forall (fun e => exists t, In t order /\ event_ok (cf t) t e) tr /\
    (succeeded r = true -> forall t n', In t order -> to t n' -> seq_ok n' (written tr n') (setvals tr n')).
Proof.
  unfold copy_results. induction order as [|t order IH]; intros g w w' r Hincl Hnd Hinj H; cbn [for_io] in H.
  - injection H as <- <-. exists [], (fun _ => []). rewrite app_nil_r. split; [reflexivity|]. split; [constructor|intros _ t n' []].
  - apply bind_io_inv in H. destruct H as [(w1 & g1 & H1 & H)|(e & H1 & ->)].
    + destruct (copy_one_events (Hincl t (or_introl eq_refl)) H1) as (tr1 & cols1 & Ht1 & He1 & Hs1). destruct (Hs1 eq_refl) as (n1 & Hto1 & Hseq).
      inversion Hnd as [|? ? Hni Hnd']; subst. destruct (IH _ _ _ _ (fun x Hx => Hincl x (or_intror Hx)) Hnd' (fun a b n' Ha Hb => Hinj a b n' (or_intror Ha) (or_intror Hb)) H) as (tr2 & cf2 & Ht2 & He2 & Hs2).
      set (cf := fun x => if eq_dec x t then cols1 else cf2 x).
      assert (Ecf : cf t = cols1) by (unfold cf; destruct (eq_dec t t); congruence).
      assert (He2' : Forall (fun e => exists x, In x order /\ event_ok (cf x) x e) tr2).
      { eapply Forall_impl; [|exact He2]. cbn beta. intros e (x & Hx & He). exists x. split; [exact Hx|]. unfold cf. destruct (eq_dec x t) as [Ex|_]; [|exact He].
        subst x. contradiction. }
      exists (tr1 ++ tr2), cf. split; [rewrite Ht2, Ht1, app_assoc; reflexivity|]. split.
      * apply Forall_app. split; [eapply Forall_impl; [|exact He1]; cbn beta; intros e He; exists t; split; [now left|rewrite Ecf; exact He]|].
        eapply Forall_impl; [|exact He2']. cbn beta. intros e (t' & Ht' & He). exists t'. split; [now right|exact He].
      * intros Hs t' n' [<-|Ht'] Hto.
        -- destruct (events_other (n' := n') He2) as [B S]. { intros t' Ht' F. apply Hni. rewrite (Hinj t t' n' (or_introl eq_refl) (or_intror Ht') Hto F). exact Ht'. }
           rewrite written_app, setvals_app, S, app_nil_r. unfold written at 2. rewrite B. cbn [concat]. rewrite app_nil_r. rewrite (lands_fun Hto Hto1). exact Hseq.
        -- assert (He1' : Forall (fun e => exists t0, In t0 [t] /\ event_ok (cf t0) t0 e) tr1) by (eapply Forall_impl; [|exact He1]; cbn beta; intros e He; exists t; split; [now left|rewrite Ecf; exact He]).
           destruct (events_other (n' := n') He1') as [B S]. { intros t0 [<-|[]] F. apply Hni. rewrite (Hinj t t' n' (or_introl eq_refl) (or_intror Ht') F Hto). exact Ht'. }
           rewrite written_app, setvals_app, S. unfold written at 1. rewrite B. exact (Hs2 Hs t' n' Ht' Hto).
    + destruct (copy_one_events (Hincl t (or_introl eq_refl)) H1) as (tr1 & cols1 & Ht1 & He1 & _). exists tr1, (fun _ => cols1). split; [exact Ht1|]. split; [|discriminate].
      eapply Forall_impl; [|exact He1]. cbn beta. intros e' He. exists t. split; [now left|exact He].
Qed.
End Events.

Lemma remove_keys pk : forall s s', forM remove_key pk s = Ok s' -> incl pk s.
Proof.
  induction pk as [|k pk IH]; intros s s' H; [intros x []|]. cbn [forM] in H. apply bind_Ok in H. destruct H as (s1 & H1 & H). unfold remove_key in H1.
  destruct (memb k s) eqn:Em; [|discriminate]. injection H1 as <-. apply (proj1 (memb_true _ _)) in Em. intros x [<-|Hx]; [exact Em|]. apply (IH _ _ H) in Hx. unfold set_remove in Hx. apply filter_In in Hx. apply Hx.
Qed.
Lemma conflict_keys dl cs t cols how : conflict_insert dl cs t cols = Ok how -> incl (tb_pk t) cols.
Proof.
  unfold conflict_insert. intros H. apply bind_Ok in H. destruct H as ([cs' non_pk] & H & _). destruct (tb_pk t) as [|k pk] eqn:Ep; [intros x []|]. cbn [is_nil] in H.
  apply bind_Ok in H. destruct H as (s & H & _). intros x Hx. apply (proj1 (set_of_In _ _)). exact (remove_keys H Hx).
Qed.

Section RunEvents.
Context {G : Type}.
Variable E : env G.
Variable cfg : sampler_config.
Variable p : plan.
Notation queries := (dkeys (p_queries p)).
Variable c : db_config.
Variable w : world.
Notation to := (lands (en_resub E) (oc_remap c)).
Hypothesis Hok : run_ok E cfg c p (w_dest w).
Hypothesis Hnil : trace w = [].

Definition insert_ok (cf : string -> list string) (db : list table) (e : event) : Prop :=
  match e with
  | EvInsert n how rows => exists t tb, In t queries /\ to t n /\ table_of db n tb /\ conflict_insert (oc_dialect c) (strategy_of c p t) tb (cf t) = Ok how /\
      NoDup (cf t) /\ incl (cf t) (tb_cols tb) /\ forall row, In row rows -> dkeys row = cf t
  | EvSetval n z => exists t tb, In t queries /\ to t n /\ table_of db n tb
  | _ => True
  end.
Theorem run_events truncate create g w' r : sample E cfg p truncate create g w = (w', r) ->
  (exists cf, Forall (insert_ok cf (ds_tables (w_dest w'))) (trace w')) /\
  (succeeded r = true -> forall t n', In t queries -> to t n' -> (exists tb, table_of (ds_tables (w_dest w')) n' tb) -> seq_ok E c n' (written (trace w') n') (setvals (trace w') n')).
Proof.
  intros Hs.   assert (Hdel : forall cf l db, Forall (insert_ok cf db) (map EvDelete l)) by (intros cf l db; apply Forall_map; apply Forall_forall; intros x _; exact I).
  destruct (phases Hok Hs) as [[(e & ->) ->]|(ms & mults & ts & o1 & w1 & tc & (Hms & _ & _ & o & Hini) & _ & Htk & _ & Htc & Ht1 & Htb1 & _ & _ & H)].
  { rewrite Hnil. split; [exists (fun _ => []); constructor|discriminate]. }
  rewrite Hnil in Ht1. cbn in Ht1.
  assert (Hcr : forall cf db, Forall (insert_ok cf db) tc) by (intros cf db; destruct Htc as [[-> _]| ->]; repeat constructor).
  destruct H as [[(e & ->) ->]|(order & Hord & H)]; [rewrite Ht1; split; [exists (fun _ => []); apply Hcr|discriminate]|].
  destruct H as [[(e & ->) ->]|(del & l1 & l2 & w2 & -> & _ & Ht2 & Hr2 & H)]; [rewrite Ht1; split; [exists (fun _ => []); apply Hcr|discriminate]|].
  destruct H as [[(e & ->) ->]|(_ & o2 & compact & st & l & g' & tw & Hprep & Hcb & Hcopy & Htw & _)]; [rewrite Ht2, Ht1; split; [exists (fun _ => []); apply Forall_app; split; [apply Hcr|apply Hdel]|discriminate]|].
  assert (Hmeta2 : ou_meta o2 = ou_meta o1).
  { unfold db_prepare in Hprep. destruct (negb (oc_merge c)); [injection Hprep as <-; reflexivity|]. apply bind_Ok in Hprep. destruct Hprep as ([a b] & _ & Hprep).
    apply bind_Ok in Hprep. destruct Hprep as (x & _ & Hprep). injection Hprep as <-. reflexivity. }
  destruct (order_spec (ro_order Hok) Htk Hord) as (Hnd & Hin & _ & Hinj). destruct Hcb as (Hms' & Hcb').
  assert (Hat : forall t n', at_dest (en_resub E) c queries o1 t n' -> In t queries /\ to t n') by (intros t n' (A & _ & B); split; [exact A|exact B]).
  assert (Hd2 : ds_tables (w_dest w2) = ds_tables (w_dest w) ++ ts).
  { rewrite (replay_tables Hr2); [exact Htb1|]. intros ts' Hi. apply in_map_iff in Hi. destruct Hi as (n & F & _). discriminate. }
  destruct (copy_extends Hcopy) as (tw' & Htw' & Htwr). rewrite Htw in Htw'. apply app_inv_head in Htw'. subst tw'.
  assert (Hev := Hcopy). apply copy_results_events in Hev;
    [|intros t co Hr; exact (ro_columns Hok _ _ _ _ _ _ (conj Hms Hcb') Hr)|rewrite Hmeta2; exact (tk_meta Htk)|intros t Ht; apply Hin in Ht; destruct Ht as (n' & Ht); exact (proj1 (Hat _ _ Ht))|exact Hnd|].
  2:{ intros a b n' Ha Hb La Lb. apply Hin in Ha, Hb. destruct Ha as (na & Ha), Hb as (nb & Hb). assert (na = n') by exact (lands_fun (proj2 (Hat _ _ Ha)) La). assert (nb = n') by exact (lands_fun (proj2 (Hat _ _ Hb)) Lb). subst. exact (Hinj _ _ _ Ha Hb). }
  destruct Hev as (tr & cf & Htr & Hev & Hseq). rewrite Htw in Htr. apply app_inv_head in Htr. subst tr.
  assert (Hd3 : ds_tables (w_dest w') = ds_tables (w_dest w) ++ ts).
  { rewrite (replay_tables Htwr); [exact Hd2|]. intros ts' Hi. rewrite Forall_forall in Hev. destruct (Hev _ Hi) as (t & _ & F). exact F. }
  rewrite Hd3, Htw, Ht2, Ht1. split.
  - exists cf. apply Forall_app. split; [apply Forall_app; split; [apply Hcr|apply Hdel]|]. eapply Forall_impl; [|exact Hev]. cbn beta. intros e (t & Ht & He). apply Hin in Ht. destruct Ht as (na & Ha).
    destruct e; cbn in He |- *; try exact I.
    2:{ destruct He as [Hto Hk]. rewrite Hmeta2 in Hk. apply key_dget in Hk. destruct Hk as (tm & Htm). exists t, (tm_table tm). split; [exact (proj1 (Hat _ _ Ha))|]. split; [exact Hto|exact (proj1 (tk_tables Htk (dget_In Htm)))]. }
    destruct He as (Hto & tm & Htm & Hci & A & B & C). rewrite Hmeta2 in Htm.
    exists t, (tm_table tm). split; [exact (proj1 (Hat _ _ Ha))|]. split; [exact Hto|]. split; [exact (proj1 (tk_tables Htk (dget_In Htm)))|]. auto.
  - intros Hsu t n' Ht Hto (tb & Htb). assert (Hto' : In t order).
    { apply Hin. exists n'. split; [exact Ht|]. split; [|exact Hto]. apply (tk_keys Htk). exists n'. destruct Hto as (n & Hn & Hg). split; [exists t, n; auto|]. split; [eauto|apply rt_refl]. }
    assert (Hnone : batches (tc ++ map EvDelete l1) n' = [] /\ setvals (tc ++ map EvDelete l1) n' = []).
    { rewrite batches_app, setvals_app, deletes_batches. assert (Hsd : setvals (map EvDelete l1) n' = []) by (clear; induction l1; [reflexivity|assumption]). rewrite Hsd. destruct Htc as [[-> _]| ->]; split; reflexivity. }
    rewrite written_app, setvals_app, (proj2 Hnone). unfold written at 1. rewrite (proj1 Hnone). exact (Hseq Hsu t n' Hto' Hto).
Qed.

(** Every row written to a table has a value for each column of its primary key. *)
Theorem keys_given truncate create g w' r n tb row : sample E cfg p truncate create g w = (w', r) -> table_of (ds_tables (w_dest w')) n tb ->
  In row (written (trace w') n) -> forall k, In k (tb_pk tb) -> In k (dkeys row).
Proof.
  intros Hs Htb Hrow k Hk. destruct (run_events Hs) as [(cf & Hev) _]. unfold written, batches in Hrow. apply in_concat in Hrow. destruct Hrow as (b & Hb & Hrow).
  apply in_flat_map in Hb. destruct Hb as (e & He & Hb). destruct e as [|n0|n0 how rows| | |]; try (elim Hb). destruct (eq_dec n0 n) as [->|]; [|elim Hb]. destruct Hb as [->|[]].
  rewrite Forall_forall in Hev. destruct (Hev _ He) as (t & tb' & _ & _ & Htb' & Hci & _ & _ & Hc). rewrite (Hc row Hrow).
  assert (Hnd : NoDup (map tb_name (ds_tables (w_dest w')))).
  { destruct (run_trace Hok Hnil Hs) as (ts & dn & tw & d1 & d2 & o1 & Htr & _ & Hdb & _ & Hts & Hpre & Hrest). rewrite Hdb, map_app. apply NoDup_app_iff.
    split; [exact (proj1 (ro_dest Hok))|]. split.
    - destruct Hpre as (ms & mults & _ & _ & _ & _ & (A & _)); [|exact A]. left. intros F. rewrite F in He. elim He.
    - intros n1 H1 H2. apply in_map_iff in H1, H2. destruct H1 as (t1 & E1 & H1), H2 as (t2 & E2 & H2). destruct (Hts t2 H2) as (_ & _ & Hno). apply Hno. exists t1. split; [exact H1|congruence]. }
  rewrite (table_of_fun Hnd Htb Htb') in Hk. exact (conflict_keys Hci Hk).
Qed.

(** Sequences *)
Lemma last_default {A} (l : list A) a b : l <> [] -> last l a = last l b.
Proof. induction l as [|x l IH]; intros H; [congruence|]. destruct l as [|y l]; [reflexivity|]. apply (IH ltac:(discriminate)). Qed.
Lemma fold_plain s : all_letters plain_letter s -> fold_name s = s.
Proof.
  induction s as [|a s IH]; [reflexivity|]. intros [(Hc & _) Hs]. cbn [fold_name]. rewrite (IH Hs). f_equal. unfold fold_letter.
  destruct (N.leb 65 (Ascii.N_of_ascii a) && N.leb (Ascii.N_of_ascii a) 90)%bool eqn:H; [|reflexivity].
  apply andb_true_iff in H. destruct H as [H1 H2]. apply N.leb_le in H1, H2. elim Hc. auto.
Qed.
Lemma unquoted_plain s : all_letters plain_letter s -> unquoted_name s = true.
Proof.
  induction s as [|a s IH]; [reflexivity|]. intros [(_ & H1 & H2 & H3 & H4) Hs]. cbn [unquoted_name]. rewrite (IH Hs), andb_true_r. unfold unquoted.
  rewrite (proj2 (N.eqb_neq _ _) H2), (proj2 (N.eqb_neq _ _) H3), (proj2 (N.eqb_neq _ _) H4), !orb_false_r. apply negb_true_iff.
  destruct (N.leb 9 (Ascii.N_of_ascii a) && N.leb (Ascii.N_of_ascii a) 13)%bool eqn:H; [|reflexivity].
  apply andb_true_iff in H. destruct H as [A B]. apply N.leb_le in A, B. elim H1. auto.
Qed.
Lemma serial_plain ts n m : plain_name n -> serial_table ts n = Some m -> m = n.
Proof.
  intros [H1 H2] H. unfold serial_table in H. destruct (_ && _)%bool; [|discriminate]. rewrite (fold_plain H1), (fold_plain H2), <- surjective_pairing in H.
  destruct (find_table ts n) as [t|] eqn:Hf; [|discriminate]. injection H as <-. apply find_some in Hf. apply (proj1 (eqb_true _ _)). apply Hf.
Qed.
Lemma serial_found ts n t : plain_name n -> table_of ts n t -> serial_table ts n = Some n.
Proof.
  intros [H1 H2] [Ht Hn]. unfold serial_table. rewrite (unquoted_plain H1), (unquoted_plain H2), (fold_plain H1), (fold_plain H2), <- surjective_pairing. cbn [andb].
  destruct (find_table ts n) as [t'|] eqn:Hf; [apply find_some in Hf; f_equal; apply (proj1 (eqb_true _ _)); apply Hf|].
  pose proof (find_none _ _ Hf _ Ht) as Hx. cbn beta in Hx. rewrite Hn, (proj2 (eqb_true _ _) eq_refl) in Hx. discriminate.
Qed.
Lemma replay_seq dflt tr : forall d d', replay dflt d tr d' -> (forall m z, In (EvSetval m z) tr -> plain_name m) -> forall n, dget (ds_seq d') n = match dget (ds_seq d) n with None => None | Some s => Some (last (setvals tr n) s) end.
Proof.
  induction tr as [|e tr IH]; intros d d' H Hpl n; inversion H as [|? ? d1 ? ? Hx Hr]; subst; [destruct (dget (ds_seq d') n); reflexivity|].
  rewrite (IH _ _ Hr (fun m z Hi => Hpl m z (or_intror Hi)) n). destruct e as [ts|n0|n0 how rows|n0 z|pa|pa r0]; cbn [exec] in Hx.
  - injection Hx as <-. reflexivity.
  - injection Hx as <-. reflexivity.
  - destruct (find_table (ds_tables d) n0) as [t|]; [|discriminate]. destruct (insert_rows dflt t how (rows_of d n0) rows) as [l|]; [|discriminate]. injection Hx as <-. reflexivity.
  - apply (@exec_setval dflt) in Hx. destruct Hx as (m & Hm & ->). apply (serial_plain (Hpl n0 z (or_introl eq_refl))) in Hm. subst m. unfold set_seq, setvals. cbn [flat_map]. fold (setvals tr n). destruct (dmem (ds_seq d) n0) eqn:Em.
    + cbn [ds_seq]. destruct (eq_dec n0 n) as [->|Hne].
      * rewrite dget_dset_eq. apply dmem_true in Em. apply key_dget in Em. destruct Em as (s & ->). cbn [app]. f_equal. destruct (setvals tr n) as [|z1 l] eqn:Es; [reflexivity|]. change (last (z :: z1 :: l) s) with (last (z1 :: l) s). apply last_default. discriminate.
      * rewrite dget_dset_ne by congruence. reflexivity.
    + destruct (eq_dec n0 n) as [->|Hne]; [|reflexivity]. apply dmem_false in Em. rewrite (proj2 (dget_None _ _) Em). reflexivity.
  - injection Hx as <-. reflexivity.
  - injection Hx as <-. reflexivity.
Qed.
Lemma run_replay truncate create g w' r : sample E cfg p truncate create g w = (w', r) -> replay (en_dflt E) (w_dest w) (trace w') (w_dest w').
Proof. intros Hs. assert (Hx := sample_extends Hs). rewrite Hnil in Hx. cbn in Hx. destruct Hx as (tr & Htr & Hrep). now rewrite Htr. Qed.

(** The tables whose sequences are set have plain names. *)
Definition plain_serials : Prop := forall t m, In t queries -> to t m -> en_autoinc E m <> None -> plain_name m.
Lemma setvals_plain truncate create g w' g' : plain_serials -> sample E cfg p truncate create g w = (w', Ok g') -> forall m z, In (EvSetval m z) (trace w') -> plain_name m.
Proof.
  intros Hpl Hs m z Hin. destruct (run_events Hs) as [(cf & Hev) Hso]. rewrite Forall_forall in Hev. destruct (Hev _ Hin) as (t & tb & Ht & Hto & Htb).
  apply (Hpl t m Ht Hto). intros Hn. destruct (Hso eq_refl t m Ht Hto (ex_intro _ tb Htb)) as [Hnone _]. specialize (Hnone (or_intror (or_intror Hn))).
  assert (Hz : In z (setvals (trace w') m)) by (unfold setvals; apply in_flat_map; exists (EvSetval m z); split; [exact Hin|destruct (eq_dec m m); [now left|congruence]]).
  rewrite Hnone in Hz. exact Hz.
Qed.
Definition written_ints (w' : world) (n' : tname) (k : string) : Prop := forall row, In row (written (trace w') n') -> exists z, rget row k = VInt z.
Theorem sequence_set truncate create g w' g' t n' k s0 : plain_serials -> sample E cfg p truncate create g w = (w', Ok g') -> oc_dialect c = PostgreSQL ->
  In t queries -> to t n' -> (exists tb, table_of (ds_tables (w_dest w')) n' tb) -> en_autoinc E n' = Some k -> written_ints w' n' k ->
  dget (ds_seq (w_dest w)) n' = Some s0 ->
  exists s, dget (ds_seq (w_dest w')) n' = Some s /\
    (written (trace w') n' = [] /\ s = s0 \/
     exists z, largest (written (trace w') n') k z /\ (s = z /\ (forall v, en_currval E n' = Some v -> (v <= z)%Z) \/ s = s0 /\ exists v, en_currval E n' = Some v /\ (z < v)%Z)).
Proof.
  intros Hpl Hs Hpg Ht Hto Htb Hai Hint Hseq. assert (Hrs := replay_seq (run_replay Hs) (setvals_plain Hpl Hs) n'). rewrite Hseq in Hrs. eexists. split; [exact Hrs|].
  destruct (run_events Hs) as [_ Hso]. destruct (Hso eq_refl t n' Ht Hto Htb) as [Hnone Hsome].
  destruct (written (trace w') n') as [|row rows] eqn:Ew.
  - left. split; [reflexivity|]. rewrite Hnone by (now left). reflexivity.
  - destruct (Hsome k Hpg Hai) as (z & Hz & Hor); [discriminate|unfold written_ints in Hint; rewrite Ew in Hint; exact Hint|].
    right. exists z. split; [exact Hz|]. destruct Hor as [[-> Hv]|[-> Hv]]; [left; split; [reflexivity|exact Hv]|right; split; [reflexivity|exact Hv]].
Qed.
(** No other statement changes a sequence. *)
Theorem sequence_kept truncate create g w' g' n : plain_serials -> sample E cfg p truncate create g w = (w', Ok g') ->
  (forall t, In t queries -> to t n -> (exists tb, table_of (ds_tables (w_dest w')) n tb) -> written (trace w') n = [] \/ oc_dialect c <> PostgreSQL \/ en_autoinc E n = None) ->
  dget (ds_seq (w_dest w')) n = dget (ds_seq (w_dest w)) n.
Proof.
  intros Hpl Hs Hno. rewrite (replay_seq (run_replay Hs) (setvals_plain Hpl Hs) n). destruct (dget (ds_seq (w_dest w)) n) as [s0|]; [|reflexivity].
  destruct (run_events Hs) as [(cf & Hev) Hso]. assert (Hsv : setvals (trace w') n = []); [|rewrite Hsv; reflexivity].
  destruct (setvals (trace w') n) as [|z zs] eqn:Es; [reflexivity|]. exfalso.
  assert (Hin : In (EvSetval n z) (trace w')).
  { assert (Hz : In z (setvals (trace w') n)) by (rewrite Es; now left). unfold setvals in Hz. apply in_flat_map in Hz. destruct Hz as (e & He & Hz). destruct e; try (elim Hz). destruct (eq_dec n0 n) as [->|]; [|elim Hz]. destruct Hz as [->|[]]. exact He. }
  rewrite Forall_forall in Hev. destruct (Hev _ Hin) as (t & tb & Ht & Hto & Htb).
  destruct (Hso eq_refl t n Ht Hto (ex_intro _ tb Htb)) as [Hnone _]. rewrite Es in Hnone. discriminate (Hnone (Hno t Ht Hto (ex_intro _ tb Htb))).
Qed.
End RunEvents.

