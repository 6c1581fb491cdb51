(** The loop of DatabaseOutput.output_result_set: batches, prefixes, sequences. *)
From Coq Require Import Lia.
From Verif Require Import Model.Base Model.Value Model.Names Model.Metadata Model.Filters Model.Dest Model.Output.
From Verif Require Import Spec.GraphSpec Spec.SchemaSpec Spec.FilterSpec Spec.OutputSpec.
From Verif Require Import Proofs.BaseFacts Proofs.NameFacts Proofs.FilterFacts Proofs.OutputRows.
Set Implicit Arguments. Unset Strict Implicit.
Open Scope list_scope.

Lemma copies_app {G} (filt : list value -> G -> res filter_exn (list value * G)) copy l1 g o1 g1 :
  copies filt copy l1 g o1 g1 -> forall l2 o2 g2, copies filt copy l2 g1 o2 g2 -> copies filt copy (l1 ++ l2) g (o1 ++ o2) g2.
Proof. induction 1; intros; cbn [app]; [assumption|]. econstructor; eauto. Qed.

Section Run.
Context {G : Type}.
Variable F : filter_env G.
Variable dflt : tname -> string -> list row -> row -> value.
Variable accepts : dest -> event -> bool.
Variable size : nat.
Variable cfg : db_config.

Definition as_row (cols : list string) (r : list value) : row := dict_of (combine cols r).
Definition sent (cs : strategy) (t : table) (cols : list string) (b : list (list value)) : event :=
  EvInsert (tb_name t) (match conflict_insert (oc_dialect cfg) cs t cols with Ok h => h | Err _ => Fail end) (map (as_row cols) b).

Lemma flush_inv cs t cols b w w' r : flush dflt accepts cfg cs t cols b w = (w', r) ->
  (r = Ok tt /\ trace w' = trace w ++ [sent cs t cols b] /\ (exists h, conflict_insert (oc_dialect cfg) cs t cols = Ok h)) \/
  ((exists e, r = Err e) /\ w' = w).
Proof.
  unfold flush, sent. intros H. apply bind_io_inv in H. destruct H as [(w1 & h & H1 & H2)|(e & H1 & He)].
  - inv H1. apply send_inv in H2. destruct H2 as [(Hr & _ & Ht)|(Hr & Hw)]; [left|right; eauto].
    split; [exact Hr|]. split; [|eauto]. match goal with Hc : conflict_insert _ _ _ _ = _ |- _ => rewrite Hc end. exact Ht.
  - right. inv H1. eauto.
Qed.

Section Loop.
Variables (cs : strategy) (t : table) (chain : list view) (cols : list string) (mi : list nat) (m : Z) (oi : list (nat * Z)) (ai : option nat).
Variable filt : list value -> G -> res filter_exn (list value * G).
Variable copy : Z -> list value -> list value -> Prop.

(** [autoinc_max_written] after the rows [outs] *)
Definition maxed (ai : option nat) (outs : list (list value)) (m0 m1 : value) : Prop :=
  match ai with
  | None => m1 = m0
  | Some i => exists vs, mapM (fun o => item o i) outs = Ok vs /\ forM next_max vs m0 = Ok m1
  end.

Lemma maxed_cons out outs m0 m1 m2 : maxed ai [out] m0 m1 -> maxed ai outs m1 m2 -> maxed ai (out :: outs) m0 m2.
Proof.
  unfold maxed. destruct ai as [i|]; [|congruence]. intros (vs & Hv & Hm) (vs' & Hv' & Hm'). cbn [mapM] in Hv.
  apply bind_Ok in Hv. destruct Hv as (v & Hv & He). inv He. exists (v :: vs').
  cbn [mapM]. rewrite Hv. cbn [bind]. rewrite Hv'. split; [reflexivity|]. cbn [forM] in Hm |- *. apply bind_Ok in Hm.
  destruct Hm as (x & Hx & He). inv He. rewrite Hx. exact Hm'.
Qed.

Lemma loop_spec : forall l s w w' r,
  (forall x i g out g', In (x, i) l -> output_row F chain mi m oi x i g = Ok (out, g') -> exists f, filt x g = Ok (f, g') /\ copy i f out) ->
  length (lp_buffer s) <= size ->
  for_io (loop_body F dflt accepts size cfg cs t chain cols mi m oi ai) l s w = (w', r) ->
  exists l1 l2 outs g1 bs rest, l = l1 ++ l2 /\ copies filt copy l1 (lp_g s) outs g1 /\
    lp_buffer s ++ outs = concat bs ++ rest /\ Forall (fun b => length b = S size) bs /\
    trace w' = trace w ++ map (sent cs t cols) bs /\ (bs <> [] -> exists h, conflict_insert (oc_dialect cfg) cs t cols = Ok h) /\
    (forall s', r = Ok s' -> l2 = [] /\ lp_buffer s' = rest /\ lp_g s' = g1 /\ length rest <= size /\ maxed ai outs (lp_max s) (lp_max s')).
Proof.
  induction l as [|[x i] l IH]; intros s w w' r Hrow Hb H; cbn [for_io] in H.
  - inv H. exists [], [], [], (lp_g s), [], (lp_buffer s). split; [reflexivity|]. split; [constructor|]. split; [now rewrite app_nil_r|].
    split; [constructor|]. split; [cbn; now rewrite app_nil_r|]. split; [congruence|]. intros s' He. inv He.
    split; [reflexivity|]. split; [reflexivity|]. split; [reflexivity|]. split; [exact Hb|].
    unfold maxed. destruct ai; [|reflexivity]. exists []. split; reflexivity.
  - (* nothing more happens when the body raises *)
    assert (Hstop : forall e, r = Err e -> w' = w -> exists l1 l2 outs g1 bs rest, (x, i) :: l = l1 ++ l2 /\ copies filt copy l1 (lp_g s) outs g1 /\
      lp_buffer s ++ outs = concat bs ++ rest /\ Forall (fun b => length b = S size) bs /\ trace w' = trace w ++ map (sent cs t cols) bs /\ (bs <> [] -> exists h, conflict_insert (oc_dialect cfg) cs t cols = Ok h) /\
      (forall s', r = Ok s' -> l2 = [] /\ lp_buffer s' = rest /\ lp_g s' = g1 /\ length rest <= size /\ maxed ai outs (lp_max s) (lp_max s'))).
    { intros e -> ->. exists [], ((x, i) :: l), [], (lp_g s), [], (lp_buffer s). split; [reflexivity|]. split; [constructor|].
      split; [now rewrite app_nil_r|]. split; [constructor|]. split; [cbn; now rewrite app_nil_r|]. split; [congruence|]. discriminate. }
    apply bind_io_inv in H. unfold loop_body in H at 1.
    destruct H as [(w1 & s1 & H1 & H2)|(e & H1 & He)].
    2:{ unfold loop_body in H1. apply bind_io_inv in H1. destruct H1 as [(w2 & [out g1] & Ho & H1)|(e' & Ho & _)]; [|inv Ho; eapply Hstop; reflexivity].
        inv Ho. apply bind_io_inv in H1. destruct H1 as [(w3 & mx & Hm & H1)|(e' & Hm & _)].
        2:{ assert (w' = w2); [|subst; eapply Hstop; reflexivity]. destruct ai as [k|]; [|inv Hm].
            apply bind_io_inv in Hm. destruct Hm as [(w4 & v & Hv & Hm)|(e2 & Hv & _)]; [inv Hv; inv Hm; reflexivity|inv Hv; reflexivity]. }
        assert (w3 = w2). { destruct ai as [k|]; [|inv Hm; reflexivity].
            apply bind_io_inv in Hm. destruct Hm as [(w4 & v & Hv & Hm)|(e2 & Hv & Hx)]; [inv Hv; inv Hm; reflexivity|discriminate]. }
        subst w3. destruct (Nat.ltb size (length (lp_buffer s ++ [out]))) eqn:Hlt; [|inv H1].
        apply bind_io_inv in H1. destruct H1 as [(w4 & [] & Hf & H1)|(e' & Hf & _)]; [inv H1|].
        apply flush_inv in Hf. destruct Hf as [(Hf & _)|(_ & Hw)]; [discriminate|]. subst. eapply Hstop; reflexivity. }
    unfold loop_body in H1. apply bind_io_inv in H1. destruct H1 as [(w2 & [out g1] & Ho & H1)|(e' & _ & Hx)]; [|discriminate].
    apply lift_inv in Ho. destruct Ho as [-> Hout].
    apply bind_io_inv in H1. destruct H1 as [(w3 & mx & Hm & H1)|(e' & _ & Hx)]; [|discriminate].
    assert (Hm3 : w3 = w /\ maxed ai [out] (lp_max s) mx).
    { unfold maxed. destruct ai as [k|]; [|inv Hm; tauto].
      apply bind_io_inv in Hm. destruct Hm as [(w4 & v & Hv & Hm)|(e2 & Hv & Hx)]; [|discriminate].
      apply lift_inv in Hv. destruct Hv as [-> Hv]. apply lift_inv in Hm. destruct Hm as [-> Hm]. split; [reflexivity|].
      exists [v]. cbn [mapM forM]. rewrite Hv. cbn [bind]. split; [reflexivity|]. now rewrite Hm. }
    destruct Hm3 as [-> Hmx].
    cbn [fst snd] in Hout.
    destruct (Hrow x i _ _ _ (or_introl eq_refl) Hout) as (f & Hf & Hcopy).
    assert (Hrow' : forall x0 i0 g out0 g', In (x0, i0) l -> output_row F chain mi m oi x0 i0 g = Ok (out0, g') -> exists f0, filt x0 g = Ok (f0, g') /\ copy i0 f0 out0).
    { intros x0 i0 g out0 g' Hin. apply Hrow. now right. }
    destruct (Nat.ltb size (length (lp_buffer s ++ [out]))) eqn:Hlt.
    + apply bind_io_inv in H1. destruct H1 as [(w4 & [] & Hfl & H1)|(e' & _ & Hx)]; [|discriminate].
      apply flush_inv in Hfl. destruct Hfl as [(_ & Htr & Hci0)|((e' & Hx) & _)]; [|discriminate]. inv H1.
      assert (Hz : length (lp_buffer (mkLoop (G := G) [] mx g1)) <= size) by (cbn; lia).
      destruct (IH _ _ _ _ Hrow' Hz H2) as (l1 & l2 & outs & g2 & bs & rest & Hl & Hc & Hcat & Hall & Htr2 & Hci & Hok). cbn [lp_buffer lp_g lp_max app] in *.
      exists ((x, i) :: l1), l2, (out :: outs), g2, ((lp_buffer s ++ [out]) :: bs), rest. split; [now rewrite Hl|].
      split; [econstructor; eassumption|]. split; [cbn [concat]; rewrite <- app_assoc, <- Hcat, <- app_assoc; reflexivity|].
      split. { constructor; [|exact Hall]. apply Nat.ltb_lt in Hlt. rewrite app_length in Hlt |- *. cbn [length] in *. lia. }
      split; [rewrite Htr2, Htr, <- app_assoc; reflexivity|]. split; [intros _; exact Hci0|]. intros s' He. destruct (Hok s' He) as (-> & Hbuf & Hg & Hle & Hmax).
      split; [reflexivity|]. split; [exact Hbuf|]. split; [exact Hg|]. split; [exact Hle|]. eapply maxed_cons; eassumption.
    + inv H1. apply Nat.ltb_ge in Hlt.
      destruct (IH (mkLoop (lp_buffer s ++ [out]) mx g1) _ _ _ Hrow' Hlt H2) as (l1 & l2 & outs & g2 & bs & rest & Hl & Hc & Hcat & Hall & Htr2 & Hci & Hok). cbn [lp_buffer lp_g lp_max] in *.
      exists ((x, i) :: l1), l2, (out :: outs), g2, bs, rest. split; [now rewrite Hl|].
      split; [econstructor; eassumption|]. split; [rewrite <- Hcat, <- app_assoc; reflexivity|].
      split; [exact Hall|]. split; [exact Htr2|]. split; [exact Hci|]. intros s' He. destruct (Hok s' He) as (-> & Hbuf & Hg & Hle & Hmax).
      split; [reflexivity|]. split; [exact Hbuf|]. split; [exact Hg|]. split; [exact Hle|]. eapply maxed_cons; eassumption.
Qed.
End Loop.

Lemma filter_all {A} (p : A -> bool) l : (forall x, In x l -> p x = true) -> filter p l = l.
Proof.
  induction l as [|a l IH]; intros H; cbn [filter]; [reflexivity|]. rewrite (H a (or_introl eq_refl)). f_equal. apply IH.
  intros x Hx. apply H. now right.
Qed.

Lemma kept_length comp cols f : length f = length cols -> length (kept comp cols f) = length (filter (fun c => negb (comp c)) cols).
Proof.
  unfold kept. rewrite map_length. revert f. induction cols as [|c cols IH]; intros [|v f] H; cbn in H; try discriminate; [reflexivity|].
  cbn [combine filter fst]. destruct (comp c); cbn [negb length]; [apply IH; lia|f_equal; apply IH; lia].
Qed.
Lemma kept_all comp cols f : length f = length cols -> filter comp cols = [] -> kept comp cols f = f /\ filter (fun c => negb (comp c)) cols = cols.
Proof.
  intros Hl Hc.
  assert (Hn : forall c, In c cols -> negb (comp c) = true).
  { intros c Hin. destruct (comp c) eqn:E; [|reflexivity]. assert (Hx : In c (filter comp cols)) by (apply filter_In; tauto). rewrite Hc in Hx. destruct Hx. }
  split; [|now apply filter_all]. unfold kept. rewrite filter_all; [now apply combine_snd|]. intros [c v] Hin. cbn [fst]. apply Hn. now apply in_combine_l in Hin.
Qed.

Lemma chain_NoDup fs : forall cols vs out, construct_chain (fe_load_plugin F) fs cols = Ok (vs, out) -> NoDup cols -> NoDup out.
Proof.
  induction fs as [|f fs IH]; intros cols vs out H Hn; cbn [construct_chain] in H; [inv H; exact Hn|].
  apply bind_Ok in H. destruct H as (v & Hv & H). apply bind_Ok in H. destruct H as ([vs' out'] & Hvs & He). inv He.
  eapply IH; [exact Hvs|]. eapply vbuilt_NoDup; [eapply cview_built; exact Hv|exact Hn].
Qed.

Section Output.
Variable resub : string -> string -> string -> string.
Variables (computed : tname -> string -> bool) (autoinc : tname -> option string).
Variable currval : tname -> option Z.
Variable o : db_output.
Variable passthrough : list string.

Definition used_strategy (n : tname) : strategy := if oc_merge cfg && memb (render n) (set_of passthrough) then SSkip else oc_strategy cfg.
Definition plain_columns (n' : tname) (cols : list string) : list string := filter (fun c => negb (computed n' c)) cols.
Definition filtered (chain : list view) (n' : tname) (cols : list string) (r : list value) (g : G) : res filter_exn (list value * G) :=
  let* (f, g) := run_filters F chain r g in Ok (kept (computed n') cols f, g).
Definition ai_of (n' : tname) (cols : list string) : option nat :=
  match needs_updating cfg, autoinc n' with true, Some c => index_of c (plain_columns n' cols) 0 | _, _ => None end.

Theorem database_output_spec fs cols0 chain cols n rows m mult g w w' r :
  construct_chain (fe_load_plugin F) fs cols0 = Ok (chain, cols) -> NoDup cols0 -> (forall x, In x rows -> length x = length cols0) ->
  database_output F dflt accepts resub computed autoinc currval size cfg o passthrough n chain cols rows m mult g w = (w', r) ->
  ((exists e, r = Err e) /\ trace w' = trace w) \/
  exists n' tm l1 l2 outs g1 bs tail,
    remap_table resub cfg n = Ok n' /\ dget (ou_meta o) n' = Some tm /\ incl cols (tb_cols (tm_table tm)) /\
    each_copy m rows = l1 ++ l2 /\
    copies (filtered chain n' cols) (copy_of (plain_columns n' cols) mult (dget_or (ou_offsets o) n' []) m) l1 g outs g1 /\
    initial_part (concat bs) outs /\ Forall (fun b => b <> [] /\ length b <= S size) bs /\
    trace w' = trace w ++ map (sent (used_strategy n) (tm_table tm) (plain_columns n' cols)) bs ++ tail /\
    (tail = [] \/ exists z, tail = [EvSetval n' z] /\ concat bs = outs /\ l2 = []) /\
    (bs <> [] -> exists h, conflict_insert (oc_dialect cfg) (used_strategy n) (tm_table tm) (plain_columns n' cols) = Ok h) /\
    (forall g', r = Ok g' -> l2 = [] /\ concat bs = outs /\ g' = g1 /\
       exists mx w2, maxed (ai_of n' cols) outs VNull mx /\ trace w2 = trace w ++ map (sent (used_strategy n) (tm_table tm) (plain_columns n' cols)) bs /\
         autoincrement_update dflt accepts autoinc currval cfg n' mx w2 = (w', Ok tt)).
Proof.
  intros Hch Hnd Hlen H. unfold database_output in H.
  apply bind_io_inv in H. destruct H as [(w1 & n' & H1 & H)|(e & H1 & ->)]; [|left; apply lift_inv in H1; destruct H1 as [-> _]; eauto].
  apply lift_inv in H1. destruct H1 as [-> Hn'].
  apply bind_io_inv in H. destruct H as [(w1 & tm & H1 & H)|(e & H1 & ->)]; [|left; apply lift_inv in H1; destruct H1 as [-> _]; eauto].
  apply lift_inv in H1. destruct H1 as [-> Htm]. unfold find_key in Htm. apply dfind_Ok in Htm.
  destruct (subsetb cols (tb_cols (tm_table tm))) eqn:Hsub; cbn [negb] in H; [|left; apply lift_inv in H; destruct H as [-> <-]; eauto].
  assert (Hincl : incl cols (tb_cols (tm_table tm))). { intros c Hc. unfold subsetb in Hsub. rewrite forallb_forall in Hsub. apply memb_true, Hsub, Hc. }
  assert (Hndc : NoDup cols) by (eapply chain_NoDup; eassumption).
  (* the filter chain without computed columns *)
  assert (Hch' : exists chain', forall (k : list view * list string -> io out_exn G),
      bind_io (if is_nil (filter (computed n') cols) then ret (chain, cols)
               else let+ v := lift (of_filter (filter_omit cols (filter (computed n') cols))) in ret (chain ++ [VwSimple v], sv_out v)) k w
      = k (chain', plain_columns n' cols) w /\
      forall x gx f gx', In x rows -> run_filters F chain' x gx = Ok (f, gx') ->
        filtered chain n' cols x gx = Ok (f, gx') /\ length f = length (plain_columns n' cols)).
  { destruct (is_nil (filter (computed n') cols)) eqn:Hcomp.
    - assert (Hnil : filter (computed n') cols = []) by (destruct (filter (computed n') cols); [reflexivity|discriminate]).
      exists chain. intros k. split.
      + unfold ret, bind_io. f_equal. f_equal. unfold plain_columns.
        symmetry. apply filter_all. intros c Hc. destruct (computed n' c) eqn:E; [|reflexivity].
        assert (Hx : In c (filter (computed n') cols)) by (apply filter_In; tauto). rewrite Hnil in Hx. destruct Hx.
      + intros x gx f gx' Hx Hrun. unfold filtered. rewrite Hrun. cbn [bind].
        assert (Hl : length f = length cols) by (eapply chain_length; [exact Hch|exact (Hlen x Hx)|exact Hrun]).
        destruct (kept_all Hl Hnil) as [Hk Hp]. rewrite Hk. split; [reflexivity|]. unfold plain_columns. now rewrite Hp.
    - destruct (filter_omit_total cols (filter (computed n') cols)) as [v Hv]. exists (chain ++ [VwSimple v]). intros k.
      assert (Hout : sv_out v = plain_columns n' cols).
      { destruct (@omit_computed G F (computed n') cols v (repeat VNull (length cols)) g Hndc Hv) as [Ho _]; [apply repeat_length|exact Ho]. }
      split.
      + rewrite Hv. unfold bind_io, lift, ret. cbn [of_filter]. now rewrite Hout.
      + intros x gx f gx' Hx Hrun. rewrite run_filters_app in Hrun. apply bind_Ok in Hrun. destruct Hrun as ([f0 g0] & Hr0 & Hrun).
        assert (Hl : length f0 = length cols) by (eapply chain_length; [exact Hch|exact (Hlen x Hx)|exact Hr0]).
        destruct (@omit_computed G F (computed n') cols v f0 g0 Hndc Hv Hl) as [_ Hr1]. rewrite Hr1 in Hrun. inv Hrun.
        unfold filtered. rewrite Hr0. cbn [bind]. split; [reflexivity|]. now apply kept_length. }
  destruct Hch' as (chain' & Hch'). rewrite (proj1 (Hch' _)) in H.
  assert (Hfil := proj2 (Hch' (fun _ => ret g))). clear Hch'.
  set (ai := match needs_updating cfg, autoinc n' with true, Some c => index_of c (plain_columns n' cols) 0 | _, _ => None end) in H.
  change (if oc_merge cfg && memb (render n) (set_of passthrough) then SSkip else oc_strategy cfg) with (used_strategy n) in H.
  rewrite row_copies_each in H.
  set (copy := copy_of (plain_columns n' cols) mult (dget_or (ou_offsets o) n' []) m).
  assert (Hrow : forall x i gx out gx', In (x, i) (each_copy m rows) ->
    output_row F chain' (multiplied_indexes (plain_columns n' cols) mult) m (offset_indexes (plain_columns n' cols) (dget_or (ou_offsets o) n' [])) x i gx = Ok (out, gx') ->
    exists f, filtered chain n' cols x gx = Ok (f, gx') /\ copy i f out).
  { intros x i gx out gx' Hin Ho. apply output_row_spec in Ho. destruct Ho as (f & Hf & Hc).
    assert (Hx : In x rows). { unfold each_copy in Hin. apply in_flat_map in Hin. destruct Hin as (y & Hy & Hin). apply in_map_iff in Hin. destruct Hin as (k & Hk & _). inv Hk. exact Hy. }
    destruct (Hfil x gx f gx' Hx Hf) as [H1 H2]. exists f. split; [exact H1|]. apply Hc, H2. }
  assert (Hbatch : forall bs : list (list (list value)), Forall (fun b => length b = S size) bs -> Forall (fun b => b <> [] /\ length b <= S size) bs).
  { intros bs Hall. eapply Forall_impl; [|exact Hall]. cbn beta. intros b Hb. split; [destruct b; [discriminate|congruence]|]. rewrite Hb. constructor. }
  right. apply bind_io_inv in H. destruct H as [(w1 & s & H1 & H)|(e & H1 & ->)].
  2:{ apply loop_spec with (filt := filtered chain n' cols) (copy := copy) in H1; [|exact Hrow|cbn; lia].
      destruct H1 as (l1 & l2 & outs & g1 & bs & rest & Hl & Hc & Hcat & Hall & Htr & Hci & _). cbn [lp_buffer lp_g app] in *.
      exists n', tm, l1, l2, outs, g1, bs, []. split; [exact Hn'|]. split; [exact Htm|]. split; [exact Hincl|]. split; [exact Hl|]. split; [exact Hc|].
      split; [now exists rest|]. split; [apply Hbatch, Hall|].
      split; [rewrite app_nil_r; exact Htr|]. split; [now left|]. split; [exact Hci|discriminate]. }
  apply loop_spec with (filt := filtered chain n' cols) (copy := copy) in H1; [|exact Hrow|cbn; lia].
  destruct H1 as (l1 & l2 & outs & g1 & bs & rest & Hl & Hc & Hcat & Hall & Htr & Hci & Hok). cbn [lp_buffer lp_g app] in *.
  destruct (Hok s eq_refl) as (-> & Hbuf & Hg & Hle & Hmx). cbn [lp_max] in Hmx.
  apply bind_io_inv in H. destruct H as [(w2 & u & H1 & H)|(e & H1 & ->)].
  2:{ exists n', tm, l1, [], outs, g1, bs, []. split; [exact Hn'|]. split; [exact Htm|]. split; [exact Hincl|]. split; [exact Hl|]. split; [exact Hc|].
      split; [now exists rest|]. split; [apply Hbatch, Hall|].
      assert (Hw : trace w' = trace w1).
      { destruct (is_nil (lp_buffer s)); [inv H1|]. apply flush_inv in H1. destruct H1 as [(Hx & _)|(_ & ->)]; [discriminate|reflexivity]. }
      split; [rewrite app_nil_r, Hw; exact Htr|]. split; [now left|]. split; [exact Hci|discriminate]. }
  assert (Hfin : exists bs', concat bs' = outs /\ Forall (fun b => b <> [] /\ length b <= S size) bs' /\
    trace w2 = trace w ++ map (sent (used_strategy n) (tm_table tm) (plain_columns n' cols)) bs' /\
    (bs' <> [] -> exists h, conflict_insert (oc_dialect cfg) (used_strategy n) (tm_table tm) (plain_columns n' cols) = Ok h)).
  { rewrite <- Hbuf in *. destruct (is_nil (lp_buffer s)) eqn:Hnil.
    - inv H1. destruct (lp_buffer s); [|discriminate]. rewrite app_nil_r in *. exists bs. split; [reflexivity|]. split; [apply Hbatch, Hall|]. split; [exact Htr|exact Hci].
    - apply flush_inv in H1. destruct H1 as [(_ & Htr2 & Hh)|((e & Hx) & _)]; [|discriminate].
      exists (bs ++ [lp_buffer s]). split; [rewrite concat_app; cbn [concat]; rewrite app_nil_r; now rewrite Hcat|].
      split. { apply Forall_app. split; [apply Hbatch, Hall|]. constructor; [|constructor]. split; [intros E0; rewrite E0 in Hnil; discriminate|lia]. }
      split; [rewrite Htr2, Htr, map_app, app_assoc; reflexivity|]. intros _. exact Hh. }
  destruct Hfin as (bs' & Hcat' & Hall' & Htr' & Hci'). destruct u. clear bs Hcat Hall Htr Hci.
  assert (Hup : forall u2, autoincrement_update dflt accepts autoinc currval cfg n' (lp_max s) w2 = (w', u2) ->
    trace w' = trace w2 \/ exists z, trace w' = trace w2 ++ [EvSetval n' z]).
  { intros u2 Hu. unfold autoincrement_update in Hu.
    assert (Hsend : forall e w0 u0, send dflt accepts OxDbError e w2 = (w0, u0) -> trace w0 = trace w2 \/ trace w0 = trace w2 ++ [e]).
    { intros e w0 u0 Hs. apply send_inv in Hs. destruct Hs as [(_ & _ & Ht)|(_ & ->)]; tauto. }
    destruct (needs_updating cfg); [|inv Hu; now left]. destruct (autoinc n'); [|inv Hu; now left].
    destruct (lp_max s) as [| |z| | | |]; try (inv Hu; now left).
    destruct (currval n') as [c|]; [destruct (z <? c)%Z; [unfold bind_io, reading in Hu; destruct (serial_table _ n'); [inv Hu; now left|]|]|]; destruct (Hsend _ _ _ Hu); eauto. }
  apply bind_io_inv in H. destruct H as [(w3 & u & H2 & H)|(e & H2 & ->)].
  - inv H. destruct u. destruct (Hup _ H2) as [Hw|(z & Hw)].
    + exists n', tm, l1, [], (concat bs'), (lp_g s), bs', []. split; [exact Hn'|]. split; [exact Htm|]. split; [exact Hincl|]. split; [exact Hl|]. split; [exact Hc|].
      split; [exists []; now rewrite app_nil_r|]. split; [exact Hall'|]. split; [rewrite app_nil_r, Hw; exact Htr'|]. split; [now left|]. split; [exact Hci'|].
      intros g' He. inv He. split; [reflexivity|]. split; [reflexivity|]. split; [reflexivity|]. exists (lp_max s), w2. split; [exact Hmx|]. split; [exact Htr'|exact H2].
    + exists n', tm, l1, [], (concat bs'), (lp_g s), bs', [EvSetval n' z]. split; [exact Hn'|]. split; [exact Htm|]. split; [exact Hincl|]. split; [exact Hl|]. split; [exact Hc|].
      split; [exists []; now rewrite app_nil_r|]. split; [exact Hall'|]. split; [rewrite Hw, Htr', app_assoc; reflexivity|]. split; [right; eauto|]. split; [exact Hci'|].
      intros g' He. inv He. split; [reflexivity|]. split; [reflexivity|]. split; [reflexivity|]. exists (lp_max s), w2. split; [exact Hmx|]. split; [exact Htr'|exact H2].
  - destruct (Hup _ H2) as [Hw|(z & Hw)].
    + exists n', tm, l1, [], outs, g1, bs', []. split; [exact Hn'|]. split; [exact Htm|]. split; [exact Hincl|]. split; [exact Hl|]. split; [exact Hc|].
      split; [exists []; now rewrite app_nil_r|]. split; [exact Hall'|]. split; [rewrite app_nil_r, Hw; exact Htr'|]. split; [now left|]. split; [exact Hci'|]. discriminate.
    + exists n', tm, l1, [], outs, g1, bs', [EvSetval n' z]. split; [exact Hn'|]. split; [exact Htm|]. split; [exact Hincl|]. split; [exact Hl|]. split; [exact Hc|].
      split; [exists []; now rewrite app_nil_r|]. split; [exact Hall'|]. split; [rewrite Hw, Htr', app_assoc; reflexivity|]. split; [right; eauto|]. split; [exact Hci'|]. discriminate.
Qed.
End Output.
End Run.
