(** One row through an output: filters, multiplication, offsets. *)
From Coq Require Import Lia.
From Verif Require Import Model.Base Model.Value Model.Names Model.Metadata Model.Filters Model.Dest Model.Output.
From Verif Require Import Spec.GraphSpec Spec.SchemaSpec Spec.FilterSpec Spec.OutputSpec Proofs.BaseFacts Proofs.NameFacts Proofs.FilterFacts.
Set Implicit Arguments. Unset Strict Implicit.
Open Scope list_scope.

Lemma enumerate_nth {A} (l : list A) j x : In (j, x) (enumerate l) <-> nth_error l j = Some x.
Proof.
  unfold enumerate. assert (Hg : forall (l : list A) a, In (j, x) (combine (seq a (length l)) l) <-> exists k, j = a + k /\ nth_error l k = Some x).
  { clear l. induction l as [|y l IH]; intros a; cbn [length seq combine In].
    - split; [tauto|]. intros (k & _ & Hk). destruct k; discriminate.
    - rewrite IH. split.
      + intros [He|(k & Hj & Hk)]; [exists 0; inversion He; subst; split; [lia|reflexivity]|exists (S k); split; [lia|exact Hk]].
      + intros (k & Hj & Hk). destruct k as [|k]; cbn in Hk.
        * left. inversion Hk. f_equal. lia.
        * right. exists k. split; [lia|exact Hk]. }
  rewrite Hg. split.
  - intros (k & Hj & Hk). cbn in Hj. now subst.
  - intros Hj. now exists j.
Qed.

Lemma combine_fst {A B} (l : list A) (l' : list B) : length l' = length l -> map fst (combine l l') = l.
Proof. revert l'. induction l as [|a l IH]; intros [|b l'] Hl; cbn in *; try discriminate; [reflexivity|]. f_equal. apply IH. lia. Qed.
Lemma combine_snd {A B} (l : list A) (l' : list B) : length l' = length l -> map snd (combine l l') = l'.
Proof. revert l'. induction l as [|a l IH]; intros [|b l'] Hl; cbn in *; try discriminate; [reflexivity|]. f_equal. apply IH. lia. Qed.

Lemma NoDup_map_filter {A B} (f : A -> B) p l : NoDup (map f l) -> NoDup (map f (filter p l)).
Proof.
  induction l as [|a l IH]; cbn [map filter]; intros Hn; [constructor|]. apply NoDup_cons_iff in Hn. destruct Hn as [Hni Hn].
  destruct (p a); [|now apply IH]. cbn [map]. constructor; [|now apply IH].
  intros Hin. apply Hni. apply in_map_iff in Hin. destruct Hin as (x & Hx & Hin). apply filter_In in Hin. apply in_map_iff. exists x. tauto.
Qed.

Lemma enumerate_NoDup {A} (l : list A) : NoDup (map fst (enumerate l)).
Proof. unfold enumerate. rewrite combine_fst; [apply seq_NoDup|]. now rewrite seq_length. Qed.

Lemma mult_index cols mult j : In j (multiplied_indexes cols mult) <-> exists c, nth_error cols j = Some c /\ In c mult.
Proof.
  unfold multiplied_indexes. rewrite in_map_iff. split.
  - intros ([j' c] & Hj & Hin). cbn in Hj. subst j'. apply filter_In in Hin. destruct Hin as [Hin Hm]. exists c.
    split; [now apply enumerate_nth|now apply memb_true].
  - intros (c & Hc & Hm). exists (j, c). split; [reflexivity|]. apply filter_In. split; [now apply enumerate_nth|now apply memb_true].
Qed.
Lemma mult_NoDup cols mult : NoDup (multiplied_indexes cols mult).
Proof. apply NoDup_map_filter, enumerate_NoDup. Qed.

Lemma offset_index cols offs j o : In (j, o) (offset_indexes cols offs) <-> exists c, nth_error cols j = Some c /\ dget offs c = Some o.
Proof.
  unfold offset_indexes. rewrite in_flat_map. split.
  - intros ([j' c] & Hin & Ho). apply enumerate_nth in Hin. cbn [fst snd] in Ho. destruct (dget offs c) as [o'|] eqn:E; [|destruct Ho].
    destruct Ho as [Ho|[]]. inversion Ho. subst. exists c. tauto.
  - intros (c & Hc & Ho). exists (j, c). split; [now apply enumerate_nth|]. cbn [fst snd]. rewrite Ho. now left.
Qed.
Lemma offset_fsts cols offs : map fst (offset_indexes cols offs) = map fst (filter (fun ic => is_some (dget offs (snd ic))) (enumerate cols)).
Proof.
  unfold offset_indexes. induction (enumerate cols) as [|[j c] l IH]; cbn [flat_map filter]; [reflexivity|].
  rewrite map_app, IH. cbn [snd fst]. destruct (dget offs c); reflexivity.
Qed.
Lemma offset_NoDup cols offs : NoDup (map fst (offset_indexes cols offs)).
Proof. rewrite offset_fsts. apply NoDup_map_filter, enumerate_NoDup. Qed.

(** Setting the values at distinct indexes. *)
Lemma set_loop {X} (idx : X -> nat) (h : X -> value -> ores value) : forall (l : list X) r out,
  NoDup (map idx l) ->
  forM (fun out x => let* v := item out (idx x) in let* v := h x v in Ok (list_set out (idx x) v)) l r = Ok out ->
  length out = length r /\
  (forall x, In x l -> exists v v', nth_error r (idx x) = Some v /\ h x v = Ok v' /\ nth_error out (idx x) = Some v') /\
  (forall j, ~ In j (map idx l) -> nth_error out j = nth_error r j).
Proof.
  induction l as [|x l IH]; intros r out Hn Hr; cbn [forM] in Hr.
  - inv Hr. split; [reflexivity|]. split; [intros x []|reflexivity].
  - cbn [map] in Hn. apply NoDup_cons_iff in Hn. destruct Hn as [Hni Hn].
    apply bind_Ok in Hr. destruct Hr as (r1 & Hr1 & Hr). apply bind_Ok in Hr1. destruct Hr1 as (v & Hv & Hr1).
    apply bind_Ok in Hr1. destruct Hr1 as (v' & Hv' & Hr1). inv Hr1. unfold item in Hv.
    destruct (nth_error r (idx x)) as [u|] eqn:Hu; [|discriminate]. inv Hv.
    destruct (IH _ _ Hn Hr) as (Hlen & Hin & Hout). rewrite list_set_length in Hlen. split; [exact Hlen|].
    assert (Hset : forall j, nth_error (list_set r (idx x) v') j = if Nat.eq_dec (idx x) j then Some v' else nth_error r j).
    { intros j. rewrite list_set_nth. destruct (Nat.eq_dec (idx x) j) as [<-|Hne].
      - now rewrite Nat.eqb_refl, Hu.
      - destruct (Nat.eqb_spec (idx x) j); [contradiction|]. reflexivity. }
    split.
    + intros y [<-|Hy].
      * exists v, v'. split; [exact Hu|]. split; [exact Hv'|]. rewrite Hout; [|exact Hni]. rewrite Hset. destruct (Nat.eq_dec (idx x) (idx x)); [reflexivity|contradiction].
      * destruct (Hin y Hy) as (u & u' & H1 & H2 & H3). exists u, u'. split; [|tauto]. rewrite Hset in H1.
        destruct (Nat.eq_dec (idx x) (idx y)) as [He|]; [|exact H1]. exfalso. apply Hni. rewrite He. now apply in_map.
    + intros j Hj. cbn [map In] in Hj. rewrite Hout by tauto. rewrite Hset. destruct (Nat.eq_dec (idx x) j) as [He|]; [tauto|reflexivity].
Qed.

Lemma multiply_value_spec v m i v' : multiply_value v m i = Ok v' <-> times_plus m i v = Some v'.
Proof. destruct v; cbn; split; intros H; inv H; reflexivity. Qed.
Lemma offset_value_spec v o v' : offset_value v o = Ok v' <-> times_plus 1 o v = Some v'.
Proof. destruct v; cbn; split; intros H; inv H; reflexivity. Qed.

Lemma Forall2_nth {A B} (R : A -> B -> Prop) : forall l l', length l' = length l ->
  (forall j a, nth_error l j = Some a -> exists b, nth_error l' j = Some b /\ R a b) -> Forall2 R l l'.
Proof.
  induction l as [|a l IH]; intros [|b l'] Hl H; cbn in Hl; try discriminate; constructor.
  - destruct (H 0 a eq_refl) as (b' & Hb & Hr). inv Hb. exact Hr.
  - apply IH; [lia|]. intros j x Hj. exact (H (S j) x Hj).
Qed.
Lemma Forall2_nth_l {A B} (R : A -> B -> Prop) l l' : Forall2 R l l' -> forall j a, nth_error l j = Some a ->
  exists b, nth_error l' j = Some b /\ R a b.
Proof. induction 1 as [|a b l l' Hr _ IH]; intros [|j] x Hj; cbn in *; try discriminate; [inv Hj; eauto|eauto]. Qed.

Lemma nth_error_combine_eq {A B} : forall (l : list A) (l' : list B) j a b,
  nth_error (combine l l') j = Some (a, b) <-> nth_error l j = Some a /\ nth_error l' j = Some b.
Proof.
  induction l as [|x l IH]; intros [|y l'] [|j] a b; cbn; try (split; [discriminate|intros [? ?]; discriminate]).
  - split; [intros H; inv H; tauto|intros [H1 H2]; inv H1; inv H2; reflexivity].
  - apply IH.
Qed.

Section Row.
Context {G : Type}.
Variable F : filter_env G.

(** What one copy of one row is. *)
Theorem output_row_spec chain cols mult offs m i r g out g' :
  output_row F chain (multiplied_indexes cols mult) m (offset_indexes cols offs) r i g = Ok (out, g') ->
  exists f, run_filters F chain r g = Ok (f, g') /\ (length f = length cols -> copy_of cols mult offs m i f out).
Proof.
  unfold output_row. intros H. apply bind_Ok in H. destruct H as ([f g1] & Hf & H). unfold of_filter in Hf.
  destruct (run_filters F chain r g) as [[f' g1']|] eqn:Hrun; [|discriminate]. inv Hf.
  apply bind_Ok in H. destruct H as (o1 & H1 & H). apply bind_Ok in H. destruct H as (o2 & H2 & H). inv H.
  exists f. split; [reflexivity|]. intros Hlen.
  destruct (@set_loop nat (fun i => i) (fun _ v => multiply_value v m i) (multiplied_indexes cols mult) f o1) as (L1 & I1 & O1).
  { rewrite map_id. apply mult_NoDup. } { exact H1. }
  destruct (@set_loop (nat * Z) fst (fun io v => offset_value v (snd io)) (offset_indexes cols offs) o1 out) as (L2 & I2 & O2).
  { apply offset_NoDup. } { exact H2. }
  rewrite map_id in O1. split; [exact Hlen|].
  apply Forall2_nth. { rewrite combine_length. lia. }
  intros j [c v] Hj. apply nth_error_combine_eq in Hj. destruct Hj as [Hc Hv]. cbn [fst snd]. unfold copy_value.
  assert (S1 : exists v1, nth_error o1 j = Some v1 /\ (if in_dec string_dec c mult then times_plus m i v else Some v) = Some v1).
  { destruct (in_dec string_dec c mult) as [Hm|Hm].
    - destruct (I1 j) as (x & x' & Hx & Hx' & Hxo). { apply mult_index. now exists c. }
      rewrite Hv in Hx. inv Hx. apply (proj1 (multiply_value_spec _ _ _ _)) in Hx'. eauto.
    - exists v. split; [|reflexivity]. rewrite O1; [exact Hv|]. intros Hin. apply mult_index in Hin. destruct Hin as (c' & Hc' & Hm').
      rewrite Hc in Hc'. inv Hc'. contradiction. }
  destruct S1 as (v1 & Hv1 & ->). destruct (dget offs c) as [o|] eqn:Ho.
  - destruct (I2 (j, o)) as (x & x' & Hx & Hx' & Hxo). { apply offset_index. now exists c. }
    cbn [fst snd] in *. rewrite Hv1 in Hx. inv Hx. apply (proj1 (offset_value_spec _ _ _)) in Hx'. eauto.
  - exists v1. split; [|reflexivity]. rewrite O2; [exact Hv1|]. intros Hin. apply in_map_iff in Hin. destruct Hin as ([j' o] & He & Hin).
    cbn in He. subst j'. apply offset_index in Hin. destruct Hin as (c' & Hc' & Ho'). rewrite Hc in Hc'. inv Hc'. congruence.
Qed.

Lemma run_filters_app c1 c2 r g :
  run_filters F (c1 ++ c2) r g = let* (r, g) := run_filters F c1 r g in run_filters F c2 r g.
Proof.
  unfold run_filters. revert r g. induction c1 as [|v c1 IH]; intros r g; cbn [app apply_chain]; [reflexivity|].
  destruct (apply_view _ _ _ _ _ _ _ _ _ _ _ _ _ _ v r g) as [[r1 g1]|e]; cbn [bind]; [apply IH|reflexivity].
Qed.

(** Leaving out the computed columns. *)
Lemma omit_computed comp cols v r g : NoDup cols -> filter_omit cols (filter comp cols) = Ok v -> length r = length cols ->
  sv_out v = filter (fun c => negb (comp c)) cols /\
  run_filters F [VwSimple v] r g = Ok (kept comp cols r, g).
Proof.
  intros Hn Hv Hl. destruct (filter_omit_Ok Hv) as (out & idx & He & Ho & _).
  assert (Hm : forall c, In c cols -> memb c (filter comp cols) = comp c).
  { intros c Hc. destruct (comp c) eqn:E; [apply memb_true, filter_In; tauto|]. apply memb_false. rewrite filter_In. intros [_ H']. congruence. }
  assert (Hs : sv_out v = filter (fun c => negb (comp c)) cols).
  { subst v. cbn [sv_out]. subst out. apply filter_ext_in. intros c Hc. now rewrite (Hm c Hc). }
  split; [exact Hs|].
  destruct (@omit_exact G (fe_randint F) (fe_uniform F) (fe_index F) (fe_uuid4 F) (fe_fake F) (fe_load_plugin F) (fe_plugin F) cols (filter comp cols) v r g Hn Hv Hl) as (r' & Hr & Hc & Hl').
  unfold run_filters. cbn [apply_chain apply_view]. rewrite Hr. cbn [bind]. f_equal. f_equal. unfold kept.
  rewrite <- (combine_snd Hl'), Hc. f_equal. apply filter_ext_in. intros [c x] Hin. cbn [fst]. f_equal. apply Hm.
  now apply in_combine_l in Hin.
Qed.
End Row.

Lemma row_copies_each rows m : row_copies m rows = each_copy m rows.
Proof. unfold row_copies, each_copy, range. apply flat_map_ext. intros r. now rewrite map_map. Qed.

Lemma renamed_fold sub rules : forall s, fold_left (fun s p => sub (fst p) (snd p) s) rules s = renamed sub rules s.
Proof. induction rules as [|[p b] rules IH]; intros s; cbn; [reflexivity|apply IH]. Qed.

Lemma remap_goes resub cfg n n' : remap_table resub cfg n = Ok n' <-> goes_to resub (oc_remap cfg) n n'.
Proof.
  unfold remap_table, parse_name, goes_to. rewrite renamed_fold. change (fst n ++ "." ++ snd n)%string with (render n).
  rewrite <- parse_named. destruct (parse_table_name _) as [x|]; split; intros H; inv H; reflexivity.
Qed.

(** ** Programs on the destination *)
Section Io.
Context {E A B : Type}.
Variable dflt : tname -> string -> list row -> row -> value.
Variable accepts : dest -> event -> bool.

Lemma bind_io_inv (m : io E A) (k : A -> io E B) w w' r : bind_io m k w = (w', r) ->
  (exists w1 a, m w = (w1, Ok a) /\ k a w1 = (w', r)) \/ (exists e, m w = (w', Err e) /\ r = Err e).
Proof. unfold bind_io. destruct (m w) as [w1 [a|e]]; intros H; [left; eauto|right; exists e; inv H; eauto]. Qed.

Lemma lift_inv (x : res E A) w w' r : lift x w = (w', r) -> w' = w /\ x = r.
Proof. intros H. inv H. tauto. Qed.

Lemma send_inv (err : E) e w w' r : send dflt accepts err e w = (w', r) ->
  (r = Ok tt /\ exec dflt (w_dest w) e = Some (w_dest w') /\ trace w' = trace w ++ [e]) \/ (r = Err err /\ w' = w).
Proof.
  unfold send. destruct (accepts (w_dest w) e); [|intros H; inv H; tauto].
  destruct (exec dflt (w_dest w) e) as [d|] eqn:X; intros H; inv H; [left; cbn; tauto|tauto].
Qed.

Lemma replay_app d tr1 d1 tr2 d2 : replay dflt d tr1 d1 -> replay dflt d1 tr2 d2 -> replay dflt d (tr1 ++ tr2) d2.
Proof. induction 1 as [|d e d1' tr d2' Hx _ IH]; intros H2; [exact H2|]. cbn [app]. econstructor; eauto. Qed.
Lemma replay_one d e d' : exec dflt d e = Some d' -> replay dflt d [e] d'.
Proof. intros H. econstructor; [exact H|constructor]. Qed.
End Io.

(** [m] only extends the trace, and the destination is what the new statements make of it. *)
Definition extends {E A} (dflt : tname -> string -> list row -> row -> value) (m : io E A) : Prop :=
  forall w w' r, m w = (w', r) -> exists tr, trace w' = trace w ++ tr /\ replay dflt (w_dest w) tr (w_dest w').

Section Extends.
Variable dflt : tname -> string -> list row -> row -> value.
Variable accepts : dest -> event -> bool.
Lemma extends_lift {E A} (r : res E A) : extends dflt (lift r).
Proof. intros w w' r' H. inv H. exists []. rewrite app_nil_r. split; [reflexivity|constructor]. Qed.
Lemma extends_ret {E A} (a : A) : extends dflt (@ret E A a).
Proof. exact (@extends_lift E A (Ok a)). Qed.
Lemma extends_reading {E A} (f : dest -> res E A) : extends dflt (reading f).
Proof. intros w w' r' H. inv H. exists []. rewrite app_nil_r. split; [reflexivity|constructor]. Qed.
Lemma extends_send {E} (err : E) e : extends dflt (send dflt accepts err e).
Proof.
  intros w w' r H. apply send_inv in H. destruct H as [(_ & Hx & Ht)|(_ & ->)].
  - exists [e]. split; [exact Ht|now apply replay_one].
  - exists []. rewrite app_nil_r. split; [reflexivity|constructor].
Qed.
Lemma extends_bind {E A B} (m : io E A) (k : A -> io E B) : extends dflt m -> (forall a, extends dflt (k a)) -> extends dflt (bind_io m k).
Proof.
  intros Hm Hk w w' r H. apply bind_io_inv in H. destruct H as [(w1 & a & H1 & H2)|(e & H1 & _)]; [|exact (Hm _ _ _ H1)].
  destruct (Hm _ _ _ H1) as (t1 & E1 & R1). destruct (Hk _ _ _ _ H2) as (t2 & E2 & R2). exists (t1 ++ t2).
  split; [rewrite E2, E1; now rewrite app_assoc|]. eapply replay_app; eassumption.
Qed.
Lemma extends_for {E S A} (f : S -> A -> io E S) : (forall s a, extends dflt (f s a)) -> forall l s, extends dflt (for_io f l s).
Proof. intros Hf. induction l as [|a l IH]; intros s; cbn [for_io]; [apply extends_ret|]. apply extends_bind; auto. Qed.
End Extends.
