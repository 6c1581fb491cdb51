(** Only the destination stops a run that has begun to write. *)
From Coq Require Import Lia.
From Verif Require Import Model.Base Model.Value Model.Names Model.PlanModel Model.Metadata Model.Filters Model.Multiply Model.Materialize Model.Dest Model.Output Model.Sampler.
From Verif Require Import Spec.GraphSpec Spec.SchemaSpec Spec.FilterSpec Spec.OutputSpec Spec.RunSpec Spec.SampleSpec Spec.CompleteSpec.
From Verif Require Import Proofs.BaseFacts Proofs.NameFacts Proofs.MetadataFacts Proofs.FilterFacts Proofs.OutputRows Proofs.OutputRun Proofs.OutputColumn.
From Verif Require Proofs.OutputMain.
From Verif Require Import Model.Dest.
Set Implicit Arguments. Unset Strict Implicit.
Open Scope list_scope.

(** ** Programs that only the destination stops *)
Section Logic.
Context {G : Type}.
Variable E : env G.
Notation send := (send (en_dflt E) (en_accepts E) OxDbError).

Variable iss : event -> Prop.
Definition only {A} (m : io out_exn A) (w : world) (Q : A -> world -> Prop) : Prop :=
  forall w' r, m w = (w', r) -> match r with Ok a => Q a w' | Err x => x = OxDbError /\ exists e, iss e /\ refused E (w_dest w') e end.
Definition tabs (T : list table) (w : world) : Prop := ds_tables (w_dest w) = T.

Lemma only_bind {A B} (m : io out_exn A) (k : A -> io out_exn B) w P Q :
  only m w P -> (forall a w', P a w' -> only (k a) w' Q) -> only (bind_io m k) w Q.
Proof.
  intros Hm Hk w' r H. apply bind_io_inv in H. destruct H as [(w1 & a & H1 & H)|(e & H1 & ->)].
  - exact (Hk a w1 (Hm _ _ H1) _ _ H).
  - exact (Hm _ _ H1).
Qed.
Lemma only_lift {A} (r : ores A) a w (Q : A -> world -> Prop) : r = Ok a -> Q a w -> only (lift r) w Q.
Proof. intros -> HQ w' x H. inv H. exact HQ. Qed.
Lemma only_ret {A} (a : A) w (Q : A -> world -> Prop) : Q a w -> only (ret a) w Q.
Proof. intros HQ w' r H. inv H. exact HQ. Qed.
Lemma only_weaken {A} (m : io out_exn A) w (P Q : A -> world -> Prop) : only m w P -> (forall a w', P a w' -> Q a w') -> only m w Q.
Proof. intros Hm HPQ w' r H. specialize (Hm _ _ H). destruct r; auto. Qed.
Lemma only_for {S A} (f : S -> A -> io out_exn S) (Inv : S -> world -> Prop) : forall l s w, Inv s w ->
  (forall s a w, In a l -> Inv s w -> only (f s a) w Inv) -> only (for_io f l s) w Inv.
Proof.
  induction l as [|a l IH]; intros s w Hs Hf; cbn [for_io]; [exact (only_ret Hs)|].
  apply (only_bind (Hf s a w (or_introl eq_refl) Hs)). intros s' w' Hs'. apply IH; [exact Hs'|]. intros s0 a0 w0 Hin. apply Hf. right. exact Hin.
Qed.
Lemma only_for_prefix {S A} (f : S -> A -> io out_exn S) (Inv : list A -> S -> world -> Prop) (all : list A) : forall l done s w, all = done ++ l -> Inv done s w ->
  (forall done a l s w, all = done ++ a :: l -> Inv done s w -> only (f s a) w (fun s' w' => Inv (done ++ [a]) s' w')) -> only (for_io f l s) w (Inv all).
Proof.
  induction l as [|a l IH]; intros done s w Hall Hs Hf; cbn [for_io].
  - rewrite app_nil_r in Hall. subst done. exact (only_ret Hs).
  - apply (only_bind (Hf done a l s w Hall Hs)). intros s' w' Hs'. apply (IH (done ++ [a])); [rewrite <- app_assoc; exact Hall|exact Hs'|exact Hf].
Qed.
Definition sendable (T : list table) (e : event) : Prop :=
  match e with EvCreate _ => False | EvInsert n _ _ => exists t, find_table T n = Some t | EvSetval n _ => serial_table T n <> None | _ => True end.
Lemma only_send T e w : tabs T w -> sendable T e -> iss e -> only (send e) w (fun _ => tabs T).
Proof.
  intros HT Hs Hi w' r H. unfold Dest.send in H. destruct (en_accepts E (w_dest w) e) eqn:Ha.
  2:{ inv H. split; [reflexivity|]. exists e. split; [exact Hi|]. left. exact Ha. }
  destruct (exec (en_dflt E) (w_dest w) e) as [d|] eqn:He; inv H.
  - unfold tabs in *. cbn [w_dest]. destruct e as [ts|n|n how rows|n v|q|q r]; try (rewrite (proj1 (Verif.Proofs.OutputMain.setval_same He)); exact HT); cbn [exec] in He; [destruct Hs|..].
    + injection He as <-. exact HT.
    + destruct (find_table (ds_tables (w_dest w)) n) as [t|]; [|discriminate]. destruct (insert_rows (en_dflt E) t how (rows_of (w_dest w) n) rows) as [l|]; [|discriminate]. injection He as <-. exact HT.
    + injection He as <-. exact HT.
    + injection He as <-. exact HT.
  - split; [reflexivity|]. exists e. split; [exact Hi|]. right. destruct e as [ts|n|n how rows|n v|q|q r]; cbn [exec] in He; try discriminate.
    2:{ cbn [sendable] in Hs. unfold tabs in HT. rewrite HT in He. destruct (serial_table T n); [discriminate|congruence]. }
    cbn [sendable] in Hs. destruct Hs as (t & Ht). unfold tabs in HT. rewrite HT, Ht in He. exists n, how, rows, t. split; [reflexivity|]. split.
    + apply find_some in Ht. destruct Ht as [Hin Hb]. apply (proj1 (eqb_true _ _)) in Hb. rewrite HT. split; [exact Hin|exact Hb].
    + destruct (insert_rows (en_dflt E) t how (rows_of (w_dest w') n) rows); [discriminate|reflexivity].
Qed.
End Logic.
Arguments only_lift {G E iss A r} a {w Q}.
Arguments only_ret {G E iss A a w Q}.

(** ** Rows *)
Definition whole_number (v : value) : Prop := v = VNull \/ exists z, v = VInt z.
Lemma multiply_whole v m i : whole_number v -> exists v', multiply_value v m i = Ok v' /\ whole_number v'.
Proof. intros [->|(z & ->)]; [exists VNull|exists (VInt (z * m + i))]; (split; [reflexivity|]); [left|right; eexists]; reflexivity. Qed.
Lemma set_total {X} (idx : X -> nat) (h : X -> value -> ores value) : (forall x v, whole_number v -> exists v', h x v = Ok v' /\ whole_number v') ->
  forall (l : list X) (r : list value), (forall x, In x l -> exists v, nth_error r (idx x) = Some v /\ whole_number v) ->
  exists out, forM (fun out x => let* v := item out (idx x) in let* v := h x v in Ok (list_set out (idx x) v)) l r = Ok out /\
    forall j v, nth_error r j = Some v -> whole_number v -> exists v', nth_error out j = Some v' /\ whole_number v'.
Proof.
  intros Hh. induction l as [|x l IH]; intros r Hr; cbn [forM]; [eauto|]. destruct (Hr x (or_introl eq_refl)) as (v & Hv & Hw).
  destruct (Hh x v Hw) as (v' & Hv' & Hw'). unfold item at 1. rewrite Hv. cbn [bind]. rewrite Hv'. cbn [bind].
  assert (Hset : forall j v2, nth_error r j = Some v2 -> whole_number v2 -> exists v3, nth_error (list_set r (idx x) v') j = Some v3 /\ whole_number v3).
  { intros j v2 Hv2 Hw2. rewrite list_set_nth. destruct (Nat.eq_dec j (idx x)) as [->|Hne].
    - exists v'. rewrite Nat.eqb_refl, Hv. auto.
    - exists v2. destruct (Nat.eqb (idx x) j) eqn:Eb; [apply Nat.eqb_eq in Eb; congruence|]. auto. }
  destruct (IH (list_set r (idx x) v')) as (out & Ho & Hout).
  { intros y Hy. destruct (Hr y (or_intror Hy)) as (v2 & Hv2 & Hw2). exact (Hset _ _ Hv2 Hw2). }
  exists out. split; [exact Ho|]. intros j v2 Hv2 Hw2. destruct (Hset j v2 Hv2 Hw2) as (v3 & Hv3 & Hw3). exact (Hout _ _ Hv3 Hw3).
Qed.

Lemma no_offsets cols : offset_indexes cols [] = [].
Proof. unfold offset_indexes. induction (enumerate cols) as [|x l IH]; [reflexivity|]. cbn. exact IH. Qed.
Lemma offset_whole v o : whole_number v -> exists v', offset_value v o = Ok v' /\ whole_number v'.
Proof. intros [->|(z & ->)]; [exists VNull|exists (VInt (z * 1 + o))]; (split; [reflexivity|]); [left|right; eexists]; reflexivity. Qed.
Lemma output_row_total {G} (F : filter_env G) chain cols mult offs m r i g f g' : run_filters F chain r g = Ok (f, g') ->
  length f = length cols -> NoDup cols -> (forall k v, In k mult \/ (exists o, dget offs k = Some o) -> value_of cols f k = Some v -> whole_number v) ->
  exists out, output_row F chain (multiplied_indexes cols mult) m (offset_indexes cols offs) r i g = Ok (out, g') /\ copy_of cols mult offs m i f out.
Proof.
  intros Hf Hl Hnd Hm.
  assert (Hx : exists out, output_row F chain (multiplied_indexes cols mult) m (offset_indexes cols offs) r i g = Ok (out, g')).
  { unfold output_row. rewrite Hf. cbn [of_filter bind].
    assert (Hat : forall j k, nth_error cols j = Some k -> In k mult \/ (exists o, dget offs k = Some o) -> exists v, nth_error f j = Some v /\ whole_number v).
    { intros j k Hk Hin. destruct (nth_error f j) as [v|] eqn:Hv.
      - exists v. split; [reflexivity|]. apply (Hm k v Hin). rewrite (value_of_nth f Hnd Hk). exact Hv.
      - exfalso. apply nth_error_None in Hv. assert (j < length cols) by (apply nth_error_Some; congruence). lia. }
    destruct (@set_total nat (fun j => j) (fun _ v => multiply_value v m i) (fun _ v Hw => multiply_whole m i Hw) (multiplied_indexes cols mult) f) as (out & Ho & Hout).
    { intros j Hj. apply mult_index in Hj. destruct Hj as (k & Hk & Hin). exact (Hat j k Hk (or_introl Hin)). }
    rewrite Ho. cbn [bind].
    destruct (@set_total (nat * Z) fst (fun io v => offset_value v (snd io)) (fun io v Hw => offset_whole (snd io) Hw) (offset_indexes cols offs) out) as (out2 & Ho2 & _).
    { intros [j o] Hj. apply offset_index in Hj. destruct Hj as (k & Hk & Hin). destruct (Hat j k Hk (or_intror (ex_intro _ o Hin))) as (v & Hv & Hw). exact (Hout _ _ Hv Hw). }
    rewrite Ho2. cbn [bind]. eauto. }
  destruct Hx as (out & Ho). exists out. split; [exact Ho|]. destruct (output_row_spec Ho) as (f' & Hf' & Hc).
  rewrite Hf in Hf'. injection Hf' as <-. exact (Hc Hl).
Qed.

Lemma remove_total : forall pk s, NoDup pk -> incl pk s -> exists s', forM remove_key pk s = Ok s'.
Proof.
  induction pk as [|k pk IH]; intros s Hnd Hi; cbn [forM]; [eauto|]. apply NoDup_cons_iff in Hnd. destruct Hnd as [Hni Hnd].
  unfold remove_key at 1. assert (Hk : memb k s = true) by (apply memb_true, Hi; left; reflexivity). rewrite Hk. cbn [bind].
  apply IH; [exact Hnd|]. intros x Hx. apply set_remove_In. split; [apply Hi; right; exact Hx|]. intros ->. contradiction.
Qed.
Lemma conflict_total dl cs t cols : NoDup (tb_pk t) -> incl (tb_pk t) cols -> (dl = OtherDialect -> cs = SError) ->
  exists how, conflict_insert dl cs t cols = Ok how.
Proof.
  intros Hnd Hi Hdl. unfold conflict_insert. destruct (is_nil (tb_pk t)) eqn:Hn.
  - cbn [bind]. destruct dl; eauto.
  - destruct (@remove_total (tb_pk t) (set_of cols) Hnd) as (s & Hs). { intros x Hx. apply set_of_In, Hi, Hx. }
    rewrite Hs. cbn [bind]. destruct dl, cs; try (destruct (is_nil s)); eauto; specialize (Hdl eq_refl); discriminate.
Qed.

Lemma next_int m z : whole_number m -> exists z', next_max m (VInt z) = Ok (VInt z').
Proof.
  intros [->|(y & ->)]; cbn [next_max]; [eauto|]. unfold py_greater. cbn [py_num]. cbn [bind]. destruct (negb (Qle_bool (inject_Z z) (inject_Z y))); eauto.
Qed.


Lemma chain_in {G} (F : filter_env G) fs : forall cols vs out k, construct_chain (fe_load_plugin F) fs cols = Ok (vs, out) -> In k out -> In k cols.
Proof.
  induction fs as [|f fs IH]; intros cols vs out k H Hk; cbn in H; [inv H; exact Hk|].
  apply bind_Ok in H. destruct H as (v & Hv & H). apply bind_Ok in H. destruct H as ([vs' out'] & Hvs & He). inv He.
  apply (vbuilt_out_in (fe_fake F) (fe_plugin F) (cview_built Hv) (IH _ _ _ _ Hvs Hk)).
Qed.

(** ** One table *)
Section Table.
Context {G : Type}.
Variable E : env G.
Variables (fs : list filter_config) (tcols : list string) (chain : list view) (cols : list string).
Notation F := (en_filters E).
Hypothesis Hch : construct_chain (fe_load_plugin F) fs tcols = Ok (chain, cols).
Hypothesis Hnd : NoDup tcols.
Hypothesis Hrun : forall r g, length r = length tcols -> exists out, run_filters F chain r g = Ok out.
Variables (rows : list (list value)) (m : Z) (mult : list string).
Hypothesis Hrows : forall r, In r rows -> length r = length tcols.
Hypothesis Hkeep : forall k f, In k mult -> In f fs -> ~ may_change f k.
Hypothesis Hwhole : forall k r v, In k mult -> In r rows -> value_of tcols r k = Some v -> whole_number v.
Variable T : list table.
Variable iss : event -> Prop.

Lemma copied_row r i : In (r, i) (row_copies m rows) -> In r rows.
Proof. rewrite row_copies_each. intros H. apply each_copy_In in H. exact (proj1 H). Qed.

Lemma directory_only dir n g w : tabs T w ->
  (forall e, (let f := (dir ++ "/" ++ render n ++ ".json")%string in e = EvOpen f \/ exists r, e = EvLine f r) -> iss e) ->
  only E iss (directory_output F (en_dflt E) (en_accepts E) dir n chain cols rows m mult g) w (fun _ => tabs T).
Proof.
  intros HT Hi. unfold directory_output. apply (only_bind (@only_send _ E iss T (EvOpen _) w HT I (Hi _ (or_introl eq_refl)))). intros [] w1 HT1.
  apply only_for; [exact HT1|]. intros g1 [r i] w2 Hin HT2. cbn [fst snd].
  destruct (Hrun g1 (Hrows (copied_row Hin))) as ([f g2] & Hf).
  assert (Hlen := chain_length Hch (Hrows (copied_row Hin)) Hf).
  destruct (@output_row_total _ F chain cols mult [] m r i g1 f g2 Hf Hlen (chain_NoDup Hch Hnd)) as (out & Ho & _).
  { intros k v [Hk|(z & Hz)] Hv; [|discriminate Hz]. apply (Hwhole Hk (copied_row Hin)).
    destruct (chain_untouched (c := k) Hnd Hch (Hrows (copied_row Hin)) Hf) as [Hval _]; [intros x Hx; exact (Hkeep Hk Hx)|]. rewrite <- Hval. exact Hv. }
  apply (only_bind (P := fun x w' => x = (out, g2) /\ tabs T w')); [apply (only_lift (out, g2)); [rewrite no_offsets in Ho; exact Ho|split; [reflexivity|exact HT2]]|].
  intros [out' g'] w3 [Ex HT3]. injection Ex as -> ->. apply (only_bind (@only_send _ E iss T (EvLine _ _) w3 HT3 I (Hi _ (or_intror (ex_intro _ _ eq_refl))))). intros [] w4 HT4. apply only_ret. exact HT4.
Qed.

Section Database.
Variables (c : db_config) (o : db_output) (pt : list string) (n n' : tname) (tm : tmeta).
Hypothesis Hgo : remap_table (en_resub E) c n = Ok n'.
Hypothesis Htm : dget (ou_meta o) n' = Some tm.
Notation offs := (dget_or (ou_offsets o) n' []).
Hypothesis Hoff : forall k z, dget offs k = Some z -> (forall f, In f fs -> ~ may_change f k) /\ forall r v, In r rows -> value_of tcols r k = Some v -> whole_number v.
Notation cs := (if oc_merge c && memb (render n) (set_of pt) then SSkip else oc_strategy c).
Hypothesis Hincl : incl cols (tb_cols (tm_table tm)).
Hypothesis Hpknd : NoDup (tb_pk (tm_table tm)).
Hypothesis Hpk : forall k, In k (tb_pk (tm_table tm)) -> In k cols /\ en_computed E n' k = false.
Hypothesis Hdl : oc_dialect c = OtherDialect -> cs = SError.
Hypothesis Hseq : oc_dialect c = PostgreSQL -> forall k, en_autoinc E n' = Some k -> In k tcols ->
  (forall f, In f fs -> ~ may_change f k) /\ forall r, In r rows -> exists z, value_of tcols r k = Some (VInt z).
Notation plain := (plain_columns (en_computed E) n' cols).
Notation copy := (copy_of plain mult offs m).
Notation kept_row := (filtered F (en_computed E) chain n' cols).
(** What holds once the given rows have been sent. *)
Variable Inv : list (list value) -> world -> Prop.
Variable g0 : G.
Hypothesis Hflush : forall how l1 l2 sent b g1 w, each_copy m rows = l1 ++ l2 -> copies kept_row copy l1 g0 (sent ++ b) g1 -> Inv sent w ->
  b <> [] -> length b <= S (en_buffer E) -> conflict_insert (oc_dialect c) cs (tm_table tm) plain = Ok how ->
  only E iss (send (en_dflt E) (en_accepts E) OxDbError (EvInsert (tb_name (tm_table tm)) how (map (as_row plain) b))) w (fun _ => Inv (sent ++ b)).
Hypothesis Hset : oc_dialect c = PostgreSQL -> en_autoinc E n' <> None -> forall z sent w, Inv sent w ->
  only E iss (send (en_dflt E) (en_accepts E) OxDbError (EvSetval n' z)) w (fun _ => Inv sent).

Lemma plain_pk : incl (tb_pk (tm_table tm)) plain.
Proof. intros k Hk. destruct (Hpk Hk) as [A B]. apply filter_In. rewrite B. auto. Qed.

Lemma flush_only l1 l2 sent b g1 w : each_copy m rows = l1 ++ l2 -> copies kept_row copy l1 g0 (sent ++ b) g1 -> Inv sent w -> b <> [] -> length b <= S (en_buffer E) ->
  only E iss (flush (en_dflt E) (en_accepts E) c cs (tm_table tm) plain b) w (fun _ => Inv (sent ++ b)).
Proof.
  intros Hl Hc HI Hb Hlen. unfold flush. destruct (conflict_total Hpknd plain_pk Hdl) as (how & Hh).
  apply (only_bind (P := fun h w' => h = how /\ Inv sent w')); [exact (only_lift _ Hh (conj eq_refl HI))|]. intros h w1 [-> HI1].
  exact (Hflush Hl Hc HI1 Hb Hlen Hh).
Qed.

Lemma chain_plain : exists chain', 
  (forall w, only E iss (if is_nil (filter (en_computed E n') cols) then ret (chain, cols)
               else let+ v := lift (of_filter (filter_omit cols (filter (en_computed E n') cols))) in ret (chain ++ [VwSimple v], sv_out v)) w
    (fun x w' => w' = w /\ x = (chain', plain))) /\
  forall r g, In r rows -> exists f0 f g', run_filters F chain r g = Ok (f0, g') /\ run_filters F chain' r g = Ok (f, g') /\
    length f0 = length cols /\ f = kept (en_computed E n') cols f0 /\ length f = length plain.
Proof.
  assert (Hndc := chain_NoDup Hch Hnd).
  assert (Hk : forall f : list value, length f = length cols -> length (kept (en_computed E n') cols f) = length plain).
  { intros f. unfold kept, plain_columns. clear. revert f. induction cols as [|x l IH]; intros [|y f] Hl; try discriminate; [reflexivity|]. cbn [combine filter fst].
    injection Hl as Hl. destruct (en_computed E n' x); cbn [negb map length]; [exact (IH f Hl)|f_equal; exact (IH f Hl)]. }
  destruct (is_nil (filter (en_computed E n') cols)) eqn:Hcomp.
  - assert (Hnil : filter (en_computed E n') cols = []) by (destruct (filter (en_computed E n') cols); [reflexivity|discriminate]).
    exists chain. split.
    + intros w. apply only_ret. split; [reflexivity|]. f_equal. unfold plain_columns. symmetry. apply filter_all. intros x Hx. destruct (en_computed E n' x) eqn:Ex; [|reflexivity].
      assert (Hin : In x (filter (en_computed E n') cols)) by (apply filter_In; tauto). rewrite Hnil in Hin. destruct Hin.
    + intros r g Hr. destruct (Hrun g (Hrows Hr)) as ([f g'] & Hf). assert (Hl : length f = length cols) by exact (chain_length Hch (Hrows Hr) Hf).
      exists f, f, g'. split; [exact Hf|]. split; [exact Hf|]. split; [exact Hl|]. destruct (@kept_all (en_computed E n') cols f Hl Hnil) as [A B]. rewrite A. split; [reflexivity|]. unfold plain_columns. rewrite B. exact Hl.
  - destruct (filter_omit_total cols (filter (en_computed E n') cols)) as [v Hv]. exists (chain ++ [VwSimple v]). split.
    + intros w. apply (only_bind (P := fun x w' => w' = w /\ x = v)); [apply (only_lift v); [rewrite Hv; reflexivity|auto]|]. intros x w1 [-> ->]. apply only_ret. split; [reflexivity|]. f_equal.
      destruct (filter_omit_Ok Hv) as (out & idx & -> & -> & _). cbn [sv_out]. apply filter_ext_in. intros x Hx. f_equal. destruct (en_computed E n' x) eqn:Ex.
      * apply memb_true, filter_In. auto.
      * apply memb_false. intros Hin. apply filter_In in Hin. destruct Hin as [_ Hin]. congruence.
    + intros r g Hr. destruct (Hrun g (Hrows Hr)) as ([f g'] & Hf). assert (Hl : length f = length cols) by exact (chain_length Hch (Hrows Hr) Hf).
      exists f, (kept (en_computed E n') cols f), g'. split; [exact Hf|]. split; [|split; [exact Hl|split; [reflexivity|exact (Hk f Hl)]]].
      rewrite run_filters_app, Hf. cbn [bind]. exact (proj2 (@omit_computed G F (en_computed E n') cols v f g' Hndc Hv Hl)).
Qed.

Lemma database_only w : Inv [] w ->
  only E iss (database_output F (en_dflt E) (en_accepts E) (en_resub E) (en_computed E) (en_autoinc E) (en_currval E) (en_buffer E) c o pt n chain cols rows m mult g0) w
    (fun g' w' => exists sent, copies kept_row copy (each_copy m rows) g0 sent g' /\ Inv sent w').
Proof.
  intros HI. unfold database_output.
  apply (only_bind (P := fun x w' => x = n' /\ Inv [] w')); [apply (only_lift n'); [exact Hgo|auto]|]. intros x w1 [-> HI1].
  apply (only_bind (P := fun x w' => x = tm /\ Inv [] w')); [apply (only_lift tm); [unfold find_key, dfind; rewrite Htm; reflexivity|auto]|]. intros x w2 [-> HI2].
  assert (Hsub : subsetb cols (tb_cols (tm_table tm)) = true) by (apply forallb_forall; intros x Hx; apply memb_true, Hincl, Hx). rewrite Hsub. cbn [negb].
  destruct chain_plain as (chain' & Hc1 & Hc2).
  apply (only_bind (Hc1 w2)). intros [ch cl] w3 [-> Ex]. injection Ex as -> ->. cbv beta iota.
  set (ai := match needs_updating c with true => match en_autoinc E n' with Some c0 => index_of c0 plain 0 | None => None end | false => None end).
  assert (Hndp : NoDup plain) by (apply NoDup_filter; exact (chain_NoDup Hch Hnd)).
  set (Loop := fun (done : list (list value * Z)) (s : loop_state (G := G)) (w : world) => exists sent, copies kept_row copy done g0 (sent ++ lp_buffer s) (lp_g s) /\ Inv sent w /\ whole_number (lp_max s) /\ length (lp_buffer s) <= en_buffer E).
  assert (HL0 : Loop [] (mkLoop [] VNull g0) w2) by (exists []; split; [constructor|]; split; [exact HI2|]; split; [left; reflexivity|cbn; lia]).
  apply (only_bind (P := Loop (each_copy m rows))).
  - rewrite row_copies_each. refine (@only_for_prefix _ E iss _ _ _ Loop (each_copy m rows) (each_copy m rows) [] _ w2 eq_refl HL0 _).
    intros done [r i] more s w4 Hall (sent & Hcop & HI4 & Hmx & Hbuf). unfold loop_body. cbn [fst snd].
    assert (Hin : In (r, i) (each_copy m rows)) by (rewrite Hall; apply in_or_app; right; left; reflexivity). rewrite <- row_copies_each in Hin.
    assert (Hr := copied_row Hin). destruct (Hc2 r (lp_g s) Hr) as (f0 & f & g1 & Hf0 & Hf & Hl0 & Hk & Hl).
    assert (Hval : forall k, (forall x, In x fs -> ~ may_change x k) -> en_computed E n' k = false -> value_of plain f k = value_of tcols r k).
    { intros k Hmay Hcomp. rewrite Hk. unfold plain_columns. rewrite (value_kept Hl0 Hcomp). exact (proj1 (chain_untouched Hnd Hch (Hrows Hr) Hf0 Hmay)). }
    destruct (@output_row_total _ F chain' plain mult offs m r i (lp_g s) f g1 Hf Hl Hndp) as (out & Ho & Hcopy).
    { intros k v Hkm Hv. assert (Hcomp : en_computed E n' k = false) by (pose proof (value_key Hv) as Hv'; apply filter_In in Hv'; destruct Hv' as [_ Hv']; destruct (en_computed E n' k); [discriminate|reflexivity]).
      destruct Hkm as [Hkm|(z & Hz)].
      - apply (Hwhole Hkm Hr). rewrite <- Hval; [exact Hv|intros x Hx; exact (Hkeep Hkm Hx)|exact Hcomp].
      - destruct (Hoff Hz) as [Hmay Hw]. apply (Hw r v Hr). rewrite <- Hval; [exact Hv|exact Hmay|exact Hcomp]. }
    assert (Hcop' : copies kept_row copy (done ++ [(r, i)]) g0 (sent ++ lp_buffer s ++ [out]) g1).
    { rewrite app_assoc. apply (copies_app Hcop). econstructor; [|exact Hcopy|constructor]. unfold filtered. rewrite Hf0. cbn [bind]. rewrite <- Hk. reflexivity. }
    apply (only_bind (P := fun x w' => x = (out, g1) /\ Inv sent w')); [apply (only_lift (out, g1)); [exact Ho|auto]|]. intros x w5 [-> HI5].
    apply (only_bind (P := fun mx w' => whole_number mx /\ Inv sent w')).
    { destruct ai as [j|] eqn:Eai; [|apply only_ret; auto]. unfold ai in Eai. unfold needs_updating in Eai. destruct (oc_dialect c) eqn:Ed; try discriminate.
      destruct (en_autoinc E n') as [k|] eqn:Ek; [|discriminate]. apply index_of_Some in Eai. destruct Eai as (j' & -> & Hj). cbn [plus].
      assert (Hkp : In k plain) by (eapply nth_error_In; exact Hj). apply filter_In in Hkp. destruct Hkp as [Hkc Hkn].
      assert (Hcomp : en_computed E n' k = false) by (destruct (en_computed E n' k); [discriminate|reflexivity]).
      assert (Hkt : In k tcols).
      { exact (@chain_in _ F fs tcols chain cols k Hch Hkc). }
      destruct (Hseq eq_refl eq_refl Hkt) as [Hmay Hz]. destruct (Hz r Hr) as (z & Hz'). rewrite <- (Hval k Hmay Hcomp) in Hz'.
      destruct Hcopy as [_ Hcopy]. destruct (@Forall2_value (fun k x v => copy_value mult offs m i k x = Some v) plain f out k (VInt z) Hl Hcopy Hz') as (v & Hv & Hcv).
      rewrite (value_of_nth out Hndp Hj) in Hv.
      assert (Hint : exists z', v = VInt z'). { unfold copy_value in Hcv. destruct (in_dec string_dec k mult); cbn [times_plus] in Hcv; destruct (dget offs k); injection Hcv as <-; eauto. }
      destruct Hint as (z' & ->). destruct (next_int z' Hmx) as (z2 & Hz2).
      apply (only_bind (P := fun x w' => x = VInt z' /\ Inv sent w')); [apply (only_lift (VInt z')); [unfold item; rewrite Hv; reflexivity|auto]|].
      intros x w6 [-> HI6]. apply (only_lift (VInt z2)); [exact Hz2|]. split; [right; eauto|exact HI6]. }
    intros mx w6 [Hmx' HI6]. destruct (Nat.ltb (en_buffer E) (length (lp_buffer s ++ [out]))) eqn:Hfull.
    + assert (Hb1 : lp_buffer s ++ [out] <> []) by (destruct (lp_buffer s); discriminate). assert (Hb2 : length (lp_buffer s ++ [out]) <= S (en_buffer E)) by (rewrite app_length; cbn; lia).
      assert (Hall' : each_copy m rows = (done ++ [(r, i)]) ++ more) by (rewrite <- app_assoc; exact Hall).
      apply (only_bind (flush_only Hall' Hcop' HI6 Hb1 Hb2)).
      intros [] w7 HI7. apply only_ret. exists (sent ++ lp_buffer s ++ [out]). cbn [lp_max lp_buffer lp_g length]. rewrite app_nil_r. split; [exact Hcop'|]. split; [exact HI7|split; [exact Hmx'|lia]].
    + apply only_ret. exists sent. cbn [lp_max lp_buffer lp_g]. apply Nat.ltb_ge in Hfull. auto.
  - intros s w4 (sent & Hcop & HI4 & Hmx & Hbuf). apply (only_bind (P := fun _ => Inv (sent ++ lp_buffer s))).
    { assert (Hall : each_copy m rows = each_copy m rows ++ []) by (symmetry; apply app_nil_r). destruct (is_nil (lp_buffer s)) eqn:Eb.
      - apply only_ret. destruct (lp_buffer s); [|discriminate]. rewrite app_nil_r. exact HI4.
      - apply (flush_only Hall Hcop HI4); [destruct (lp_buffer s); discriminate|lia]. }
    intros [] w5 HI5. apply (only_bind (P := fun _ => Inv (sent ++ lp_buffer s))); [|intros [] w6 HI6; apply only_ret; exists (sent ++ lp_buffer s); auto].
    unfold autoincrement_update. destruct (needs_updating c) eqn:Hnu; [|apply only_ret; exact HI5].
    assert (Hpg : oc_dialect c = PostgreSQL) by (unfold needs_updating in Hnu; destruct (oc_dialect c); discriminate || reflexivity). destruct (en_autoinc E n') as [k|] eqn:Eai; [|apply only_ret; exact HI5].
    assert (Hai : Some k <> None) by discriminate.
    destruct Hmx as [->|(z & ->)]; [apply only_ret; exact HI5|].
    destruct (en_currval E n') as [cv|]; [destruct (z <? cv)%Z; [intros w6 r6 H6; unfold bind_io, reading in H6; destruct (serial_table _ n'); [inv H6; exact HI5|eapply (Hset Hpg); [exact Hai|exact HI5|exact H6]]|]|]; apply (Hset Hpg Hai); exact HI5.
Qed.
End Database.
End Table.
