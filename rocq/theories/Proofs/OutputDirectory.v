(** Output to a directory. *)
From Coq Require Import Lia.
From Verif Require Import Model.Base Model.Value Model.Names Model.PlanModel Model.Metadata Model.Filters Model.Multiply Model.Materialize Model.Dest Model.Output Model.Sampler.
From Verif Require Import Spec.GraphSpec Spec.SchemaSpec Spec.FilterSpec Spec.OutputSpec Spec.RunSpec.
From Verif Require Import Proofs.BaseFacts Proofs.NameFacts Proofs.MetadataFacts Proofs.FilterFacts Proofs.OutputRows Proofs.OutputRun Proofs.OutputCopy Proofs.OutputSample Proofs.OutputMain.
Set Implicit Arguments.
Unset Strict Implicit.
Open Scope list_scope.

Lemma append_inj_l (a b c : string) : (a ++ b)%string = (a ++ c)%string -> b = c.
Proof. induction a as [|x a IH]; cbn; [auto|]. intros H. injection H as H. auto. Qed.
Lemma string_append_length (a b : string) : String.length (a ++ b)%string = String.length a + String.length b.
Proof. induction a as [|x a IH]; cbn; congruence. Qed.
Lemma append_inj_r (a b c : string) : (a ++ c)%string = (b ++ c)%string -> a = b.
Proof.
  revert b. induction a as [|x a IH]; intros [|y b] H.
  - reflexivity.
  - exfalso. apply (f_equal String.length) in H. rewrite !string_append_length in H. cbn in H. lia.
  - exfalso. apply (f_equal String.length) in H. rewrite !string_append_length in H. cbn in H. lia.
  - cbn in H. injection H as -> H. f_equal. auto.
Qed.
Lemma offset_nil cols : offset_indexes cols [] = [].
Proof. unfold offset_indexes. induction (enumerate cols) as [|x l IH]; [reflexivity|exact IH]. Qed.
Lemma json_file_inj dir t t' : json_file dir t = json_file dir t' -> t = t'.
Proof. unfold json_file. intros H. apply append_inj_l in H. apply append_inj_l in H. apply append_inj_r in H. exact H. Qed.

(** What a program that writes files leaves alone. *)
Definition same_db (d d' : dest) : Prop := ds_tables d' = ds_tables d /\ ds_rows d' = ds_rows d /\ ds_seq d' = ds_seq d.
Lemma same_refl d : same_db d d. Proof. repeat split. Qed.
Lemma same_trans d d' d'' : same_db d d' -> same_db d' d'' -> same_db d d''.
Proof. intros (A & B & C) (A' & B' & C'). repeat split; congruence. Qed.

Section Directory.
Context {G : Type}.
Variable E : env G.
Variable cfg : sampler_config.
Variable p : plan.
Notation queries := (dkeys (p_queries p)).
Variable dir : string.

Lemma lines_loop path chain cols mult m : forall l g w w' r,
  (forall x i g out g', In (x, i) l -> output_row (en_filters E) chain (multiplied_indexes cols mult) m [] x i g = Ok (out, g') ->
     exists f, run_filters (en_filters E) chain x g = Ok (f, g') /\ copy_of cols mult [] m i f out) ->
  for_io (fun g ri =>
      let+ (out, g) := lift (output_row (en_filters E) chain (multiplied_indexes cols mult) m [] (fst ri) (snd ri) g) in
      let+ _ := send (en_dflt E) (en_accepts E) OxDbError (EvLine path (dict_of (combine cols out))) in
      ret g) l g w = (w', r) ->
  exists l1 l2 outs g', l = l1 ++ l2 /\ (succeeded r = true -> l2 = []) /\
    copies (run_filters (en_filters E) chain) (copy_of cols mult [] m) l1 g outs g' /\ (forall g1, r = Ok g1 -> g1 = g') /\
    file_of (w_dest w') path = file_of (w_dest w) path ++ map (fun o => dict_of (combine cols o)) outs /\
    (forall q, q <> path -> file_of (w_dest w') q = file_of (w_dest w) q) /\ same_db (w_dest w) (w_dest w').
Proof.
  induction l as [|[x i] l IH]; intros g w w' r Hrow H; cbn [for_io] in H.
  - unfold ret in H. injection H as <- <-. exists [], [], [], g. split; [reflexivity|]. split; [reflexivity|]. split; [constructor|]. split; [congruence|].
    split; [cbn; now rewrite app_nil_r|]. split; [reflexivity|apply same_refl].
  - assert (Hstop : succeeded r = false -> w' = w -> exists l1 l2 outs g', (x, i) :: l = l1 ++ l2 /\ (succeeded r = true -> l2 = []) /\
      copies (run_filters (en_filters E) chain) (copy_of cols mult [] m) l1 g outs g' /\ (forall g1, r = Ok g1 -> g1 = g') /\
      file_of (w_dest w') path = file_of (w_dest w) path ++ map (fun o => dict_of (combine cols o)) outs /\
      (forall q, q <> path -> file_of (w_dest w') q = file_of (w_dest w) q) /\ same_db (w_dest w) (w_dest w')).
    { intros Hr ->. exists [], ((x, i) :: l), [], g. split; [reflexivity|]. split; [congruence|]. split; [constructor|]. split; [intros g1 ->; discriminate|].
      split; [cbn; now rewrite app_nil_r|]. split; [reflexivity|apply same_refl]. }
    apply bind_io_inv in H. destruct H as [(w1 & g1 & H1 & H2)|(e & H1 & ->)].
    2:{ apply Hstop; [reflexivity|]. apply bind_io_inv in H1. destruct H1 as [(w2 & [out g2] & Ho & H1)|(e' & Ho & _)]; [|now apply lift_inv in Ho].
        apply lift_inv in Ho. destruct Ho as [-> _]. apply bind_io_inv in H1. destruct H1 as [(w3 & u & _ & H1)|(e' & H1 & _)]; [discriminate|].
        apply send_inv in H1. destruct H1 as [(F & _)|(_ & Hw)]; [discriminate|exact Hw]. }
    apply bind_io_inv in H1. destruct H1 as [(w2 & [out g2] & Ho & H1)|(e' & _ & F)]; [|discriminate]. apply lift_inv in Ho. destruct Ho as [-> Hout]. cbn [fst snd] in Hout.
    apply bind_io_inv in H1. destruct H1 as [(w3 & u & Hsend & H1)|(e' & _ & F)]; [|discriminate]. unfold ret in H1. injection H1 as <- <-.
    apply send_inv in Hsend. destruct Hsend as [(_ & Hx & _)|(F & _)]; [|discriminate]. cbn [exec] in Hx. injection Hx as Hx.
    destruct (Hrow x i g out g2 (or_introl eq_refl) Hout) as (f & Hf & Hcopy).
    destruct (IH g2 w3 w' r (fun x0 i0 g0 out0 g0' Hin => Hrow x0 i0 g0 out0 g0' (or_intror Hin)) H2) as (l1 & l2 & outs & g' & -> & Hl2 & Hc & Hg & Hfile & Hother & Hsame).
    exists ((x, i) :: l1), l2, (out :: outs), g'. split; [reflexivity|]. split; [exact Hl2|]. split; [econstructor; eassumption|]. split; [exact Hg|].
    assert (Hq : forall q, file_of (w_dest w3) q = if eq_dec q path then file_of (w_dest w) path ++ [dict_of (combine cols out)] else file_of (w_dest w) q).
    { intros q. rewrite <- Hx. unfold file_of at 1. cbn [ds_files]. unfold dget_or. destruct (eq_dec q path) as [->|Hne]; [now rewrite dget_dset_eq|now rewrite dget_dset_ne by congruence]. }
    split. { rewrite Hfile, Hq. destruct (eq_dec path path); [|congruence]. rewrite <- app_assoc. reflexivity. }
    split. { intros q Hne. rewrite (Hother q Hne), Hq. destruct (eq_dec q path); [congruence|reflexivity]. }
    eapply same_trans; [|exact Hsame]. rewrite <- Hx. repeat split.
Qed.

Section Copy.
Variables (ms : meta) (compact : dict tname (list string)) (st : tstate) (mults : dict string (list string)).

Lemma copy_one_lines t g w w' r : In t queries -> copy_one E cfg (OutDirectory dir) p ms compact st mults g t w = (w', r) ->
  same_db (w_dest w) (w_dest w') /\ (forall q, q <> json_file dir t -> file_of (w_dest w') q = file_of (w_dest w) q) /\
  ((succeeded r = false /\ file_of (w_dest w') (json_file dir t) = file_of (w_dest w) (json_file dir t)) \/
   exists g', (forall g1, r = Ok g1 -> g1 = g') /\ export E cfg p ms compact st mults (succeeded r) t g (file_of (w_dest w') (json_file dir t)) g').
Proof.
  intros Hin H. unfold copy_one in H.
  assert (Hstop : succeeded r = false -> w' = w -> same_db (w_dest w) (w_dest w') /\ (forall q, q <> json_file dir t -> file_of (w_dest w') q = file_of (w_dest w) q) /\
    ((succeeded r = false /\ file_of (w_dest w') (json_file dir t) = file_of (w_dest w) (json_file dir t)) \/
     exists g', (forall g1, r = Ok g1 -> g1 = g') /\ export E cfg p ms compact st mults (succeeded r) t g (file_of (w_dest w') (json_file dir t)) g')).
  { intros Hr ->. split; [apply same_refl|]. split; [reflexivity|]. left. split; [exact Hr|reflexivity]. }
  apply bind_io_inv in H. destruct H as [(w1 & co & H1 & H)|(e & H1 & ->)]; [|apply Hstop; [reflexivity|now apply lift_inv in H1]].
  apply lift_inv in H1. destruct H1 as [-> Hco]. unfold of_samp in Hco.
  destruct (copy_table _ _ _ _ _ _ _ _ _ _ _ _ _ _) as [co'|] eqn:Hct; [|discriminate]. inv Hco.
  destruct co as [co|].
  2:{ exfalso. unfold copy_table in Hct. apply bind_Ok in Hct. destruct Hct as (n & _ & Hct). apply key_dget in Hin. destruct Hin as (q & Hq). rewrite Hq in Hct.
      apply bind_Ok in Hct. destruct Hct as (x & _ & Hx). discriminate. }
  apply bind_io_inv in H. destruct H as [(w1 & [chain cols] & H1 & H)|(e & H1 & ->)]; [|apply Hstop; [reflexivity|now apply lift_inv in H1]].
  apply lift_inv in H1. destruct H1 as [-> Hch]. unfold of_filter in Hch.
  destruct (construct_chain _ _ _) as [x|] eqn:Hcc; [|discriminate]. inv Hch.
  cbn [output_result_set] in H. assert (Hnt : named t (co_name co)) by exact (proj1 (result_named Hct)).
  unfold directory_output in H. rewrite <- (named_eq Hnt) in H. change (dir ++ "/" ++ t ++ ".json")%string with (json_file dir t) in H.
  apply bind_io_inv in H. destruct H as [(w1 & u & H1 & H)|(e & H1 & ->)].
  2:{ apply send_inv in H1. destruct H1 as [(F & _)|(_ & Hw)]; [discriminate|]. apply Hstop; [reflexivity|exact Hw]. }
  apply send_inv in H1. destruct H1 as [(_ & Hx & _)|(F & _)]; [|discriminate]. cbn [exec] in Hx. injection Hx as Hx.
  assert (Hq : forall q, file_of (w_dest w1) q = if eq_dec q (json_file dir t) then [] else file_of (w_dest w) q).
  { intros q. rewrite <- Hx. unfold file_of at 1. cbn [ds_files]. unfold dget_or. destruct (eq_dec q (json_file dir t)) as [->|Hne]; [now rewrite dget_dset_eq|now rewrite dget_dset_ne by congruence]. }
  apply lines_loop in H.
  2:{ intros y i g0 out g1 Hy Ho. rewrite <- (offset_nil cols) in Ho. apply output_row_spec in Ho. destruct Ho as (f & Hf & Hc). exists f. split; [exact Hf|]. apply Hc.
      eapply chain_length; [exact Hcc| |exact Hf]. rewrite row_copies_each in Hy. unfold each_copy in Hy. apply in_flat_map in Hy. destruct Hy as (y' & Hy' & Hy).
      apply in_map_iff in Hy. destruct Hy as (j & Ej & _). injection Ej as -> _. apply in_map_iff in Hy'. destruct Hy' as (rr & <- & _). apply map_length. }
  destruct H as (l1 & l2 & outs & g' & Hl & Hl2 & Hc & Hg & Hfile & Hother & Hsame).
  split. { eapply same_trans; [|exact Hsame]. rewrite <- Hx. repeat split. }
  split. { intros q Hne. rewrite (Hother q Hne), Hq. destruct (eq_dec q (json_file dir t)); [congruence|reflexivity]. }
  right. exists g'. split; [exact Hg|]. rewrite Hfile, Hq. destruct (eq_dec (json_file dir t) (json_file dir t)); [|congruence]. cbn [app].
  exists co, chain, cols, l1, l2, outs. split; [exact Hct|]. split; [exact Hcc|]. split; [rewrite <- row_copies_each; exact Hl|]. split; [exact Hl2|]. split; [exact Hc|reflexivity].
Qed.

Lemma copy_results_lines : forall order g w w' r, incl order queries -> NoDup order ->
  copy_results E cfg (OutDirectory dir) p ms compact st mults order g w = (w', r) ->
  same_db (w_dest w) (w_dest w') /\
  exists files g', exports E cfg p ms compact st mults (succeeded r) order g files g' /\ incl (map fst files) order /\ (forall g1, r = Ok g1 -> g1 = g') /\
    (forall t rows, In (t, rows) files -> file_of (w_dest w') (json_file dir t) = rows) /\
    (forall q, (forall t, In t (map fst files) -> q <> json_file dir t) -> file_of (w_dest w') q = file_of (w_dest w) q).
Proof.
  unfold copy_results. induction order as [|t order IH]; intros g w w' r Hincl Hnd H; cbn [for_io] in H.
  - unfold ret in H. injection H as <- <-. split; [apply same_refl|]. exists [], g. split; [constructor|]. split; [intros x []|]. split; [congruence|]. split; [intros t rows []|reflexivity].
  - apply bind_io_inv in H. inversion Hnd as [|? ? Hni Hnd']; subst. destruct H as [(w1 & g1 & H1 & H)|(e & H1 & ->)].
    + destruct (copy_one_lines (Hincl t (or_introl eq_refl)) H1) as (Hs1 & Ho1 & Hor). destruct Hor as [(F & _)|(g2 & Hg2 & Hexp)]; [discriminate|].
      rewrite <- (Hg2 g1 eq_refl) in Hexp. cbn [succeeded] in Hexp.
      destruct (IH g1 w1 w' r (fun x Hx => Hincl x (or_intror Hx)) Hnd' H) as (Hs2 & files & g' & Hex & Hin & Hg & Hf & Ho).
      split; [exact (same_trans Hs1 Hs2)|]. exists ((t, file_of (w_dest w1) (json_file dir t)) :: files), g'.
      assert (Hnt : forall x, In x (map fst files) -> json_file dir t <> json_file dir x).
      { intros x Hx F. apply json_file_inj in F. subst x. apply Hni. apply Hin. exact Hx. }
      split; [econstructor; eassumption|]. split; [intros x [<-|Hx]; [now left|right; apply Hin; exact Hx]|]. split; [exact Hg|]. split.
      * intros t' rows [Eq|Hin']; [injection Eq as <- <-|exact (Hf t' rows Hin')]. apply Ho. exact Hnt.
      * intros q Hq. rewrite (Ho q (fun x Hx => Hq x (or_intror Hx))). apply Ho1. exact (Hq t (or_introl eq_refl)).
    + destruct (copy_one_lines (Hincl t (or_introl eq_refl)) H1) as (Hs1 & Ho1 & Hor). split; [exact Hs1|]. destruct Hor as [(_ & Hsame)|(g2 & _ & Hexp)].
      * exists [], g. split; [constructor|]. split; [intros x []|]. split; [discriminate|]. split; [intros t' rows []|]. intros q _.
        destruct (eq_dec q (json_file dir t)) as [->|Hne]; [exact Hsame|exact (Ho1 q Hne)].
      * exists [(t, file_of (w_dest w') (json_file dir t))], g2. split; [constructor; exact Hexp|]. split; [intros x [<-|[]]; now left|]. split; [discriminate|]. split.
        -- intros t' rows [Eq|[]]. injection Eq as <- <-. reflexivity.
        -- intros q Hq. apply Ho1. exact (Hq t (or_introl eq_refl)).
Qed.
End Copy.

Theorem directory_run truncate create g w w' r : sc_output cfg = ToDirectory dir -> NoDup queries ->
  sample E cfg p truncate create g w = (w', r) ->
  same_db (w_dest w) (w_dest w') /\
  ((succeeded r = false /\ w' = w) \/
   exists ms compact st mults files g', computed_by E cfg p ms compact st mults /\
     exports E cfg p ms compact st mults (succeeded r) queries g files g' /\
     (forall t rows, In (t, rows) files -> file_of (w_dest w') (json_file dir t) = rows) /\
     (forall q, (forall t, In t (map fst files) -> q <> json_file dir t) -> file_of (w_dest w') q = file_of (w_dest w) q)).
Proof.
  intros Hout Hnd H. unfold sample in H.
  assert (Hstop : succeeded r = false -> w' = w -> same_db (w_dest w) (w_dest w') /\
    ((succeeded r = false /\ w' = w) \/
     exists ms compact st mults files g', computed_by E cfg p ms compact st mults /\
     exports E cfg p ms compact st mults (succeeded r) queries g files g' /\
     (forall t rows, In (t, rows) files -> file_of (w_dest w') (json_file dir t) = rows) /\
     (forall q, (forall t, In t (map fst files) -> q <> json_file dir t) -> file_of (w_dest w') q = file_of (w_dest w) q))).
  { intros Hr ->. split; [apply same_refl|]. left. split; [exact Hr|reflexivity]. }
  apply bind_io_inv in H. destruct H as [(w1 & ms & H1 & H)|(e & H1 & ->)]; [|apply Hstop; [reflexivity|now apply lift_inv in H1]].
  apply lift_inv in H1. destruct H1 as [-> Hms]. unfold of_meta in Hms. destruct (sampler_meta _ _ _ _) as [ms'|] eqn:Ems; [|discriminate]. injection Hms as ->.
  apply bind_io_inv in H. destruct H as [(w1 & u & H1 & H)|(e & H1 & ->)]; [|apply Hstop; [reflexivity|now apply lift_inv in H1]].
  apply lift_inv in H1. destruct H1 as [-> _].
  apply bind_io_inv in H. destruct H as [(w1 & mults & H1 & H)|(e & H1 & ->)]; [|apply Hstop; [reflexivity|now apply lift_inv in H1]].
  apply lift_inv in H1. destruct H1 as [-> Hmu]. unfold of_mult in Hmu. destruct (get_multiplied_columns _ _ _ _ _) as [mu'|] eqn:Emu; [|discriminate]. injection Hmu as ->.
  unfold open_output in H. rewrite Hout in H.
  apply bind_io_inv in H. destruct H as [(w1 & o & H1 & H)|(e & H1 & ->)]; [|discriminate]. unfold ret in H1. injection H1 as <- <-.
  apply bind_io_inv in H. destruct H as [(w1 & o & H1 & H)|(e & H1 & ->)]; [|destruct create; discriminate].
  assert (Eo : w = w1 /\ o = OutDirectory dir) by (destruct create; cbn in H1; unfold ret in H1; injection H1 as <- <-; split; reflexivity). destruct Eo as [<- ->]. clear H1.
  apply bind_io_inv in H. destruct H as [(w1 & order & H1 & H)|(e & H1 & ->)]; [|discriminate]. cbn in H1. apply lift_inv in H1. destruct H1 as [-> Ho]. injection Ho as <-.
  apply bind_io_inv in H. destruct H as [(w1 & u' & H1 & H)|(e & H1 & ->)]; [|destruct truncate; discriminate].
  assert (Eo : w = w1) by (destruct truncate; cbn in H1; unfold ret in H1; injection H1 as <- _; reflexivity). subst w1. clear H1.
  apply bind_io_inv in H. destruct H as [(w1 & o & H1 & H)|(e & H1 & ->)]; [|discriminate]. cbn in H1. unfold ret in H1. injection H1 as <- <-.
  apply bind_io_inv in H. destruct H as [(w1 & compact & H1 & H)|(e & H1 & ->)]; [|apply Hstop; [reflexivity|now apply lift_inv in H1]].
  apply lift_inv in H1. destruct H1 as [-> Hcc]. unfold of_samp in Hcc. destruct (get_compact_columns _ _ _ _ _) as [c'|] eqn:Ecc; [|discriminate]. injection Hcc as ->.
  apply bind_io_inv in H. destruct H as [(w1 & st & H1 & H)|(e & H1 & ->)]; [|apply Hstop; [reflexivity|now apply lift_inv in H1]].
  apply lift_inv in H1. destruct H1 as [-> Hst]. unfold of_samp in Hst. destruct (materialize_tables _ _ _ _ _ _ _ _ _ _ _ _) as [st'|] eqn:Est; [|discriminate]. injection Hst as ->.
  apply copy_results_lines in H; [|apply incl_refl|exact Hnd]. destruct H as (Hs & files & g' & Hex & _ & _ & Hf & Ho).
  split; [exact Hs|]. right. exists ms, compact, st, mults, files, g'. split; [|auto]. split; [exact Ems|]. split; [exact Emu|]. split; [exact Ecc|exact Est].
Qed.

Lemma exports_names ms compact st mults ts g files g' : exports E cfg p ms compact st mults true ts g files g' -> map fst files = ts.
Proof. remember true as b. induction 1; try discriminate; [reflexivity|]. cbn. f_equal. auto. Qed.
(** C57 *)
Theorem directory_files truncate create g w w' g' : sc_output cfg = ToDirectory dir -> NoDup queries ->
  sample E cfg p truncate create g w = (w', Ok g') ->
  exists ms compact st mults files g1, computed_by E cfg p ms compact st mults /\ map fst files = queries /\
    exports E cfg p ms compact st mults true queries g files g1 /\
    (forall t rows, In (t, rows) files -> file_of (w_dest w') (json_file dir t) = rows) /\
    (forall q, (forall t, In t queries -> q <> json_file dir t) -> file_of (w_dest w') q = file_of (w_dest w) q) /\ same_db (w_dest w) (w_dest w').
Proof.
  intros Hout Hnd H. destruct (directory_run Hout Hnd H) as (Hs & [(F & _)|(ms & compact & st & mults & files & g1 & Hc & Hex & Hf & Ho)]); [discriminate|].
  exists ms, compact, st, mults, files, g1. pose proof (exports_names Hex) as Hn. rewrite Hn in Ho. auto 8.
Qed.
End Directory.
