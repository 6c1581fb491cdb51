(** Properties C102 and C103: runs end complete, or for a reason of the destination. *)
From Coq Require Import Lia.
From Verif Require Import Model.Base Model.Value Model.Names Model.PlanModel Model.SqlAlgebra Model.Metadata Model.Planner Model.Filters Model.Multiply Model.Materialize Model.Dest Model.Output Model.Sampler.
From Verif Require Import Spec.GraphSpec Spec.SchemaSpec Spec.SqlSem Spec.PlannerSpec Spec.FilterSpec Spec.OutputSpec Spec.SampleSpec Spec.RunSpec Spec.WholeSpec Spec.CompactWholeSpec Spec.CompleteSpec.
From Verif Require Import Proofs.BaseFacts Proofs.NameFacts Proofs.MetadataMain Proofs.PlannerExamples Proofs.SampleFinal Proofs.SampleExamples Proofs.OutputExamples Proofs.WholeRun Proofs.WholeFk Proofs.WholeCompact Proofs.CompleteRun.
From Verif Require Spec.MultiplySpec Props.PlannerProps Props.WholeProps Props.WholeRunProps Props.CompactWholeProps.
From Verif Require Import Model.Dest.
Open Scope string_scope.
Open Scope list_scope.

Section Props.
Context {G : Type}.
Variables (E : env G) (cfg : sampler_config) (p : plan).

(** C102, where it holds: the configuration is one that can be carried out ([sound_run]), and the tables of the destination fit it
    ([fitting]); the output is a directory, or a database without merging.  Missing: see the refutations below. *)
Theorem C102_directory_partial : forall pcfg ms compact, sound_run E cfg p pcfg ms compact ->
  forall dir truncate create g w w' x, sc_output cfg = ToDirectory dir ->
  sample E cfg p truncate create g w = (w', Err x) ->
  w' = w \/ stopped_by_destination E cfg p truncate (w_dest w') x.
Proof. intros pcfg ms compact (H1 & H2 & H3 & H4 & H5 & H6 & H7 & H8) dir truncate create g w w' x H9 H10. exact (directory_run H1 H2 H3 H4 H5 H6 H7 H8 H9 H10). Qed.
Theorem C102_database_partial : forall pcfg ms compact, sound_run E cfg p pcfg ms compact ->
  forall c truncate create g w w' x, fitting E cfg p ms compact c (w_dest w) (w_dest w') ->
  sample E cfg p truncate create g w = (w', Err x) ->
  w' = w \/ stopped_by_destination E cfg p truncate (w_dest w') x.
Proof.
  intros pcfg ms compact (H1 & H2 & H3 & H4 & H5 & H6 & H7 & H8) c truncate create g w w' x (F1 & F2 & F3 & F4 & F5 & F6) H.
  exact (database_run H1 H2 H3 H4 H5 H6 H7 H8 F1 F2 F3 F4 F5 F6 H).
Qed.

(** C103, for files: if the file system cooperates, a run that passes the initial checks is carried out to the end. *)
Theorem C103_export_completes : forall pcfg ms compact, sound_run E cfg p pcfg ms compact ->
  forall dir truncate create g w, sc_output cfg = ToDirectory dir -> accepted E cfg p ms -> (forall d e, en_accepts E d e = true) ->
  exists w' g', sample E cfg p truncate create g w = (w', Ok g').
Proof. intros pcfg ms compact (H1 & H2 & H3 & H4 & H5 & H6 & H7 & H8) dir truncate create g w H9 H10 H11. exact (directory_completes H1 H2 H3 H4 H5 H6 H7 H8 truncate create g w H9 H10 H11). Qed.
(** C103, for databases: if the database cooperates and rows with a known key are skipped, a run succeeds or changes nothing. *)
Theorem C103_skipping_all_or_nothing : forall pcfg ms compact, sound_run E cfg p pcfg ms compact ->
  forall c truncate create g w w' r, fitting E cfg p ms compact c (w_dest w) (w_dest w') ->
  oc_strategy c = SSkip -> (forall tb, In tb (ds_tables (w_dest w')) -> tb_pk tb <> []) -> (forall d e, en_accepts E d e = true) ->
  sample E cfg p truncate create g w = (w', r) -> (exists g', r = Ok g') \/ w' = w.
Proof.
  intros pcfg ms compact (H1 & H2 & H3 & H4 & H5 & H6 & H7 & H8) c truncate create g w w' [g'|x] (F1 & F2 & F3 & F4 & F5 & F6) S1 S2 S3 H; [left; eauto|right].
  exact (skipping_run H1 H2 H3 H4 H5 H6 H7 H8 F1 F2 F3 F4 F5 F6 S1 S2 S3 H).
Qed.
End Props.
Print Assumptions C102_directory_partial.
Print Assumptions C102_database_partial.
Print Assumptions C103_export_completes.
Print Assumptions C103_skipping_all_or_nothing.

(** ** Cases: the plan of Props/PlannerProps.v; primary keys are renumbered, parents renamed and the children's pid cleared *)
Definition zenv (accepts : dest -> event -> bool) (int : tname -> string -> bool) : env unit :=
  Sampler.mkEnv ofilters PlannerProps.xfnm osub osets osets PlannerProps.xdb PlannerProps.xsource int (fun _ => false)
    PlannerProps.xcmp PlannerProps.xtext xraw xraw_cols xz xrank true odflt accepts (fun _ _ => false) (fun _ => None) (fun _ _ => true) none 1.
Definition zint (_ : tname) (_ : string) : bool := true.
Definition zout (s : strategy) : db_config := mkDbConfig SQLite CompactWholeProps.vremap s false.
Definition zcfg (o : output_config) (compact : dict string (list string)) : sampler_config :=
  mkSampler o [("a.child", [FcSimple (SfNull ["pid"])])] (mkMult 1 [] [] []) InferNone (mkCompact true false 1 compact).
Notation zplan := WholeRunProps.wplan.
Notation zbefore := WholeRunProps.wbefore.
Notation zmeta := (CompactWholeProps.ymeta PlannerProps.xdb zplan).
Definition no_children (_ : dest) (e : event) : bool := match e with EvInsert n _ _ => negb (eqb n ("a", "child")) | EvOpen f => negb (eqb f "out/a.child.json") | _ => true end.

Lemma z_filters accepts o compact : filters_work (zenv accepts zint) (zcfg o compact) zplan.
Proof.
  intros t tb chain cols r g (Ht & (n & Hn & Htb) & Hc) Hl. vm_compute in Ht. destruct Ht as [<-|[<-|[<-|[<-|[]]]]].
  1-3: cbv in Hc; injection Hc as <- <-; eexists; reflexivity.
  apply parse_named in Hn. vm_compute in Hn. injection Hn as <-. destruct Htb as [Hin Hname]. destruct Hin as [<-|[<-|[<-|[<-|[]]]]]; try discriminate Hname.
  cbv in Hc. injection Hc as <- <-. destruct r as [|a [|b [|]]]; try discriminate Hl. eexists. cbv. reflexivity.
Qed.
Lemma z_sound accepts o : sound_run (zenv accepts zint) (zcfg o []) zplan PlannerProps.cfgA zmeta CompactWholeProps.vcompact.
Proof.
  destruct (CompactWholeProps.yenv_ok PlannerProps.xdb PlannerProps.xsource) as [He Hn]. destruct WholeRunProps.C87_hypotheses as (_ & Hp & _).
  split; [exact He|]. split; [intros l; apply Permutation_refl|]. split; [exact Hn|]. split; [exact Hp|]. split; [exact CompactWholeProps.v_renumbers|]. split; [apply z_filters|]. split.
  - intros n k r _ Hr. cbn [zenv en_source] in Hr. unfold PlannerProps.xsource in Hr.
    repeat match type of Hr with In _ (if eqb n ?x then _ else _) => destruct (eqb n x) end; repeat (destruct Hr as [<-|Hr]); try destruct Hr;
      unfold rget; cbn [dget_or dget]; unfold dget_or; cbn [dget]; repeat match goal with |- context [eq_dec ?a ?b] => destruct (eq_dec a b) end; eauto.
  - intros Hgt. cbn in Hgt. lia.
Qed.
Example C102_directory_case : forall truncate create, let run := sample (zenv no_children zint) (zcfg (ToDirectory "out") []) zplan truncate create tt (odest [] [] []) in
  snd run = Err OxDbError /\ fst run <> odest [] [] [].
Proof. intros [] []; vm_compute; (split; [reflexivity|discriminate]). Qed.
Example C103_export_hypotheses : accepted (zenv yes zint) (zcfg (ToDirectory "out") []) zplan zmeta.
Proof.
  split; [|intros Hgt; cbn in Hgt; lia]. intros t fs [Eq|[]] _. injection Eq as <- <-. split; [exists ("a", "child"); apply parse_named; reflexivity|].
  intros n m Hn Hm. apply parse_named in Hn. vm_compute in Hn. injection Hn as <-. vm_compute in Hm. destruct Hm as [Hm|[Hm|[Hm|[Hm|[]]]]]; try discriminate Hm.
  injection Hm as <-. eexists. cbv. reflexivity.
Qed.

Lemma ranked_acyclic (R : tname -> tname -> Prop) (f : tname -> nat) : (forall a b, R a b -> f b < f a) -> forall n, ~ on_cycle R n.
Proof.
  intros Hf n Hn. assert (H : forall a b, path R a b -> f b < f a) by (induction 1 as [a b Hab|a b c _ IH1 _ IH2]; [auto|lia]). specialize (H n n Hn). lia.
Qed.
Lemma z_fitting accepts s truncate create :
  let run := sample (zenv accepts zint) (zcfg (ToDatabase (zout s)) []) zplan truncate create tt zbefore in
  ds_tables (w_dest (fst run)) = WholeRunProps.wtables ->
  fitting (zenv accepts zint) (zcfg (ToDatabase (zout s)) []) zplan zmeta CompactWholeProps.vcompact (zout s) (w_dest zbefore) (w_dest (fst run)).
Proof.
  intros run Ht. destruct (z_sound accepts (ToDatabase (zout s))) as (He & _ & _ & Hp & Hr & _). destruct WholeRunProps.C87_hypotheses as (_ & _ & _ & Hok & _).
  split; [|split; [intros Hd; discriminate Hd|split; [intros Hd; discriminate Hd|rewrite Ht; split; [|split; [|intros Hd; discriminate Hd]]]]].
  - constructor; [reflexivity|exact (ro_source Hok)|exact (ro_dest Hok)|exact (ro_order Hok)|exact (ro_plain Hok)|]. exact (CompactWholeProps.C96_columns _ _ _ PlannerProps.cfgA _ _ He Hp Hr).
  - apply (@ranked_acyclic _ (fun n => if eqb n ("a", "child") then 2 else if eqb n ("c", "elders") then 1 else 0)).
    intros a b (t & fk & [Hin Hn] & Hfk & Hd). destruct Hin as [<-|[<-|[<-|[]]]]; cbn in Hn, Hfk; try contradiction; destruct Hfk as [<-|[]]; subst a b; cbn; lia.
  - intros t tb chain cols n' tb' (Htq & (n & Hn & Htb) & Hc) Hgo Htb'. rewrite Ht in Htb'. vm_compute in Htq. destruct Htb as [Hin <-].
    destruct Htq as [<-|[<-|[<-|[<-|[]]]]]; apply parse_named in Hn; vm_compute in Hn; injection Hn as Hn; destruct Hin as [<-|[<-|[<-|[<-|[]]]]]; try discriminate Hn;
      apply parse_named in Hgo; vm_compute in Hgo; injection Hgo as <-; destruct Htb' as [Hin' Hn']; destruct Hin' as [<-|[<-|[<-|[]]]]; try discriminate Hn';
      cbv in Hc; injection Hc as <- <-; (split; [intros x Hx; cbn in Hx |- *; tauto|]); (split; [repeat constructor; intros []|]); intros k [<-|[]]; (split; [cbn; tauto|reflexivity]).
Qed.
Example C102_database_case : let run := sample (zenv no_children zint) (zcfg (ToDatabase (zout SError)) []) zplan true false tt zbefore in
  snd run = Err OxDbError /\ fst run <> zbefore /\ ds_tables (w_dest (fst run)) = WholeRunProps.wtables.
Proof. vm_compute. split; [reflexivity|]. split; [discriminate|reflexivity]. Qed.
Example C102_database_hypotheses : let run := sample (zenv no_children zint) (zcfg (ToDatabase (zout SError)) []) zplan true false tt zbefore in
  fitting (zenv no_children zint) (zcfg (ToDatabase (zout SError)) []) zplan zmeta CompactWholeProps.vcompact (zout SError) (w_dest zbefore) (w_dest (fst run)).
Proof. apply z_fitting. vm_compute. reflexivity. Qed.
Example C103_skipping_case : let run := sample (zenv yes zint) (zcfg (ToDatabase (zout SSkip)) []) zplan false false tt zbefore in
  snd run = Ok tt /\ fitting (zenv yes zint) (zcfg (ToDatabase (zout SSkip)) []) zplan zmeta CompactWholeProps.vcompact (zout SSkip) (w_dest zbefore) (w_dest (fst run)) /\
  (forall tb, In tb (ds_tables (w_dest (fst run))) -> tb_pk tb <> []) /\ rows_of (w_dest (fst run)) ("c", "elders") = [ [("pid", VInt 1); ("gid", VInt 1)] ].
Proof.
  split; [vm_compute; reflexivity|]. split; [apply z_fitting; vm_compute; reflexivity|]. split; [|vm_compute; reflexivity].
  intros tb Hin. vm_compute in Hin. destruct Hin as [<-|[<-|[<-|[]]]]; discriminate.
Qed.

(** Merging, without filters: the key of the group is taken, so that the new one and the references to it are shifted. *)
Definition zmout (s : strategy) : db_config := mkDbConfig SQLite CompactWholeProps.vremap s true.
Definition zmcfg (s : strategy) : sampler_config := mkSampler (ToDatabase (zmout s)) [] (mkMult 1 [] [] []) InferNone (mkCompact true false 1 []).
Lemma zm_sound accepts s : sound_run (zenv accepts zint) (zmcfg s) zplan PlannerProps.cfgA zmeta CompactWholeProps.vcompact.
Proof.
  destruct (z_sound accepts (ToDatabase (zmout s))) as (He & H1 & Hn & Hp & Hr & _ & Hi & _).
  split; [exact He|]. split; [exact H1|]. split; [exact Hn|]. split; [exact Hp|]. split; [exact Hr|]. split; [|split; [exact Hi|intros Hgt; cbn in Hgt; lia]].
  intros t tb chain cols r g (_ & _ & Hc) _. cbv in Hc. injection Hc as <- <-. eexists. reflexivity.
Qed.
Lemma zm_fitting accepts s d' : ds_tables d' = WholeRunProps.wtables ->
  fitting (zenv accepts zint) (zmcfg s) zplan zmeta CompactWholeProps.vcompact (zmout s) (w_dest zbefore) d'.
Proof.
  intros Ht. destruct (zm_sound accepts s) as (He & _ & _ & Hp & Hr & _ & Hi & _). destruct WholeRunProps.C87_hypotheses as (_ & _ & _ & Hok & _).
  split; [|split; [|split; [intros Hd; discriminate Hd|rewrite Ht; split; [|split; [|intros Hd; discriminate Hd]]]]].
  - constructor; [reflexivity|exact (ro_source Hok)|exact (ro_dest Hok)|exact (ro_order Hok)|exact (ro_plain Hok)|]. exact (CompactWholeProps.C96_columns _ _ _ PlannerProps.cfgA _ _ He Hp Hr).
  - intros _ t n Htq Hnp Hn. split; [|split].
    + vm_compute in Htq. rewrite Ht. destruct Htq as [<-|[<-|[<-|[<-|[]]]]]; [elim Hnp; vm_compute; tauto|..]; apply parse_named in Hn; vm_compute in Hn; injection Hn as <-;
        (eexists; eexists; split; [apply parse_named; vm_compute; reflexivity|]); first [split; [left; reflexivity|reflexivity]|split; [right; left; reflexivity|reflexivity]|split; [right; right; left; reflexivity|reflexivity]].
    + intros fk k (ms & m & Hms & Hm & Hfk) _. vm_compute in Hms. injection Hms as <-. vm_compute in Htq.
      destruct Htq as [<-|[<-|[<-|[<-|[]]]]]; [elim Hnp; vm_compute; tauto|..]; apply parse_named in Hn; vm_compute in Hn; injection Hn as <-; vm_compute in Hm; injection Hm as <-; vm_compute in Hfk;
        try contradiction; destruct Hfk as [<-|[]]; [exists "b.grp"%string|exists "a.parent"%string]; (split; [vm_compute; tauto|apply parse_named; reflexivity]).
    + intros n' k _ _. split; [intros f []|]. intros r Hrow. exact (Hi n k r eq_refl Hrow).
  - apply (@ranked_acyclic _ (fun n => if eqb n ("a", "child") then 2 else if eqb n ("c", "elders") then 1 else 0)).
    intros a b (t & fk & [Hin Hn] & Hfk & Hd). destruct Hin as [<-|[<-|[<-|[]]]]; cbn in Hn, Hfk; try contradiction; destruct Hfk as [<-|[]]; subst a b; cbn; lia.
  - intros t tb chain cols n' tb' (Htq & (n & Hn & Htb) & Hc) Hgo Htb'. rewrite Ht in Htb'. vm_compute in Htq. destruct Htb as [Hin <-].
    destruct Htq as [<-|[<-|[<-|[<-|[]]]]]; apply parse_named in Hn; vm_compute in Hn; injection Hn as Hn; destruct Hin as [<-|[<-|[<-|[<-|[]]]]]; try discriminate Hn;
      apply parse_named in Hgo; vm_compute in Hgo; injection Hgo as <-; destruct Htb' as [Hin' Hn']; destruct Hin' as [<-|[<-|[<-|[]]]]; try discriminate Hn';
      cbv in Hc; injection Hc as <- <-; (split; [intros x Hx; cbn in Hx |- *; tauto|]); (split; [repeat constructor; intros []|]); intros k [<-|[]]; (split; [cbn; tauto|reflexivity]).
Qed.
Example C102_merge_case : let run := sample (zenv no_children zint) (zmcfg SError) zplan false false tt zbefore in
  snd run = Err OxDbError /\ fst run <> zbefore /\
  fitting (zenv no_children zint) (zmcfg SError) zplan zmeta CompactWholeProps.vcompact (zmout SError) (w_dest zbefore) (w_dest (fst run)) /\
  rows_of (w_dest (fst run)) ("c", "elders") = [ [("pid", VInt 1); ("gid", VInt 102)] ].
Proof. split; [vm_compute; reflexivity|]. split; [vm_compute; discriminate|]. split; [apply zm_fitting; vm_compute; reflexivity|vm_compute; reflexivity]. Qed.

(** ** Refutations of the full claim *)
(** *** Merging: a planned table that the destination lacks is noticed only after the other tables have been emptied. *)
Definition childless : world := odest (tl WholeRunProps.wtables) [(("b", "grp"), [ [("gid", VInt 100)] ])] [].
Theorem C102_merge_refuted : exists (E : env unit) cfg c p pcfg ms compact w w' x,
  sound_run E cfg p pcfg ms compact /\ run_ok E cfg c p (w_dest w) /\ strategy_supported p c /\
  (forall n, ~ on_cycle (references (ds_tables (w_dest w'))) n) /\ columns_fit E cfg p c (w_dest w') /\ sequences_fit E cfg p ms compact c /\ (forall d e, en_accepts E d e = true) /\
  sample E cfg p true false tt w = (w', Err x) /\ x <> OxDbError /\ rows_of (w_dest w) ("b", "grp") <> [] /\ rows_of (w_dest w') ("b", "grp") = [].
Proof.
  exists (zenv yes zint), (zmcfg SError), (zmout SError), zplan, PlannerProps.cfgA, zmeta, CompactWholeProps.vcompact, childless,
    (fst (sample (zenv yes zint) (zmcfg SError) zplan true false tt childless)), OxKeyError.
  split; [apply zm_sound|]. destruct (zm_fitting yes SError (w_dest zbefore) eq_refl) as (Hok & _ & Hst & Hcyc & Hfit & Hseq).
  assert (Ht : ds_tables (w_dest (fst (sample (zenv yes zint) (zmcfg SError) zplan true false tt childless))) = tl WholeRunProps.wtables) by (vm_compute; reflexivity).
  split. { constructor; [reflexivity|exact (ro_source Hok)|apply db_okb_true; vm_compute; reflexivity|exact (ro_order Hok)|exact (ro_plain Hok)|exact (ro_columns Hok)]. }
  split; [exact Hst|]. rewrite Ht. split.
  { apply (@ranked_acyclic _ (fun n => if eqb n ("c", "elders") then 1 else 0)).
    intros a b (t & fk & [Hin Hn] & Hfk & Hd). destruct Hin as [<-|[<-|[]]]; cbn in Hn, Hfk; try contradiction; destruct Hfk as [<-|[]]; subst a b; cbn; lia. }
  split. { intros t tb chain cols n' tb' Hch Hgo [Hin Hn]. rewrite Ht in Hin. apply (Hfit t tb chain cols n' tb' Hch Hgo). split; [right; exact Hin|exact Hn]. }
  split; [exact Hseq|]. split; [reflexivity|]. split; [vm_compute; reflexivity|]. split; [discriminate|]. split; [vm_compute; discriminate|vm_compute; reflexivity].
Qed.
(** *** A table without its schema in [compact.columns] is noticed only after the tables have been emptied. *)
Theorem C102_compaction_refuted : exists (E : env unit) cfg c p pcfg w w' x,
  env_ok E /\ numbers_rows E /\ planned_by E p pcfg /\ run_ok E cfg c p (w_dest w) /\ (forall d e, en_accepts E d e = true) /\ filters_work E cfg p /\ integers E /\
  columns_fit E cfg p c (w_dest w') /\
  sample E cfg p true false tt w = (w', Err x) /\ x <> OxDbError /\ rows_of (w_dest w) ("a", "child") <> [] /\ rows_of (w_dest w') ("a", "child") = [].
Proof.
  set (bad := zcfg (ToDatabase (zout SError)) [("child", ["id"])]).
  exists (zenv yes zint), bad, (zout SError), zplan, PlannerProps.cfgA, zbefore, (fst (sample (zenv yes zint) bad zplan true false tt zbefore)), (OxSample SxValueError).
  destruct (z_sound yes (ToDatabase (zout SError))) as (He & _ & Hn & Hp & Hr & _ & Hi & _). destruct WholeRunProps.C87_hypotheses as (_ & _ & _ & Hok & _).
  split; [exact He|]. split; [exact Hn|]. split; [exact Hp|]. split.
  { constructor; [reflexivity|exact (ro_source Hok)|exact (ro_dest Hok)|exact (ro_order Hok)|exact (ro_plain Hok)|]. intros ms compact st mults t co (_ & _ & Hc & _). cbv in Hc. discriminate Hc. }
  split; [reflexivity|]. split; [apply z_filters|]. split; [exact Hi|]. split.
  { intros t tb chain cols n' tb' Hch Hgo Htb.
    destruct (z_fitting yes SError true false ltac:(vm_compute; reflexivity)) as (_ & _ & _ & _ & Hfit & _).
    refine (Hfit t tb chain cols n' tb' Hch Hgo _).
    replace (ds_tables (w_dest (fst (sample (zenv yes zint) (zcfg (ToDatabase (zout SError)) []) zplan true false tt zbefore)))) with WholeRunProps.wtables by (vm_compute; reflexivity).
    replace (ds_tables (w_dest (fst (sample (zenv yes zint) bad zplan true false tt zbefore)))) with WholeRunProps.wtables in Htb by (vm_compute; reflexivity). exact Htb. }
  split; [vm_compute; reflexivity|]. split; [discriminate|]. split; [vm_compute; discriminate|vm_compute; reflexivity].
Qed.
(** *** A table of the destination without one of the columns is noticed only after other tables have been written. *)
Definition narrow : list table :=
  [ mkTable ("a", "child") ["id"; "note"] ["id"] [mkFK ["note"] ("c", "elders") ["pid"]] [];
    mkTable ("c", "elders") ["pid"; "gid"] ["pid"] [mkFK ["gid"] ("b", "grp") ["gid"]] [];
    mkTable ("b", "grp") ["gid"] ["gid"] [] [] ].
Theorem C102_columns_refuted : exists (E : env unit) cfg c p pcfg ms compact w w' x,
  sound_run E cfg p pcfg ms compact /\ run_ok E cfg c p (w_dest w) /\ merges_fit E cfg p c (w_dest w') /\ strategy_supported p c /\ (forall n, ~ on_cycle (references (ds_tables (w_dest w'))) n) /\
  sequences_fit E cfg p ms compact c /\ (forall d e, en_accepts E d e = true) /\
  sample E cfg p true false tt w = (w', Err x) /\ x <> OxDbError /\ rows_of (w_dest w) ("c", "elders") = [] /\ rows_of (w_dest w') ("c", "elders") <> [].
Proof.
  exists (zenv yes zint), (zcfg (ToDatabase (zout SError)) []), (zout SError), zplan, PlannerProps.cfgA, zmeta, CompactWholeProps.vcompact, (odest narrow [] []),
    (fst (sample (zenv yes zint) (zcfg (ToDatabase (zout SError)) []) zplan true false tt (odest narrow [] []))), OxValueError.
  assert (Hs := z_sound yes (ToDatabase (zout SError))). split; [exact Hs|]. destruct Hs as (He & _ & _ & Hp & Hr & _). destruct WholeRunProps.C87_hypotheses as (_ & _ & _ & Hok & _).
  split.
  { constructor; [reflexivity|exact (ro_source Hok)|apply db_okb_true; vm_compute; reflexivity|exact (ro_order Hok)|exact (ro_plain Hok)|]. exact (CompactWholeProps.C96_columns _ _ _ PlannerProps.cfgA _ _ He Hp Hr). }
  split; [intros Hd; discriminate Hd|]. split; [intros Hd; discriminate Hd|]. split.
  { replace (ds_tables (w_dest (fst (sample (zenv yes zint) (zcfg (ToDatabase (zout SError)) []) zplan true false tt (odest narrow [] []))))) with narrow by (vm_compute; reflexivity).
    apply (@ranked_acyclic _ (fun n => if eqb n ("a", "child") then 2 else if eqb n ("c", "elders") then 1 else 0)).
    intros a b (t & fk & [Hin Hn] & Hfk & Hd). destruct Hin as [<-|[<-|[<-|[]]]]; cbn in Hn, Hfk; try contradiction; destruct Hfk as [<-|[]]; subst a b; cbn; lia. }
  split; [intros Hd; discriminate Hd|]. split; [reflexivity|]. split; [vm_compute; reflexivity|]. split; [discriminate|]. split; [reflexivity|vm_compute; discriminate].
Qed.
Print Assumptions C102_compaction_refuted.
Print Assumptions C102_columns_refuted.
Print Assumptions C102_merge_refuted.
