(** Properties C98 to C101: foreign keys between the destination tables after runs that multiply, merge, replace or skip rows. *)
From Coq Require Import Lia.
From Verif Require Import Model.Base Model.Value Model.Names Model.PlanModel Model.SqlAlgebra Model.Metadata Model.Planner Model.Filters Model.Multiply Model.Materialize Model.Dest Model.Output Model.Sampler.
From Verif Require Import Spec.GraphSpec Spec.SchemaSpec Spec.SqlSem Spec.PlannerSpec Spec.FilterSpec Spec.OutputSpec Spec.SampleSpec Spec.RunSpec Spec.WholeSpec Spec.CompactWholeSpec Spec.CopiesSpec.
From Verif Require Import Proofs.BaseFacts Proofs.NameFacts Proofs.MetadataMain Proofs.PlannerExamples Proofs.SampleFinal Proofs.SampleExamples Proofs.OutputExamples Proofs.WholeRun Proofs.WholeFk Proofs.WholeCopies.
From Verif Require Spec.MultiplySpec Props.PlannerProps Props.WholeProps Props.WholeRunProps Props.CompactWholeProps.
From Verif Require Import Model.Dest.
Open Scope string_scope.
Open Scope list_scope.

Section Props.
Context {G : Type}.
Variables (E : env G) (cfg : sampler_config) (c : db_config) (p : plan).
Notation rows w n := (rows_of (w_dest w) n).

(** C98, where it holds: the foreign key refers to primary key columns with the same names.  Missing: see the refutation below. *)
Theorem C98_multiplied_consistent_partial : forall pcfg truncate w w', whole_run E cfg c p pcfg truncate w w' ->
  no_compaction (sc_compact cfg) -> oc_merge c = false -> oc_strategy c = SError ->
  forall fk t td n n' nd' tb tbd, considered (en_fnm E) pcfg (en_source_schema E) n fk ->
  copied_to E cfg c p w' t n n' tb (fk_cols fk) -> copied_to E cfg c p w' td (fk_dst fk) nd' tbd (fk_dst_cols fk) ->
  fk_holds (en_cmp E) fk (starting truncate w n') (starting truncate w nd') -> same_named_key E cfg p n td fk ->
  fk_holds (en_cmp E) fk (rows w' n') (rows w' nd').
Proof. intros pcfg truncate w w' H1 H2 H3 H4 fk t td n n' nd' tb tbd H5 H6 H7 H8 H9. exact (multiplied_consistent H1 H2 H3 H4 H5 H6 H7 H8 H9). Qed.

(** C99, where it holds: the foreign key has one column, which refers only to the integer primary key of a merged table, and
    that key is not itself a reference.  Missing: see the refutation below. *)
Theorem C99_merged_consistent_partial : forall pcfg truncate w w', whole_run E cfg c p pcfg truncate w w' ->
  no_compaction (sc_compact cfg) -> (mc_multiplier (sc_multiplicity cfg) <= 1)%Z -> oc_strategy c = SError ->
  forall fk t td n n' nd' tb tbd k dk, considered (en_fnm E) pcfg (en_source_schema E) n fk -> fk_cols fk = [k] -> fk_dst_cols fk = [dk] ->
  copied_to E cfg c p w' t n n' tb (fk_cols fk) -> copied_to E cfg c p w' td (fk_dst fk) nd' tbd (fk_dst_cols fk) ->
  fk_holds (en_cmp E) fk (starting truncate w n') (starting truncate w nd') ->
  fresh_key E cfg c p (ds_tables (w_dest w')) td (fk_dst fk) nd' dk ->
  refers_fresh E cfg c p (starting truncate w) (ds_tables (w_dest w')) t n n' k (fk_dst fk) nd' dk ->
  fk_holds (en_cmp E) fk (rows w' n') (rows w' nd').
Proof. intros pcfg truncate w w' H1 H2 H3 H4 fk t td n n' nd' tb tbd k dk H5 H6 H7 H8 H9 H10 H11 H12. exact (merged_consistent H1 H2 H3 H4 H5 H6 H7 H8 H9 H10 H11 H12). Qed.

(** C100, where it holds: when rows are replaced or skipped, the foreign key refers to primary key columns of a table without other
    unique keys, and a table whose rows are replaced has no other unique keys.  Missing: see the refutation below. *)
Theorem C100_strategies_consistent_partial : forall pcfg truncate w w', whole_run E cfg c p pcfg truncate w w' ->
  no_compaction (sc_compact cfg) -> (mc_multiplier (sc_multiplicity cfg) <= 1)%Z -> oc_merge c = false ->
  forall fk t td n n' nd' tb tbd, considered (en_fnm E) pcfg (en_source_schema E) n fk ->
  copied_to E cfg c p w' t n n' tb (fk_cols fk) -> copied_to E cfg c p w' td (fk_dst fk) nd' tbd (fk_dst_cols fk) ->
  fk_holds (en_cmp E) fk (starting truncate w n') (starting truncate w nd') ->
  (oc_strategy c <> SError -> incl (fk_dst_cols fk) (tb_pk tbd) /\ tb_uniques tbd = []) -> (oc_strategy c = SReplace -> tb_uniques tb = []) ->
  fk_holds (en_cmp E) fk (rows w' n') (rows w' nd').
Proof. intros pcfg truncate w w' H1 H2 H3 H4 fk t td n n' nd' tb tbd H5 H6 H7 H8 H9 H10. exact (strategy_consistent H1 H2 H3 H4 H5 H6 H7 H8 H9 H10). Qed.

(** C101 *)
Theorem C101_alike_consistent : forall pcfg truncate w w', whole_run E cfg c p pcfg truncate w w' -> forall fk t td n n' nd' tb tbd,
  considered (en_fnm E) pcfg (en_source_schema E) n fk ->
  copied_to E cfg c p w' t n n' tb (fk_cols fk) -> copied_to E cfg c p w' td (fk_dst fk) nd' tbd (fk_dst_cols fk) ->
  fk_holds (en_cmp E) fk (starting truncate w n') (starting truncate w nd') ->
  replaced_by_key c p t tb -> found_by_key c p td tbd (fk_dst_cols fk) -> renumbered_alike E cfg p n fk ->
  (forall a b, In (a, b) (combine (fk_cols fk) (fk_dst_cols fk)) ->
     multiplied_alike E cfg p t a td b /\ shifted_alike E cfg c p (starting truncate w) (ds_tables (w_dest w')) t n n' a td (fk_dst fk) nd' b) ->
  fk_holds (en_cmp E) fk (rows w' n') (rows w' nd').
Proof. intros pcfg truncate w w' H1 fk t td n n' nd' tb tbd H2 H3 H4 H5 H6 H7 H8 H9. exact (all_alike H1 H2 H3 H4 H5 H6 H7 H8 H9). Qed.
End Props.
Print Assumptions C98_multiplied_consistent_partial.
Print Assumptions C99_merged_consistent_partial.
Print Assumptions C100_strategies_consistent_partial.
Print Assumptions C101_alike_consistent.

(** ** Cases: the plan of Props/PlannerProps.v; parents are renamed, and other rows exist *)
Notation kenv := CompactWholeProps.yenv.
Definition kout (remap : dict string string) (s : strategy) (merge : bool) : db_config := mkDbConfig MySQL remap s merge.
Definition kcfg (o : db_config) (m : Z) (compact : bool) : sampler_config := mkSampler (ToDatabase o) [] (mkMult m [] [] []) InferNone (mkCompact compact false 1 []).
Lemma xcmp_arith : eq_arithmetic PlannerProps.xcmp.
Proof. intros a b m i a' b' H Ha Hb. apply (proj1 (eqb_true _ _)) in H. subst b. rewrite Ha in Hb. injection Hb as <-. apply eqb_refl. Qed.
Lemma k_columns db source p pcfg o m : planned_by (kenv db source) p pcfg -> distinct_columns (kenv db source) (kcfg o m false) p.
Proof. intros Hp. refine (planned_distinct (proj1 (CompactWholeProps.yenv_ok db source)) Hp _). repeat split. Qed.
Lemma k_run db source p pcfg o m compact truncate (w : world) : planned_by (kenv db source) p pcfg -> distinct_columns (kenv db source) (kcfg o m compact) p ->
  db_okb (ds_tables (w_dest w)) = true -> trace w = [] -> source_consistent PlannerProps.xfnm pcfg db PlannerProps.xcmp source ->
  (forall n g, is_target pcfg n g -> tg_all g = true -> tg_amount g = None) ->
  snd (sample (kenv db source) (kcfg o m compact) p truncate false tt w) = Ok tt ->
  whole_run (kenv db source) (kcfg o m compact) o p pcfg truncate w (fst (sample (kenv db source) (kcfg o m compact) p truncate false tt w)).
Proof.
  intros Hp Hd Hdb Hnil Hsc Hall Ha. split; [apply CompactWholeProps.yenv_ok|]. split; [exact Hp|]. split.
  { destruct Hp as (_ & _ & Hs & _). constructor; [reflexivity|exact Hs|apply db_okb_true; exact Hdb|intros l; apply Permutation_refl|intros n s _; apply eqb_true|exact Hd]. }
  split; [exact Hnil|]. split; [apply PlannerProps.xcmp_sym|]. split; [exact xcmp_arith|]. split; [exact Hsc|]. split; [exact Hall|].
  exists false, tt, tt. destruct (sample _ _ _ _ _ _ _) as [w' r]. cbn [fst snd] in *. rewrite Ha. reflexivity.
Qed.

Notation xenv := (kenv PlannerProps.xdb PlannerProps.xsource).
Notation xplan := WholeRunProps.wplan.
Notation xremap := CompactWholeProps.vremap.
(** The destination: the child 1 of the parent 10 in the group 100, and a group 200. *)
Definition xbefore : world := odest WholeRunProps.wtables
  [(("a", "child"), [ [("pid", VInt 10); ("id", VInt 1); ("note", VStr "old")] ]); (("c", "elders"), [ [("pid", VInt 10); ("gid", VInt 100)] ]);
   (("b", "grp"), [ [("gid", VInt 100)]; [("gid", VInt 200)] ])] [].
Definition xafter (s : strategy) (merge : bool) (m : Z) (compact truncate : bool) : world * res out_exn unit :=
  sample xenv (kcfg (kout xremap s merge) m compact) xplan truncate false tt xbefore.
Notation xrows s merge m compact truncate n := (rows_of (w_dest (fst (xafter s merge m compact truncate))) n).
(** Three copies, the table emptied. *)
Example C98_case : snd (xafter SError false 3 false true) = Ok tt /\
  xrows SError false 3 false true ("a", "child") =
    [ [("pid", VInt 30); ("id", VInt 3); ("note", VNull)]; [("pid", VInt 31); ("id", VInt 4); ("note", VNull)]; [("pid", VInt 32); ("id", VInt 5); ("note", VNull)] ] /\
  xrows SError false 3 false true ("c", "elders") = [ [("pid", VInt 30); ("gid", VInt 300)]; [("pid", VInt 31); ("gid", VInt 301)]; [("pid", VInt 32); ("gid", VInt 302)] ].
Proof. vm_compute. repeat split. Qed.
(** Merged: parent 10 becomes 21, its child 1 becomes 3. *)
Example C99_case : snd (xafter SError true 1 false false) = Ok tt /\
  xrows SError true 1 false false ("a", "child") = [ [("pid", VInt 10); ("id", VInt 1); ("note", VStr "old")]; [("pid", VInt 21); ("id", VInt 3); ("note", VNull)] ] /\
  xrows SError true 1 false false ("c", "elders") = [ [("pid", VInt 10); ("gid", VInt 100)]; [("pid", VInt 21); ("gid", VInt 301)] ].
Proof. vm_compute. repeat split. Qed.
(** Skipped or replaced. *)
Example C100_case : snd (xafter SSkip false 1 false false) = Ok tt /\ snd (xafter SReplace false 1 false false) = Ok tt /\
  xrows SSkip false 1 false false ("a", "child") = [ [("pid", VInt 10); ("id", VInt 1); ("note", VStr "old")] ] /\
  xrows SReplace false 1 false false ("c", "elders") = [ [("pid", VInt 10); ("gid", VInt 100)] ].
Proof. vm_compute. repeat split. Qed.
(** Renumbered (10 becomes 1), copied twice (2 and 3) and merged (13 and 14). *)
Example C101_case : snd (xafter SError true 2 true false) = Ok tt /\
  xrows SError true 2 true false ("a", "child") = [ [("pid", VInt 10); ("id", VInt 1); ("note", VStr "old")]; [("pid", VInt 13); ("id", VInt 4); ("note", VNull)]; [("pid", VInt 14); ("id", VInt 5); ("note", VNull)] ] /\
  xrows SError true 2 true false ("c", "elders") = [ [("pid", VInt 10); ("gid", VInt 100)]; [("pid", VInt 13); ("gid", VInt 203)]; [("pid", VInt 14); ("gid", VInt 204)] ].
Proof. vm_compute. repeat split. Qed.

Definition xfk : fkey := mkFK ["pid"] ("a", "parent") ["pid"].
Lemma x_run s merge m compact truncate : distinct_columns xenv (kcfg (kout xremap s merge) m compact) xplan ->
  snd (xafter s merge m compact truncate) = Ok tt ->
  whole_run xenv (kcfg (kout xremap s merge) m compact) (kout xremap s merge) xplan PlannerProps.cfgA truncate xbefore (fst (xafter s merge m compact truncate)).
Proof.
  intros Hd Ha. destruct WholeRunProps.C87_hypotheses as (_ & Hp & _ & _ & _ & _ & _ & Hsc & Hall & _).
  exact (k_run PlannerProps.xdb PlannerProps.xsource xplan PlannerProps.cfgA (kout xremap s merge) m compact truncate xbefore Hp Hd (eq_refl : db_okb WholeRunProps.wtables = true) eq_refl Hsc Hall Ha).
Qed.
Lemma x_columns s merge m : distinct_columns xenv (kcfg (kout xremap s merge) m false) xplan.
Proof. destruct WholeRunProps.C87_hypotheses as (_ & Hp & _). exact (k_columns _ _ _ _ _ _ Hp). Qed.
Lemma x_columns_compact s merge m : distinct_columns xenv (kcfg (kout xremap s merge) m true) xplan.
Proof.
  destruct WholeRunProps.C87_hypotheses as (_ & Hp & _).
  refine (CompactWholeProps.C96_columns xenv (kcfg (kout xremap s merge) m true) xplan PlannerProps.cfgA _ _ (proj1 (CompactWholeProps.yenv_ok _ _)) Hp _). exact CompactWholeProps.v_renumbers.
Qed.
Lemma x_arrive s merge m compact truncate : ds_tables (w_dest (fst (xafter s merge m compact truncate))) = WholeRunProps.wtables ->
  copied_to xenv (kcfg (kout xremap s merge) m compact) (kout xremap s merge) xplan (fst (xafter s merge m compact truncate)) "a.child" ("a", "child") ("a", "child")
    (mkTable ("a", "child") ["pid"; "id"; "note"] ["id"] [mkFK ["pid"] ("c", "elders") ["pid"]] []) ["pid"] /\
  copied_to xenv (kcfg (kout xremap s merge) m compact) (kout xremap s merge) xplan (fst (xafter s merge m compact truncate)) "a.parent" ("a", "parent") ("c", "elders")
    (mkTable ("c", "elders") ["pid"; "gid"] ["pid"] [mkFK ["gid"] ("b", "grp") ["gid"]] []) ["pid"].
Proof.
  intros Hs. split; (split; [vm_compute; tauto|]); (split; [apply parse_named; reflexivity|]); (split; [apply parse_named; reflexivity|]); rewrite Hs;
    (split; [split; [cbn; tauto|reflexivity]|intros k _; split; [intros f []|reflexivity]]).
Qed.
Lemma x_starts truncate : fk_holds PlannerProps.xcmp xfk (starting truncate xbefore ("a", "child")) (starting truncate xbefore ("c", "elders")).
Proof.
  destruct truncate; [intros r []|]. intros r Hr _. vm_compute in Hr. destruct Hr as [<-|[]]. eexists. split; [vm_compute; left; reflexivity|].
  constructor; [vm_compute; repeat split; discriminate|constructor].
Qed.
Lemma x_source_fks n fk m s merge compact : source_fk xenv (kcfg (kout xremap s merge) m compact) xplan n fk ->
  n = ("a", "child") /\ fk = xfk \/ n = ("a", "parent") /\ fk = mkFK ["gid"] ("b", "grp") ["gid"].
Proof.
  intros (ms & mt & Hms & Hm & Hf). vm_compute in Hms. injection Hms as <-. apply dget_In in Hm.
  destruct Hm as [Eq|[Eq|[Eq|[Eq|[]]]]]; inversion Eq; subst; cbn in Hf; try contradiction; destruct Hf as [<-|[]]; auto.
Qed.
Lemma x_fresh s m compact truncate : ds_tables (w_dest (fst (xafter s true m compact truncate))) = WholeRunProps.wtables ->
  fresh_key xenv (kcfg (kout xremap s true) m compact) (kout xremap s true) xplan (ds_tables (w_dest (fst (xafter s true m compact truncate)))) "a.parent" ("a", "parent") ("c", "elders") "pid" /\
  refers_fresh xenv (kcfg (kout xremap s true) m compact) (kout xremap s true) xplan (starting truncate xbefore) (ds_tables (w_dest (fst (xafter s true m compact truncate))))
    "a.child" ("a", "child") ("a", "child") "pid" ("a", "parent") ("c", "elders") "pid".
Proof.
  intros Hs. rewrite Hs.
  assert (Hf : fresh_key xenv (kcfg (kout xremap s true) m compact) (kout xremap s true) xplan WholeRunProps.wtables "a.parent" ("a", "parent") ("c", "elders") "pid").
  { split; [vm_compute; tauto|]. split; [vm_compute; intros [Eq|[]]; discriminate Eq|]. split; [apply parse_named; reflexivity|]. split; [apply parse_named; reflexivity|].
    split; [eexists; split; [split; [right; left; reflexivity|reflexivity]|split; reflexivity]|]. split.
    - intros tb [Hi Hn]. destruct Hi as [<-|[<-|[<-|[<-|[]]]]]; try discriminate Hn. reflexivity.
    - intros fk Hfk. destruct (x_source_fks _ _ _ _ _ _ Hfk) as [[Eq _]|[_ ->]]; discriminate. }
  split; [exact Hf|]. split; [vm_compute; tauto|]. split; [vm_compute; intros [Eq|[]]; discriminate Eq|]. split; [apply parse_named; reflexivity|]. split; [apply parse_named; reflexivity|].
  split; [exists "a.parent"; exact Hf|]. split.
  { exists xfk. split; [|reflexivity]. eexists _, _. split; [vm_compute; reflexivity|]. split; [vm_compute; reflexivity|left; reflexivity]. }
  split; [intros fk Hfk Hk; destruct (x_source_fks _ _ _ _ _ _ Hfk) as [[_ ->]|[Eq _]]; [split; reflexivity|discriminate Eq]|].
  eexists. split; [split; [left; reflexivity|reflexivity]|]. left. discriminate.
Qed.
Lemma x_same_named m : same_named_key xenv (kcfg (kout xremap SError false) m false) xplan ("a", "child") "a.parent" xfk.
Proof.
  split; [eexists _, _; split; [vm_compute; reflexivity|]; split; [vm_compute; reflexivity|left; reflexivity]|]. split; [reflexivity|].
  split; [vm_compute; intros [Eq|[]]; discriminate Eq|]. split; [intros []|]. split; [|intros k _ []].
  intros tb [Hi Hn]. destruct Hi as [<-|[<-|[<-|[<-|[]]]]]; try discriminate Hn. intros k Hk. exact Hk.
Qed.

(** The hypotheses of C98, C99, C100 and C101 hold of these runs. *)
Example C98_hypotheses :
  whole_run xenv (kcfg (kout xremap SError false) 3 false) (kout xremap SError false) xplan PlannerProps.cfgA true xbefore (fst (xafter SError false 3 false true)) /\
  no_compaction (sc_compact (kcfg (kout xremap SError false) 3 false)) /\
  considered PlannerProps.xfnm PlannerProps.cfgA PlannerProps.xdb ("a", "child") xfk /\
  same_named_key xenv (kcfg (kout xremap SError false) 3 false) xplan ("a", "child") "a.parent" xfk.
Proof.
  split; [apply x_run; [apply x_columns|vm_compute; reflexivity]|]. split; [repeat split|]. split; [apply PlannerProps.x_fk1|apply x_same_named].
Qed.
Example C98_consequence : fk_holds PlannerProps.xcmp xfk (xrows SError false 3 false true ("a", "child")) (xrows SError false 3 false true ("c", "elders")).
Proof.
  destruct C98_hypotheses as (H1 & H2 & H3 & H4). destruct (x_arrive SError false 3 false true) as [A1 A2]; [vm_compute; reflexivity|].
  exact (C98_multiplied_consistent_partial _ _ _ _ _ _ _ _ H1 H2 eq_refl eq_refl _ _ _ _ _ _ _ _ H3 A1 A2 (x_starts true) H4).
Qed.
Example C99_consequence : fk_holds PlannerProps.xcmp xfk (xrows SError true 1 false false ("a", "child")) (xrows SError true 1 false false ("c", "elders")).
Proof.
  destruct (x_arrive SError true 1 false false) as [A1 A2]; [vm_compute; reflexivity|]. destruct (x_fresh SError 1 false false) as [B1 B2]; [vm_compute; reflexivity|].
  refine (C99_merged_consistent_partial xenv (kcfg (kout xremap SError true) 1 false) (kout xremap SError true) xplan PlannerProps.cfgA false xbefore _ _ _ _ eq_refl
    xfk "a.child" "a.parent" ("a", "child") ("a", "child") ("c", "elders") _ _ "pid" "pid" _ eq_refl eq_refl A1 A2 (x_starts false) B1 B2);
    [apply x_run; [apply x_columns|vm_compute; reflexivity]|repeat split|cbn; lia|apply PlannerProps.x_fk1].
Qed.
Definition emptied (s : strategy) : bool := match s with SError => true | _ => false end.
Example C100_consequence : forall s, fk_holds PlannerProps.xcmp xfk (xrows s false 1 false (emptied s) ("a", "child")) (xrows s false 1 false (emptied s) ("c", "elders")).
Proof.
  intros s. destruct (x_arrive s false 1 false (emptied s)) as [A1 A2]; [destruct s; vm_compute; reflexivity|].
  refine (C100_strategies_consistent_partial xenv (kcfg (kout xremap s false) 1 false) (kout xremap s false) xplan PlannerProps.cfgA (emptied s) xbefore _ _ _ _ eq_refl
    xfk "a.child" "a.parent" ("a", "child") ("a", "child") ("c", "elders") _ _ _ A1 A2 (x_starts _) _ _);
    [apply x_run; [apply x_columns|destruct s; vm_compute; reflexivity]|repeat split|cbn; lia|apply PlannerProps.x_fk1|intros _; split; [intros k Hk; exact Hk|reflexivity]|reflexivity].
Qed.
Example C101_consequence : fk_holds PlannerProps.xcmp xfk (xrows SError true 2 true false ("a", "child")) (xrows SError true 2 true false ("c", "elders")).
Proof.
  destruct (x_arrive SError true 2 true false) as [A1 A2]; [vm_compute; reflexivity|]. destruct (x_fresh SError 2 true false) as [B1 B2]; [vm_compute; reflexivity|].
  assert (Hw : whole_run xenv (kcfg (kout xremap SError true) 2 true) (kout xremap SError true) xplan PlannerProps.cfgA false xbefore (fst (xafter SError true 2 true false)))
    by (apply x_run; [apply x_columns_compact|vm_compute; reflexivity]).
  refine (C101_alike_consistent xenv (kcfg (kout xremap SError true) 2 true) (kout xremap SError true) xplan PlannerProps.cfgA false xbefore _ Hw
    xfk "a.child" "a.parent" ("a", "child") ("a", "child") ("c", "elders") _ _ _ A1 A2 (x_starts false) _ _ _ _); [apply PlannerProps.x_fk1|discriminate|left; reflexivity| |].
  - right. destruct CompactWholeProps.C96_hypotheses as (_ & _ & _ & _ & Hstep). exists (CompactWholeProps.ymeta PlannerProps.xdb xplan), CompactWholeProps.vcompact.
    split; [exact CompactWholeProps.v_renumbers|]. split; [apply CompactWholeProps.yenv_ok|]. split; [apply CompactWholeProps.xcmp_laws|]. split; [apply CompactWholeProps.xcmp_laws|].
    intros a b [Eq|[]]. injection Eq as <- <-. exact Hstep.
  - intros a b [Eq|[]]. injection Eq as <- <-. split; [|intros _; right; left; split; assumption].
    refine (same_named_alike (n := ("a", "child")) (fk := xfk) Hw (proj1 A1) (proj1 A2) (proj1 (proj2 A1)) (proj1 (proj2 A2)) (x_same_named 2) _). left. reflexivity.
Qed.

(** ** Refutations of the full claims *)
Notation ypcfg := (CompactWholeProps.ypcfg []).
Notation yplan db := (CompactWholeProps.yplan db []).
Lemma k_planned db source : db_okb db = true -> plan_db PlannerProps.idl PlannerProps.idl PlannerProps.xfnm ypcfg db = Ok (yplan db) -> source_ok id_column db source ->
  planned_by (kenv db source) (yplan db) ypcfg.
Proof.
  intros Hdb Hp Hs. split; [split; [repeat constructor; intros []|constructor]|]. split; [intros x []|]. split; [apply db_okb_true; exact Hdb|]. split.
  { intros n g t c (s & [Eq|[]] & _) _ [(x & Hin)|(x & Hin)]; injection Eq as <- <-; destruct Hin. }
  split; [exists PlannerProps.idl, PlannerProps.idl; split; [apply PlannerProps.idl_any|]; split; [apply PlannerProps.idl_any|exact Hp]|].
  split; [exact Hs|]. intros s _. apply eqb_refl.
Qed.
Definition kafter (db : list table) (source : tname -> list row) (o : db_config) (m : Z) (truncate : bool) (before : world) : world * res out_exn unit :=
  sample (kenv db source) (kcfg o m false) (yplan db) truncate false tt before.
Lemma k_whole db source o m truncate (w : world) : db_okb db = true -> plan_db PlannerProps.idl PlannerProps.idl PlannerProps.xfnm ypcfg db = Ok (yplan db) ->
  source_ok id_column db source -> source_consistent PlannerProps.xfnm ypcfg db PlannerProps.xcmp source -> db_okb (ds_tables (w_dest w)) = true -> trace w = [] ->
  snd (kafter db source o m truncate w) = Ok tt ->
  whole_run (kenv db source) (kcfg o m false) o (yplan db) ypcfg truncate w (fst (kafter db source o m truncate w)).
Proof.
  intros Hdb Hp Hs Hc Hd Hnil Ha. pose proof (k_planned _ _ Hdb Hp Hs) as Hpl.
  assert (Hall : forall n g, is_target ypcfg n g -> tg_all g = true -> tg_amount g = None) by (intros n g (s & [Eq|[]] & _) _; injection Eq as <- <-; reflexivity).
  exact (k_run db source (yplan db) ypcfg o m false truncate w Hpl (k_columns _ _ _ _ _ _ Hpl) Hd Hnil Hc Hall Ha).
Qed.

(** *** C98: the note's uid refers to the user's id.  The copies of the user 7 are 14 and 15, those of the note still refer to 7. *)
Definition ndb : list table := [ mkTable ("a", "note") ["id"; "uid"] ["id"] [mkFK ["uid"] ("a", "user") ["id"]] []; mkTable ("a", "user") ["id"; "code"] ["id"] [] [["code"]] ].
Definition nsource (n : tname) : list row :=
  if eqb n ("a", "note") then [ [("id", VInt 9); ("uid", VInt 7)] ] else if eqb n ("a", "user") then [ [("id", VInt 7); ("code", VInt 1)] ] else [].
Definition nfk : fkey := mkFK ["uid"] ("a", "user") ["id"].
Definition udb : list table := [ mkTable ("a", "note") ["id"; "uid"] ["id"] [] []; mkTable ("a", "user") ["id"; "code"] ["id"] [] [] ].
Example C98_other_name_case : snd (kafter ndb nsource (kout [] SError false) 2 true (odest udb [] [])) = Ok tt /\
  rows_of (w_dest (fst (kafter ndb nsource (kout [] SError false) 2 true (odest udb [] [])))) ("a", "note") =
    [ [("id", VInt 18); ("uid", VInt 7)]; [("id", VInt 19); ("uid", VInt 7)] ] /\
  rows_of (w_dest (fst (kafter ndb nsource (kout [] SError false) 2 true (odest udb [] [])))) ("a", "user") =
    [ [("id", VInt 14); ("code", VInt 1)]; [("id", VInt 15); ("code", VInt 1)] ].
Proof. vm_compute. repeat split. Qed.
Lemma n_whole o m truncate (w : world) : db_okb (ds_tables (w_dest w)) = true -> trace w = [] -> snd (kafter ndb nsource o m truncate w) = Ok tt ->
  whole_run (kenv ndb nsource) (kcfg o m false) o (yplan ndb) ypcfg truncate w (fst (kafter ndb nsource o m truncate w)).
Proof.
  apply k_whole; [vm_compute; reflexivity|vm_compute; reflexivity| |].
  - intros t [<-|[<-|[]]]; (split; [nd|]); (split; [vm_compute; intuition discriminate|]); intros _; nd.
  - intros n fk (_ & [[[(t & [Ht Hn] & Hf)|[C _]] _]|(x & [] & _)]); [|exfalso; apply C; reflexivity].
    destruct Ht as [<-|[<-|[]]]; cbn in Hn, Hf; try contradiction; destruct Hf as [<-|[]]; subst n; intros r Hr _; vm_compute in Hr; destruct Hr as [<-|[]].
    exists [("id", VInt 7); ("code", VInt 1)]. split; [left; reflexivity|]. constructor; [vm_compute; repeat split; discriminate|constructor].
Qed.
Lemma n_considered : considered PlannerProps.xfnm ypcfg ndb ("a", "note") nfk.
Proof.
  apply considered_by with (t := mkTable ("a", "note") ["id"; "uid"] ["id"] [nfk] []); [|left; reflexivity|reflexivity|left; reflexivity|reflexivity].
  eapply (@chosen_by PlannerProps.xfnm ypcfg ndb _ "a.note" "a.note"); [left; reflexivity|reflexivity|reflexivity|left; reflexivity|reflexivity].
Qed.
Lemma y_copied db source o m (w' : world) t n tb cols : In t (dkeys (p_queries (yplan db))) -> parse_table_name t = Some n -> parse_table_name (fst n ++ "." ++ snd n)%string = Some n -> oc_remap o = [] ->
  table_of (ds_tables (w_dest w')) n tb -> copied_to (kenv db source) (kcfg o m false) o (yplan db) w' t n n tb cols.
Proof.
  intros Ht Hp Hp' Hr Htb. split; [exact Ht|]. split; [apply parse_named; exact Hp|]. split; [|split; [exact Htb|intros k _; split; [intros f []|reflexivity]]].
  unfold goes_to. apply parse_named. rewrite Hr. exact Hp'.
Qed.

Theorem C98_other_name_refuted : exists (E : env unit) cfg c p pcfg truncate w w' fk t td n n' nd' tb tbd, whole_run E cfg c p pcfg truncate w w' /\
  no_compaction (sc_compact cfg) /\ oc_merge c = false /\ oc_strategy c = SError /\ considered (en_fnm E) pcfg (en_source_schema E) n fk /\ source_fk E cfg p n fk /\
  copied_to E cfg c p w' t n n' tb (fk_cols fk) /\ copied_to E cfg c p w' td (fk_dst fk) nd' tbd (fk_dst_cols fk) /\ truncate = true /\
  ~ fk_holds (en_cmp E) fk (rows_of (w_dest w') n') (rows_of (w_dest w') nd').
Proof.
  destruct C98_other_name_case as (Ha & H1 & H2).
  eexists (kenv ndb nsource), (kcfg (kout [] SError false) 2 false), (kout [] SError false), (yplan ndb), ypcfg, true, (odest udb [] []), (fst (kafter ndb nsource (kout [] SError false) 2 true (odest udb [] []))),
    nfk, "a.note", "a.user", ("a", "note"), ("a", "note"), ("a", "user"), _, _.
  split; [apply n_whole; [vm_compute; reflexivity|reflexivity|exact Ha]|]. split; [repeat split|]. split; [reflexivity|]. split; [reflexivity|]. split; [exact n_considered|].
  split; [eexists _, _; split; [vm_compute; reflexivity|]; split; [vm_compute; reflexivity|left; reflexivity]|].
  split; [apply y_copied; [vm_compute; tauto|reflexivity|reflexivity|reflexivity|split; [vm_compute; left; reflexivity|reflexivity]]|].
  split; [apply y_copied; [vm_compute; tauto|reflexivity|reflexivity|reflexivity|split; [vm_compute; right; left; reflexivity|reflexivity]]|]. split; [reflexivity|].
  rewrite H1, H2. intros H. destruct (H [("id", VInt 18); ("uid", VInt 7)]) as (r & Hr & Hf); [left; reflexivity|vm_compute; intros k [<-|[]] C; discriminate C|].
  destruct Hr as [<-|[<-|[]]]; inversion Hf; subst; vm_compute in *; intuition discriminate.
Qed.

(** *** C99: a.note.uid -> a.account.uid -> a.user.id.  Merged with the user 20, the user 7 becomes 28.  The uid of the account
    follows, that of the note does not. *)
Definition cbefore : world := odest CompactWholeProps.cdb
  [(("a", "note"), [ [("id", VInt 2); ("uid", VInt 20)] ]); (("a", "account"), [ [("id", VInt 3); ("uid", VInt 20)] ]); (("a", "user"), [ [("id", VInt 20)] ])] [].
Definition cafter : world * res out_exn unit := kafter CompactWholeProps.cdb CompactWholeProps.csource (kout [] SError true) 1 false cbefore.
Example C99_chain_case : snd cafter = Ok tt /\
  rows_of (w_dest (fst cafter)) ("a", "note") = [ [("id", VInt 2); ("uid", VInt 20)]; [("id", VInt 12); ("uid", VInt 7)] ] /\
  rows_of (w_dest (fst cafter)) ("a", "account") = [ [("id", VInt 3); ("uid", VInt 20)]; [("id", VInt 9); ("uid", VInt 28)] ] /\
  rows_of (w_dest (fst cafter)) ("a", "user") = [ [("id", VInt 20)]; [("id", VInt 28)] ].
Proof. vm_compute. repeat split. Qed.
Theorem C99_chain_refuted : exists (E : env unit) cfg c p pcfg truncate w w' fk t td n n' nd' tb tbd, whole_run E cfg c p pcfg truncate w w' /\
  no_compaction (sc_compact cfg) /\ mc_multiplier (sc_multiplicity cfg) = 1%Z /\ oc_strategy c = SError /\ considered (en_fnm E) pcfg (en_source_schema E) n fk /\ source_fk E cfg p n fk /\
  copied_to E cfg c p w' t n n' tb (fk_cols fk) /\ copied_to E cfg c p w' td (fk_dst fk) nd' tbd (fk_dst_cols fk) /\
  fk_holds (en_cmp E) fk (starting truncate w n') (starting truncate w nd') /\
  ~ fk_holds (en_cmp E) fk (rows_of (w_dest w') n') (rows_of (w_dest w') nd').
Proof.
  destruct C99_chain_case as (Ha & H1 & H2 & _).
  eexists (kenv CompactWholeProps.cdb CompactWholeProps.csource), (kcfg (kout [] SError true) 1 false), (kout [] SError true), (yplan CompactWholeProps.cdb), ypcfg, false, cbefore, (fst cafter),
    (mkFK ["uid"] ("a", "account") ["uid"]), "a.note", "a.account", ("a", "note"), ("a", "note"), ("a", "account"), _, _.
  split.
  { apply k_whole; [vm_compute; reflexivity|vm_compute; reflexivity| | |vm_compute; reflexivity|reflexivity|exact Ha].
    - intros t [<-|[<-|[<-|[]]]]; (split; [nd|]); (split; [vm_compute; intuition discriminate|]); intros _; nd.
    - intros n fk (_ & [[[(t & [Ht Hn] & Hf)|[C _]] _]|(x & [] & _)]); [|exfalso; apply C; reflexivity].
      destruct Ht as [<-|[<-|[<-|[]]]]; cbn in Hn, Hf; try contradiction; destruct Hf as [<-|[]]; subst n; intros r Hr _; vm_compute in Hr; destruct Hr as [<-|[]].
      + exists [("id", VInt 5); ("uid", VInt 7)]. split; [left; reflexivity|]. constructor; [vm_compute; repeat split; discriminate|constructor].
      + exists [("id", VInt 7)]. split; [left; reflexivity|]. constructor; [vm_compute; repeat split; discriminate|constructor]. }
  split; [repeat split|]. split; [reflexivity|]. split; [reflexivity|]. split.
  { apply considered_by with (t := mkTable ("a", "note") ["id"; "uid"] ["id"] [mkFK ["uid"] ("a", "account") ["uid"]] []); [|left; reflexivity|reflexivity|left; reflexivity|reflexivity].
    eapply (@chosen_by PlannerProps.xfnm ypcfg CompactWholeProps.cdb _ "a.note" "a.note"); [left; reflexivity|reflexivity|reflexivity|left; reflexivity|reflexivity]. }
  split; [eexists _, _; split; [vm_compute; reflexivity|]; split; [vm_compute; reflexivity|left; reflexivity]|].
  split; [apply y_copied; [vm_compute; tauto|reflexivity|reflexivity|reflexivity|split; [vm_compute; left; reflexivity|reflexivity]]|].
  split; [apply y_copied; [vm_compute; tauto|reflexivity|reflexivity|reflexivity|split; [vm_compute; right; left; reflexivity|reflexivity]]|]. split.
  { intros r Hr _. vm_compute in Hr. destruct Hr as [<-|[]]. eexists. split; [vm_compute; left; reflexivity|]. constructor; [vm_compute; repeat split; discriminate|constructor]. }
  rewrite H1, H2. intros H. destruct (H [("id", VInt 12); ("uid", VInt 7)]) as (r & Hr & Hf); [right; left; reflexivity|vm_compute; intros k [<-|[]] C; discriminate C|].
  destruct Hr as [<-|[<-|[]]]; inversion Hf; subst; vm_compute in *; intuition discriminate.
Qed.

(** *** C100: the user 7 has the code of the existing user 50, and codes are unique.  The new user is skipped, or
    replaces the columns of the existing one except its id; the new note refers to it. *)
Definition sbefore : world := odest [ mkTable ("a", "note") ["id"; "uid"] ["id"] [] []; mkTable ("a", "user") ["id"; "code"] ["id"] [] [["code"]] ]
  [(("a", "note"), [ [("id", VInt 2); ("uid", VInt 50)] ]); (("a", "user"), [ [("id", VInt 50); ("code", VInt 1)] ])] [].
Definition safter (s : strategy) : world * res out_exn unit := kafter ndb nsource (kout [] s false) 1 false sbefore.
Example C100_unique_case : forall s, s <> SError -> snd (safter s) = Ok tt /\
  rows_of (w_dest (fst (safter s))) ("a", "note") = [ [("id", VInt 2); ("uid", VInt 50)]; [("id", VInt 9); ("uid", VInt 7)] ] /\
  rows_of (w_dest (fst (safter s))) ("a", "user") = [ [("id", VInt 50); ("code", VInt 1)] ].
Proof. intros [] Hs; [contradiction Hs; reflexivity| |]; vm_compute; repeat split. Qed.
Theorem C100_unique_key_refuted : forall s, s <> SError -> exists (E : env unit) cfg c p pcfg truncate w w' fk t td n n' nd' tb tbd, whole_run E cfg c p pcfg truncate w w' /\
  no_compaction (sc_compact cfg) /\ mc_multiplier (sc_multiplicity cfg) = 1%Z /\ oc_merge c = false /\ oc_strategy c = s /\ considered (en_fnm E) pcfg (en_source_schema E) n fk /\
  copied_to E cfg c p w' t n n' tb (fk_cols fk) /\ copied_to E cfg c p w' td (fk_dst fk) nd' tbd (fk_dst_cols fk) /\
  fk_holds (en_cmp E) fk (starting truncate w n') (starting truncate w nd') /\ tb_pk tbd = fk_dst_cols fk /\
  ~ fk_holds (en_cmp E) fk (rows_of (w_dest w') n') (rows_of (w_dest w') nd').
Proof.
  intros s Hs. destruct (C100_unique_case s Hs) as (Ha & H1 & H2).
  eexists (kenv ndb nsource), (kcfg (kout [] s false) 1 false), (kout [] s false), (yplan ndb), ypcfg, false, sbefore, (fst (safter s)),
    nfk, "a.note", "a.user", ("a", "note"), ("a", "note"), ("a", "user"), _, _.
  split; [apply n_whole; [vm_compute; reflexivity|reflexivity|exact Ha]|]. split; [repeat split|]. split; [reflexivity|]. split; [reflexivity|]. split; [reflexivity|]. split; [exact n_considered|].
  split; [apply y_copied; [vm_compute; tauto|reflexivity|reflexivity|reflexivity|split; [destruct s; [contradiction Hs; reflexivity| |]; vm_compute; left; reflexivity|reflexivity]]|].
  split; [apply y_copied; [vm_compute; tauto|reflexivity|reflexivity|reflexivity|split; [destruct s; [contradiction Hs; reflexivity| |]; vm_compute; right; left; reflexivity|reflexivity]]|]. split.
  { intros r Hr _. vm_compute in Hr. destruct Hr as [<-|[]]. eexists. split; [vm_compute; left; reflexivity|]. constructor; [vm_compute; repeat split; discriminate|constructor]. }
  split; [reflexivity|]. rewrite H1, H2. intros H. destruct (H [("id", VInt 9); ("uid", VInt 7)]) as (r & Hr & Hf); [right; left; reflexivity|vm_compute; intros k [<-|[]] C; discriminate C|].
  destruct Hr as [<-|[]]; inversion Hf; subst; vm_compute in *; intuition discriminate.
Qed.
Print Assumptions C98_other_name_refuted.
Print Assumptions C99_chain_refuted.
Print Assumptions C100_unique_key_refuted.
