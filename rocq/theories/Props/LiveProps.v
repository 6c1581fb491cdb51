(** Properties C111 and C112: runs while other sessions change the source. *)
From Coq Require Import Lia.
From Verif Require Import Model.Base Model.Value Model.Names Model.PlanModel Model.SqlAlgebra Model.Metadata Model.Planner Model.Filters Model.Multiply Model.Materialize Model.Dest Model.Output Model.Sampler Model.Live.
From Verif Require Import Spec.GraphSpec Spec.SchemaSpec Spec.SqlSem Spec.PlannerSpec Spec.FilterSpec Spec.OutputSpec Spec.SampleSpec Spec.RunSpec Spec.WholeSpec Spec.LiveSpec.
From Verif Require Import Proofs.BaseFacts Proofs.NameFacts Proofs.MetadataMain Proofs.PlannerExamples Proofs.SampleFinal Proofs.SampleExamples Proofs.OutputExamples Proofs.LiveWhole Proofs.LiveFk.
From Verif Require Props.PlannerProps Props.WholeProps Props.WholeRunProps.
From Verif Require Import Model.Dest.
Open Scope string_scope.
Open Scope list_scope.
Open Scope nat_scope.

Section Props.
Context {G : Type}.
Variables (E : env G) (h : nat -> tname -> list row) (raw : (tname -> list row) -> string -> option (dict string lit) -> list row).
Variables (cfg : sampler_config) (p : plan).

(** C111.  The run does exactly what a run on an unchanging database does that holds every table as it was at its own moment. *)
Theorem C111_each_table_at_one_moment : forall truncate create g w,
  any_order (en_ord_name E) -> db_ok (en_source_schema E) -> (forall k, unique_keys (en_source_schema E) (h k)) ->
  queries_ok (p_queries p) -> plan_wf (p_queries p) -> own_table_only (p_queries p) -> writable E cfg p (w_dest w) ->
  exists moment,
    (forall w' g', sample_live E h raw cfg p truncate create g w = (w', Ok g') ->
      one_by_one (p_queries p) moment /\ (no_compaction (sc_compact cfg) -> others_later (p_queries p) moment)) /\
    sample_live E h raw cfg p truncate create g w = sample (reading_from E raw (at_moments h moment)) cfg p truncate create g w.
Proof. exact (@live_moments G E h raw cfg p). Qed.
(** The planner's plans are of this kind. *)
Theorem C111_planned : forall pcfg truncate create g w,
  any_order (en_ord_name E) -> (forall k, planned_by (reading_from E raw (h k)) p pcfg) -> writable E cfg p (w_dest w) ->
  exists moment,
    (forall w' g', sample_live E h raw cfg p truncate create g w = (w', Ok g') ->
      one_by_one (p_queries p) moment /\ (no_compaction (sc_compact cfg) -> others_later (p_queries p) moment)) /\
    sample_live E h raw cfg p truncate create g w = sample (reading_from E raw (at_moments h moment)) cfg p truncate create g w.
Proof. exact (@live_planned G E h raw cfg p). Qed.
(** Without changes, any run is the run on the one state. *)
Theorem C111_unchanged : forall rows truncate create g w,
  sample_live E (fun _ => rows) raw cfg p truncate create g w = sample (reading_from E raw rows) cfg p truncate create g w.
Proof. intros rows. exact (live_constant E rows raw cfg p). Qed.

(** C112.  Partial: see the two refuted statements below for what is not claimed. *)
Theorem C112_consistent_partial : forall c pcfg w truncate create g w' g', live_setup E h raw cfg c p pcfg w ->
  sample_live E h raw cfg p truncate create g w = (w', Ok g') ->
  forall n fk n' nd', considered (en_fnm E) pcfg (en_source_schema E) n fk -> copied_pair E cfg c p w w' truncate n fk n' nd' ->
    earlier_parent (en_fnm E) pcfg (en_source_schema E) p n fk \/
      lasting (en_cmp E) h n fk /\ sampled_for_references (en_fnm E) pcfg (en_source_schema E) (fk_dst fk) ->
    fk_holds (en_cmp E) fk (rows_of (w_dest w') n') (rows_of (w_dest w') nd').
Proof. intros c pcfg w truncate create g w' g'. exact (@live_consistent G E h raw cfg p pcfg c w truncate create g w' g'). Qed.
End Props.
Print Assumptions C111_each_table_at_one_moment.
Print Assumptions C111_planned.
Print Assumptions C111_unchanged.
Print Assumptions C112_consistent_partial.

(** ** Cases: the run of Props/WholeRunProps.v, while rows are added or removed after its first statement. *)
Definition lrow (c d : string) (a b : Z) : row := [(c, VInt a); (d, VInt b)].
Definition lsource (children parents : list row) (groups : list Z) (n : tname) : list row :=
  if eqb n ("a", "child") then children else if eqb n ("a", "parent") then parents
  else if eqb n ("b", "grp") then map (fun g => [("gid", VInt g)]) groups else [].
Definition lhist (before after : tname -> list row) (k : nat) : tname -> list row := match k with O => before | S _ => after end.
Definition lraw (rows : tname -> list row) : string -> option (dict string lit) -> list row := xraw.
Definition lenv : env unit := WholeRunProps.wenv.
Definition lcfg : sampler_config := ocfg WholeRunProps.wout.
Notation lplan := WholeRunProps.wplan.
Notation lbefore := WholeRunProps.wbefore.

Definition lfirst : tname -> list row := lsource [lrow "id" "pid" 1 10; lrow "id" "pid" 2 20] [lrow "pid" "gid" 10 100; lrow "pid" "gid" 20 200] [100%Z; 200%Z].
(** Another child of parent 10 and another group with a parent come in; all else stays. *)
Definition lgrown : tname -> list row := lsource [lrow "id" "pid" 1 10; lrow "id" "pid" 2 20; lrow "id" "pid" 3 30]
  [lrow "pid" "gid" 10 100; lrow "pid" "gid" 20 200; lrow "pid" "gid" 30 300] [100%Z; 200%Z; 300%Z].
(** Parent 10, its child and its group are gone. *)
Definition lshrunk : tname -> list row := lsource [lrow "id" "pid" 2 20] [lrow "pid" "gid" 20 200] [200%Z].

Lemma l_source_ok l : In l [lfirst; lgrown; lshrunk] -> source_ok id_column PlannerProps.xdb l.
Proof. intros [<-|[<-|[<-|[]]]] t [<-|[<-|[<-|[<-|[]]]]]; (split; [nd|]); (split; [vm_compute; intuition discriminate|]); intros _; nd. Qed.
Lemma l_consistent l targets cs : In l [lfirst; lgrown; lshrunk] -> source_consistent PlannerProps.xfnm (PlannerProps.xcfg targets cs) PlannerProps.xdb PlannerProps.xcmp l.
Proof.
  intros Hl n fk Hc. apply PlannerProps.x_considered in Hc.
  assert (Hb : forallb (fun r => existsb (fun r' => eqb (rget r "pid") (rget r' "pid")) (l ("a", "parent"))) (l ("a", "child")) = true /\
               forallb (fun r => existsb (fun r' => eqb (rget r "gid") (rget r' "gid")) (l ("b", "grp"))) (l ("a", "parent")) = true).
  { destruct Hl as [<-|[<-|[<-|[]]]]; vm_compute; auto. }
  destruct Hc as [[-> ->]|[-> ->]]; intros r Hr Hnn.
  - destruct Hb as [Hb _]. rewrite forallb_forall in Hb. specialize (Hb r Hr). apply existsb_exists in Hb. destruct Hb as (r' & Hr' & He). exists r'. split; [exact Hr'|].
    specialize (Hnn "pid" (or_introl eq_refl)). constructor; [|constructor]. split; [exact Hnn|]. split; [rewrite eqb_true in He; congruence|exact He].
  - destruct Hb as [_ Hb]. rewrite forallb_forall in Hb. specialize (Hb r Hr). apply existsb_exists in Hb. destruct Hb as (r' & Hr' & He). exists r'. split; [exact Hr'|].
    specialize (Hnn "gid" (or_introl eq_refl)). constructor; [|constructor]. split; [exact Hnn|]. split; [rewrite eqb_true in He; congruence|exact He].
Qed.
Lemma l_setup before after : In before [lfirst; lgrown; lshrunk] -> In after [lfirst; lgrown; lshrunk] ->
  live_setup lenv (lhist before after) lraw lcfg WholeRunProps.wout lplan PlannerProps.cfgA lbefore.
Proof.
  intros Hb Ha. destruct WholeRunProps.C87_hypotheses as (H1 & (B1 & B2 & B3 & B4 & B5 & _ & B9) & H3 & Hr & H5 & H6 & H7 & _ & H9 & _).
  assert (Hk : forall k, In (lhist before after k) [lfirst; lgrown; lshrunk]) by (intros [|k]; assumption).
  split; [exact H1|]. split.
  { intros k. split; [exact B1|]. split; [exact B2|]. split; [exact B3|]. split; [exact B4|]. split; [exact B5|]. split; [exact (l_source_ok _ (Hk k))|exact B9]. }
  split; [exact H3|]. split; [reflexivity|]. split; [destruct Hr as [_ _ W1 W2 W3 _]; split; [exact W1|split; [exact W2|exact W3]]|]. split; [reflexivity|]. split; [exact H6|]. split; [exact H7|].
  split; [intros k; exact (l_consistent _ _ _ (Hk k))|exact H9].
Qed.

Notation fk1 := (mkFK ["pid"] ("a", "parent") ["pid"]).
Notation fk2 := (mkFK ["gid"] ("b", "grp") ["gid"]).
Lemma l_pair w' : ds_tables (w_dest w') = WholeRunProps.wtables ->
  copied_pair lenv lcfg WholeRunProps.wout lplan lbefore w' true ("a", "child") fk1 ("a", "child") ("c", "elders") /\
  copied_pair lenv lcfg WholeRunProps.wout lplan lbefore w' true ("a", "parent") fk2 ("c", "elders") ("b", "grp").
Proof.
  intros Hw. assert (Hu : forall t n k, untouched_column lenv lcfg t n k) by (intros t n k; split; [intros f []|reflexivity]).
  split; [exists "a.child", "a.parent"|exists "a.parent", "b.grp"].
  - split; [vm_compute; tauto|]. split; [vm_compute; tauto|]. split; [apply parse_named; reflexivity|]. split; [apply parse_named; reflexivity|].
    split; [apply parse_named; reflexivity|]. split; [apply parse_named; reflexivity|]. rewrite Hw. split; [eexists; split; [left; reflexivity|reflexivity]|].
    split; [eexists; split; [right; left; reflexivity|reflexivity]|]. split; [left; reflexivity|]. split; [left; reflexivity|]. split; intros k _; apply Hu.
  - split; [vm_compute; tauto|]. split; [vm_compute; tauto|]. split; [apply parse_named; reflexivity|]. split; [apply parse_named; reflexivity|].
    split; [apply parse_named; reflexivity|]. split; [apply parse_named; reflexivity|]. rewrite Hw. split; [eexists; split; [right; left; reflexivity|reflexivity]|].
    split; [eexists; split; [right; right; left; reflexivity|reflexivity]|]. split; [left; reflexivity|]. split; [left; reflexivity|]. split; intros k _; apply Hu.
Qed.

(** C111, C112: rows added meanwhile.  The tables copied are those of one mixed state; foreign keys hold. *)
Definition lafter := sample_live lenv (lhist lfirst lgrown) lraw lcfg lplan true false tt lbefore.
Example C112_case : live_setup lenv (lhist lfirst lgrown) lraw lcfg WholeRunProps.wout lplan PlannerProps.cfgA lbefore /\
  snd lafter = Ok tt /\ ds_tables (w_dest (fst lafter)) = WholeRunProps.wtables /\
  rows_of (w_dest (fst lafter)) ("a", "child") = [ [("pid", VInt 10); ("id", VInt 1); ("note", VNull)] ] /\
  rows_of (w_dest (fst lafter)) ("c", "elders") = [ [("pid", VInt 10); ("gid", VInt 100)] ] /\ rows_of (w_dest (fst lafter)) ("b", "grp") = [ [("gid", VInt 100)] ] /\
  earlier_parent (en_fnm lenv) PlannerProps.cfgA (en_source_schema lenv) lplan ("a", "child") fk1 /\
  lasting (en_cmp lenv) (lhist lfirst lgrown) ("a", "parent") fk2 /\ sampled_for_references (en_fnm lenv) PlannerProps.cfgA (en_source_schema lenv) ("b", "grp").
Proof.
  split; [apply l_setup; vm_compute; tauto|]. split; [vm_compute; reflexivity|]. split; [vm_compute; reflexivity|]. split; [vm_compute; reflexivity|]. split; [vm_compute; reflexivity|]. split; [vm_compute; reflexivity|].
  split; [apply PlannerProps.A_child|]. split.
  - intros k k' r Hk Hr (r' & Hr' & Href). exists r'. split; [|exact Href]. destruct k as [|k]; destruct k' as [|k']; try exact Hr'; [|lia].
    vm_compute in Hr' |- *. tauto.
  - split; [|intros g Hg; exfalso; exact (proj1 (proj2 PlannerProps.A_grp) g Hg)]. intros [_ (s & Hs & Hn)]. vm_compute in Hs. destruct Hs as [<-|[]]. apply (proj2 (parse_named _ _)) in Hn. discriminate Hn.
Qed.

(** Not in general: rows removed between two statements of the run. *)
Theorem C112_removed_refuted : exists (E : env unit) h raw cfg c p pcfg w w' n fk n' nd',
  live_setup E h raw cfg c p pcfg w /\ sample_live E h raw cfg p true false tt w = (w', Ok tt) /\
  considered (en_fnm E) pcfg (en_source_schema E) n fk /\ copied_pair E cfg c p w w' true n fk n' nd' /\
  sampled_for_references (en_fnm E) pcfg (en_source_schema E) (fk_dst fk) /\
  ~ fk_holds (en_cmp E) fk (rows_of (w_dest w') n') (rows_of (w_dest w') nd').
Proof.
  exists lenv, (lhist lfirst lshrunk), lraw, lcfg, WholeRunProps.wout, lplan, PlannerProps.cfgA, lbefore,
    (fst (sample_live lenv (lhist lfirst lshrunk) lraw lcfg lplan true false tt lbefore)), ("a", "parent"), fk2, ("c", "elders"), ("b", "grp").
  split; [apply l_setup; vm_compute; tauto|]. split; [vm_compute; reflexivity|]. split; [apply PlannerProps.x_fk2|]. split; [apply l_pair; vm_compute; reflexivity|].
  split; [exact (proj2 (proj2 (proj2 (proj2 (proj2 (proj2 (proj2 (proj2 C112_case))))))))|].
  intros H. destruct (H (lrow "pid" "gid" 10 100)) as (r' & Hr' & _); [vm_compute; tauto|intros k [<-|[]] F; discriminate F|]. vm_compute in Hr'. exact Hr'.
Qed.
Print Assumptions C112_removed_refuted.

(** Nor with rows only added, if the referenced table is passed through: it is read first. *)
Definition pcfgP : config := mkConfig [] ["a.parent"] [("a.parent", PlannerProps.tg_whole)] [] ["b.grp"] [] [] InferNone true.
Definition planP : plan := PlannerProps.plan_of pcfgP.
Lemma p_considered n fk : considered PlannerProps.xfnm pcfgP PlannerProps.xdb n fk -> (n = ("a", "child") /\ fk = fk1) \/ (n = ("a", "parent") /\ fk = fk2).
Proof.
  intros (_ & [[[(t & [Ht Hn] & Hf)|[C _]] _]|(x & [] & _)]); [|exfalso; apply C; reflexivity].
  destruct Ht as [<-|[<-|[<-|[<-|[]]]]]; cbn in Hn, Hf; try contradiction; destruct Hf as [<-|[]]; [left|right]; split; congruence.
Qed.
Lemma p_setup : live_setup lenv (lhist lfirst lgrown) lraw lcfg WholeRunProps.wout planP pcfgP lbefore.
Proof.
  destruct WholeRunProps.C87_hypotheses as (H1 & _ & H3 & Hr & H5 & H6 & H7 & _).
  assert (Hk : forall k, In (lhist lfirst lgrown k) [lfirst; lgrown; lshrunk]) by (intros [|k]; vm_compute; tauto).
  split; [exact H1|]. split.
  { intros k. split; [split; repeat constructor; intros []|]. split; [intros x []|]. split; [exact PlannerProps.xdb_ok|]. split.
    - intros n g t c (s & [E|[]] & _) _ Hc. inversion E; subst s g. exfalso. destruct Hc as [(x & [])|(x & [])].
    - split; [exists PlannerProps.idl, PlannerProps.idl; split; [apply PlannerProps.idl_any|]; split; [apply PlannerProps.idl_any|vm_compute; reflexivity]|].
      split; [exact (l_source_ok _ (Hk k))|]. intros s _. apply eqb_true. reflexivity. }
  split; [exact H3|]. split; [reflexivity|]. split; [destruct Hr as [_ _ W1 W2 _ _]; split; [exact W1|split; [exact W2|intros n s _; apply eqb_true]]|]. split; [reflexivity|]. split; [exact H6|]. split; [exact H7|].
  split; [|intros n g (s & [E|[]] & _) _; inversion E; reflexivity].
  intros k n fk Hc. apply p_considered in Hc. destruct Hc as [[-> ->]|[-> ->]];
    [exact (l_consistent _ [] [] (Hk k) _ _ (PlannerProps.x_fk1 [] []))|exact (l_consistent _ [] [] (Hk k) _ _ (PlannerProps.x_fk2 [] []))].
Qed.
Lemma p_pair w' : ds_tables (w_dest w') = WholeRunProps.wtables ->
  copied_pair lenv lcfg WholeRunProps.wout planP lbefore w' true ("a", "parent") fk2 ("c", "elders") ("b", "grp").
Proof.
  intros Hw. exists "a.parent", "b.grp". split; [vm_compute; tauto|]. split; [vm_compute; tauto|]. split; [apply parse_named; reflexivity|]. split; [apply parse_named; reflexivity|].
  split; [apply parse_named; reflexivity|]. split; [apply parse_named; reflexivity|]. rewrite Hw. split; [eexists; split; [right; left; reflexivity|reflexivity]|].
  split; [eexists; split; [right; right; left; reflexivity|reflexivity]|]. split; [left; reflexivity|]. split; [left; reflexivity|]. split; intros k _; (split; [intros f []|reflexivity]).
Qed.
Theorem C112_added_refuted : exists (E : env unit) h raw cfg c p pcfg w w' n fk n' nd',
  live_setup E h raw cfg c p pcfg w /\ sample_live E h raw cfg p true false tt w = (w', Ok tt) /\
  considered (en_fnm E) pcfg (en_source_schema E) n fk /\ copied_pair E cfg c p w w' true n fk n' nd' /\
  (forall k k' m r, k <= k' -> In r (h k m) -> In r (h k' m)) /\
  ~ fk_holds (en_cmp E) fk (rows_of (w_dest w') n') (rows_of (w_dest w') nd').
Proof.
  exists lenv, (lhist lfirst lgrown), lraw, lcfg, WholeRunProps.wout, planP, pcfgP, lbefore,
    (fst (sample_live lenv (lhist lfirst lgrown) lraw lcfg planP true false tt lbefore)), ("a", "parent"), fk2, ("c", "elders"), ("b", "grp").
  split; [exact p_setup|]. split; [vm_compute; reflexivity|]. split.
  { eapply considered_by; [|right; left; reflexivity|reflexivity|left; reflexivity|reflexivity].
    apply active_by; [|intros []|intros [C|[]]; discriminate].
    eapply (@chosen_by PlannerProps.xfnm pcfgP PlannerProps.xdb _ "a.parent" "a.parent"); [right; left; reflexivity|reflexivity|reflexivity|left; reflexivity|reflexivity]. }
  split; [apply p_pair; vm_compute; reflexivity|].
  split.
  { intros k k' m r Hk Hr. destruct k as [|k]; destruct k' as [|k']; try exact Hr; [|lia]. cbn [lhist] in *. unfold lfirst, lgrown, lsource in *.
    destruct (eqb m ("a", "child")); [cbn in *; tauto|]. destruct (eqb m ("a", "parent")); [cbn in *; tauto|]. destruct (eqb m ("b", "grp")); [cbn in *; tauto|]. exact Hr. }
  intros H. destruct (H (lrow "pid" "gid" 30 300)) as (r' & Hr' & Href); [vm_compute; tauto|intros k [<-|[]] F; discriminate F|].
  inversion Href as [|? ? ? ? (_ & _ & He) _]; subst. vm_compute in Hr'. destruct Hr' as [<-|[<-|[]]]; vm_compute in He; discriminate He.
Qed.
Print Assumptions C112_added_refuted.
