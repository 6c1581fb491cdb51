(** Property C107: runs in which no row gets a key that is taken are carried out to the end. *)
From Coq Require Import Lia.
From Verif Require Import Model.Base Model.Value Model.Names Model.PlanModel Model.SqlAlgebra Model.Metadata Model.Planner Model.Filters Model.Multiply Model.Materialize Model.Dest Model.Output Model.Sampler.
From Verif Require Import Spec.GraphSpec Spec.SchemaSpec Spec.SqlSem Spec.PlannerSpec Spec.FilterSpec Spec.OutputSpec Spec.SampleSpec Spec.RunSpec Spec.WholeSpec Spec.CompactWholeSpec Spec.CopiesSpec Spec.CompleteSpec Spec.MomentsSpec Spec.FinishSpec.
From Verif Require Import Proofs.BaseFacts Proofs.NameFacts Proofs.MetadataMain Proofs.PlannerExamples Proofs.SampleFinal Proofs.SampleExamples Proofs.OutputExamples Proofs.WholeCopies Proofs.Finish.
From Verif Require Spec.MultiplySpec Props.PlannerProps Props.WholeRunProps Props.CompactWholeProps Props.CopiesProps Props.CompleteProps Props.MomentsProps.
From Verif Require Import Model.Dest.
Open Scope list_scope.
Open Scope string_scope.

Section Props.
Context {G : Type}.
Variables (E : env G) (cfg : sampler_config) (c : db_config) (p : plan).

(** C107, for a database that refuses nothing but taken keys: the configuration can be carried out ([sound_run], [accepted],
    [placed], [creatable]), the tables fit ([fitting]), and no row gets a key that is taken ([conflict_free]). *)
Theorem C107_database_completes : forall pcfg ms compact, sound_run E cfg p pcfg ms compact ->
  eq_symmetric (en_cmp E) -> eq_transitive (en_cmp E) -> eq_reflexive (en_cmp E) -> (forall d e, en_accepts E d e = true) ->
  forall truncate create g w w' r, accepted E cfg p ms -> placed E c p -> (create = true -> creatable E c p (w_dest w)) ->
  fitting E cfg p ms compact c (w_dest w) (w_dest w') -> conflict_free E cfg c p ms truncate w (ds_tables (w_dest w')) ->
  sample E cfg p truncate create g w = (w', r) -> exists g', r = Ok g'.
Proof.
  intros pcfg ms compact (H1 & H2 & H3 & H4 & H5 & H6 & H7 & H8) L1 L2 L3 Hyes truncate create g w w' r Ha Hp Hc (F1 & F2 & F3 & F4 & F5 & F6) Hf H.
  exact (proj2 (finishes H1 H2 H3 H4 H5 H6 H7 H8 L1 L2 L3 F1 F3 F6 Ha Hp Hc Hyes H) F2 F4 F5 Hf).
Qed.
(** C107, for a database that checks its foreign keys, too, after every statement: if every foreign key holds at the start and the
    configuration respects it, no statement of the run is refused; only creating the tables, the first statement, may be. *)
Theorem C107_enforcing_completes : forall pcfg ms compact, sound_run E cfg p pcfg ms compact ->
  eq_transitive (en_cmp E) -> eq_reflexive (en_cmp E) -> enforces_keys E ->
  forall truncate create g w w' r, good_start E cfg c p pcfg w -> accepted E cfg p ms -> placed E c p -> (create = true -> creatable E c p (w_dest w)) ->
  fitting E cfg p ms compact c (w_dest w) (w_dest w') -> conflict_free E cfg c p ms truncate w (ds_tables (w_dest w')) ->
  (forall n tb fk, table_of (ds_tables (w_dest w')) n tb -> In fk (tb_fks tb) ->
     respected E cfg c p pcfg truncate w (ds_tables (w_dest w')) n fk /\ fk_holds (en_cmp E) fk (rows_of (w_dest w) n) (rows_of (w_dest w) (fk_dst fk))) ->
  sample E cfg p truncate create g w = (w', r) -> (exists g', r = Ok g') \/ create = true /\ w' = w.
Proof.
  intros pcfg ms compact H1 H2 H3 H4 truncate create g w w' r H5 H6 H7 H8 H9 H10 H11 H12.
  exact (enforced_finishes H1 H2 H3 H4 H5 H6 H7 H8 H9 H10 H11 H12).
Qed.
End Props.
Print Assumptions C107_database_completes.
Print Assumptions C107_enforcing_completes.

(** ** Cases: the plan of Props/PlannerProps.v; parents are renamed, and other rows exist *)
Notation fenv accepts := (CompleteProps.zenv accepts CompleteProps.zint).
Notation fout s merge := (CopiesProps.kout CompactWholeProps.vremap s merge).
Notation fcfg s merge m compact := (CopiesProps.kcfg (fout s merge) m compact).
Notation fplan := WholeRunProps.wplan.
Notation fmeta := (CompactWholeProps.ymeta PlannerProps.xdb fplan).
Notation ftables := MomentsProps.mtables.
Notation fbefore := MomentsProps.mbefore.
Definition fcompact (compact : bool) : dict tname (list string) := if compact then CompactWholeProps.vcompact else [].

Lemma xcmp_refl : eq_reflexive PlannerProps.xcmp.
Proof. intros v _. apply eqb_refl. Qed.
Lemma f_sound accepts s merge m compact : sound_run (fenv accepts) (fcfg s merge m compact) fplan PlannerProps.cfgA fmeta (fcompact compact).
Proof.
  destruct (CompleteProps.z_sound accepts (ToDatabase (fout s merge))) as (He & H1 & Hn & Hp & Hr & _ & Hi & _).
  split; [exact He|]. split; [exact H1|]. split; [exact Hn|]. split; [exact Hp|]. split.
  { destruct compact; [exact Hr|]. split; [vm_compute; reflexivity|]. split; [vm_compute; reflexivity|]. split; [constructor|]. split; [intros ? ? ? ? ? []|].
    split; [intros x k _; apply eqb_true|]. split; [intros n k (cs & [] & _)|intros Hf; discriminate Hf]. }
  split; [|split; [exact Hi|intros _ t k f _ []]].
  intros t tb chain cols r g (_ & _ & Hc) _. cbv in Hc. injection Hc as <- <-. eexists. reflexivity.
Qed.
(** The multiplied columns. *)
Lemma f_multiplied m t k : MultiplySpec.multiplied fmeta (mkMult m [] [] []) fplan t k ->
  In (t, k) [("a.parent", "pid"); ("a.parent", "gid"); ("b.grp", "gid"); ("a.child", "id"); ("a.child", "pid")].
Proof.
  intros [t' c' H1 H2 []|t' m' c' H1 H2 (n & Hn & Hm) Hc _|t' m' fk c' H1 H2 (n & Hn & Hm) Hf Hc _]; vm_compute in H1;
    (destruct H1 as [<-|[<-|[<-|[<-|[]]]]]; [destruct H2; left; vm_compute; tauto|..]); vm_compute in Hn; injection Hn as <-; vm_compute in Hm; injection Hm as <-; cbn in Hc.
  1-3: destruct Hc as [<-|[]]; cbn; tauto.
  all: cbn in Hf; try contradiction; destruct Hf as [<-|[]]; cbn in Hc; destruct Hc as [<-|[]]; cbn; tauto.
Qed.
Lemma f_accepted accepts s merge m compact : accepted (fenv accepts) (fcfg s merge m compact) fplan fmeta.
Proof.
  split; [intros t fs []|]. intros _. split; [split|split].
  - intros t Ht. vm_compute in Ht. destruct Ht as [<-|[<-|[<-|[<-|[]]]]]; eexists; eexists; (split; vm_compute; reflexivity).
  - intros t mt k Hk (n & Hn & Hm). apply f_multiplied in Hk.
    repeat (destruct Hk as [Hk|Hk]; [injection Hk as <- <-; vm_compute in Hn; injection Hn as <-; vm_compute in Hm; injection Hm as <-; cbn; tauto|]). destruct Hk.
  - intros (t & mt & fk & k & H1 & H2 & (n & Hn & Hm) & Hf & _). vm_compute in H1. destruct H2 as [H2|[]]. vm_compute in H2. destruct H2 as [<-|[]].
    vm_compute in Hn. injection Hn as <-. vm_compute in Hm. injection Hm as <-. destruct Hf.
  - intros (t & mt & k & _ & _ & Hi). discriminate Hi.
Qed.
Lemma f_placed accepts s merge : placed (fenv accepts) (fout s merge) fplan.
Proof.
  split.
  - intros t Ht. vm_compute in Ht. destruct Ht as [<-|[<-|[<-|[<-|[]]]]]; eexists; eexists; (split; [apply parse_named; vm_compute; reflexivity|apply parse_named; vm_compute; reflexivity]).
  - intros a b n' Ha Hb La Lb. pose proof (MomentsProps.m_lands s a n' Ha La) as Ja. pose proof (MomentsProps.m_lands s b n' Hb Lb) as Jb.
    destruct Ja as [E1|[E1|[E1|[E1|[]]]]]; destruct Jb as [E2|[E2|[E2|[E2|[]]]]]; congruence.
Qed.
Lemma f_fitting accepts s merge m compact d' : s <> SReplace -> ds_tables d' = ftables ->
  fitting (fenv accepts) (fcfg s merge m compact) fplan fmeta (fcompact compact) (fout s merge) (w_dest fbefore) d'.
Proof.
  intros Hs Ht. destruct (f_sound accepts s merge m compact) as (He & _ & _ & Hp & Hr & _ & Hi & _). destruct WholeRunProps.C87_hypotheses as (_ & _ & _ & Hok & _).
  split; [|split; [|split; [intros Hd; discriminate Hd|rewrite Ht; split; [|split; [|intros Hd; discriminate Hd]]]]].
  - constructor; [reflexivity|exact (ro_source Hok)|apply db_okb_true; vm_compute; reflexivity|exact (ro_order Hok)|exact (ro_plain Hok)|]. exact (CompactWholeProps.C96_columns _ _ _ PlannerProps.cfgA _ _ He Hp Hr).
  - intros _ t n Htq Hnp Hn. split; [|split].
    + vm_compute in Htq. rewrite Ht. destruct Htq as [<-|[<-|[<-|[<-|[]]]]]; [elim Hnp; vm_compute; tauto|..]; apply parse_named in Hn; vm_compute in Hn; injection Hn as <-;
        (eexists; eexists; split; [apply parse_named; vm_compute; reflexivity|]); first [split; [left; reflexivity|reflexivity]|split; [right; left; reflexivity|reflexivity]|split; [right; right; left; reflexivity|reflexivity]].
    + intros fk k (ms & mt & Hms & Hm & Hfk) _. vm_compute in Hms. injection Hms as <-. vm_compute in Htq.
      destruct Htq as [<-|[<-|[<-|[<-|[]]]]]; [elim Hnp; vm_compute; tauto|..]; apply parse_named in Hn; vm_compute in Hn; injection Hn as <-; vm_compute in Hm; injection Hm as <-; vm_compute in Hfk;
        try contradiction; destruct Hfk as [<-|[]]; [exists "b.grp"%string|exists "a.parent"%string]; (split; [vm_compute; tauto|apply parse_named; reflexivity]).
    + intros n' k _ _. split; [intros f []|]. intros r Hrow. exact (Hi n k r eq_refl Hrow).
  - apply (@CompleteProps.ranked_acyclic _ (fun n => if eqb n ("a", "child") then 2 else if eqb n ("c", "elders") then 1 else if eqb n ("z", "audit") then 1 else 0)).
    intros a b (t & fk & Htb & Hfk & Hd). destruct (MomentsProps.m_fks _ _ _ Htb Hfk) as [[-> ->]|[[-> ->]|[-> ->]]]; subst b; cbn; lia.
  - intros t tb chain cols n' tb' (Htq & (n & Hn & Htb) & Hc) Hgo Htb'. rewrite Ht in Htb'. vm_compute in Htq. destruct Htb as [Hin <-].
    destruct Htq as [<-|[<-|[<-|[<-|[]]]]]; apply parse_named in Hn; vm_compute in Hn; injection Hn as Hn; destruct Hin as [<-|[<-|[<-|[<-|[]]]]]; try discriminate Hn;
      apply parse_named in Hgo; vm_compute in Hgo; injection Hgo as <-; destruct Htb' as [Hin' Hn']; destruct Hin' as [<-|[<-|[<-|[<-|[]]]]]; try discriminate Hn';
      cbv in Hc; injection Hc as <- <-; (split; [intros x Hx; cbn in Hx |- *; tauto|]); (split; [repeat constructor; intros []|]); intros k [<-|[]]; (split; [cbn; tauto|reflexivity]).
Qed.
(** Rows are told apart by a column without repeated values. *)
Lemma unique_distinguishes k l : CompactWholeProps.uniqueb k l = true -> distinguishes PlannerProps.xcmp [k] l.
Proof.
  intros H i j r r' Hr Hr' Hk. destruct (Hk k (or_introl eq_refl)) as (H1 & H2 & H3). apply CompactWholeProps.uniqueb_true in H.
  refine (H (rget r k) i j r r' Hr Hr' _ _); [split; [exact H1|split; [exact H1|apply xcmp_refl; exact H1]]|split; [exact H1|split; [exact H2|exact H3]]].
Qed.
Lemma f_free accepts s merge m compact truncate : (truncate = true \/ merge = true) -> conflict_free (fenv accepts) (fcfg s merge m compact) (fout s merge) fplan fmeta truncate fbefore ftables.
Proof.
  intros Hmode t n n' tb Ht Hn Hgo Htb.
  assert (Hl : In (t, n') [("b.codes", ("b", "codes")); ("a.parent", ("c", "elders")); ("b.grp", ("b", "grp")); ("a.child", ("a", "child"))]).
  { exact (MomentsProps.m_lands s t n' Ht (ex_intro _ n (conj Hn Hgo))). }
  right. intros ks Hks _.
  assert (Hcase : exists k, ks = [k] /\ In (t, (n, k)) [("a.parent", (("a", "parent"), "pid")); ("b.grp", (("b", "grp"), "gid")); ("a.child", (("a", "child"), "id"))]).
  { destruct Hl as [Eq|[Eq|[Eq|[Eq|[]]]]]; injection Eq as <- <-; apply parse_named in Hn; vm_compute in Hn; injection Hn as <-; destruct Htb as [Hin Htn];
      destruct Hin as [<-|[<-|[<-|[<-|[]]]]]; try discriminate Htn; destruct Hks as [<-|[]]; eexists; (split; [reflexivity|cbn; tauto]). }
  destruct Hcase as (k & -> & Hk). split; [|split; [|split]].
  - apply unique_distinguishes. destruct Hk as [Eq|[Eq|[Eq|[]]]]; injection Eq as <- <- <-; vm_compute; reflexivity.
  - intros k' [<-|[]]. split; [split; [intros f []|reflexivity]|]. intros tbs [Hin Htn].
    destruct Hk as [Eq|[Eq|[Eq|[]]]]; injection Eq as <- <- <-; destruct Hin as [<-|[<-|[<-|[<-|[]]]]]; try discriminate Htn; cbn; tauto.
  - intros _ Hx. exists k. split; [left; reflexivity|].
    destruct Hk as [Eq|[Eq|[Eq|[]]]]; injection Eq as <- <- <-;
      (eapply MultiplySpec.mul_pk; [exact Ht|exact Hx|eexists; split; vm_compute; reflexivity|cbn; tauto|intros []]).
  - destruct Hmode as [Hm|Hm]; subst; [left; reflexivity|right]. split; [reflexivity|]. split; [cbn; lia|]. exists k. split; [left; reflexivity|]. split.
    + destruct Hk as [Eq|[Eq|[Eq|[]]]]; injection Eq as <- <- <-; (split; [exact Ht|]); (split; [vm_compute; intros [Eq|[]]; discriminate Eq|]); (split; [exact Hn|]); (split; [exact Hgo|]).
      all: apply parse_named in Hgo; vm_compute in Hgo; injection Hgo as <-.
      all: split; [exists tb; split; [exact Htb|]; destruct Htb as [Hin Htn]; destruct Hin as [<-|[<-|[<-|[<-|[]]]]]; try discriminate Htn; split; reflexivity|].
      all: split; [intros tbs [Hin' Htn']; destruct Hin' as [<-|[<-|[<-|[<-|[]]]]]; try discriminate Htn'; reflexivity|].
      all: intros fk Hfk; destruct (CopiesProps.x_source_fks _ _ _ _ _ _ Hfk) as [[Eq ->]|[Eq ->]]; discriminate.
    + intros r z Hr Hz. destruct Hk as [Eq|[Eq|[Eq|[]]]]; injection Eq as <- <- <-; vm_compute in Hr; repeat (destruct Hr as [<-|Hr]; [vm_compute in Hz; injection Hz as <-; lia|]); destruct Hr.
Qed.

(** Tables are emptied; or nothing is, and rows that are renumbered and copied twice are merged with those there. *)
Definition fafter (merge : bool) (m : Z) (compact truncate : bool) : world * res out_exn unit :=
  sample (fenv yes) (fcfg SError merge m compact) fplan truncate false tt fbefore.
Example C107_database_hypotheses : forall merge m compact truncate,
  (merge, m, compact, truncate) = (false, 1%Z, false, true) \/ (merge, m, compact, truncate) = (true, 2%Z, true, false) ->
  sound_run (fenv yes) (fcfg SError merge m compact) fplan PlannerProps.cfgA fmeta (fcompact compact) /\
  eq_symmetric PlannerProps.xcmp /\ eq_transitive PlannerProps.xcmp /\ eq_reflexive PlannerProps.xcmp /\ accepted (fenv yes) (fcfg SError merge m compact) fplan fmeta /\
  placed (fenv yes) (fout SError merge) fplan /\
  fitting (fenv yes) (fcfg SError merge m compact) fplan fmeta (fcompact compact) (fout SError merge) (w_dest fbefore) (w_dest (fst (fafter merge m compact truncate))) /\
  conflict_free (fenv yes) (fcfg SError merge m compact) (fout SError merge) fplan fmeta truncate fbefore (ds_tables (w_dest (fst (fafter merge m compact truncate)))) /\
  snd (fafter merge m compact truncate) = Ok tt.
Proof.
  intros merge m compact truncate Hc.
  assert (Ht : ds_tables (w_dest (fst (fafter merge m compact truncate))) = ftables) by (destruct Hc as [Eq|Eq]; injection Eq as -> -> -> ->; vm_compute; reflexivity).
  split; [apply f_sound|]. split; [apply CompactWholeProps.xcmp_laws|]. split; [apply CompactWholeProps.xcmp_laws|]. split; [apply xcmp_refl|]. split; [apply f_accepted|].
  split; [apply f_placed|]. split; [apply f_fitting; [discriminate|exact Ht]|]. split.
  - rewrite Ht. apply f_free. destruct Hc as [Eq|Eq]; injection Eq as -> -> -> ->; auto.
  - destruct Hc as [Eq|Eq]; injection Eq as -> -> -> ->; vm_compute; reflexivity.
Qed.
(** A destination that checks its foreign keys. *)
Example C107_enforcing_hypotheses : let run := MomentsProps.mafter SError true in
  sound_run MomentsProps.menv (fcfg SError false 1 false) fplan PlannerProps.cfgA fmeta [] /\ eq_transitive PlannerProps.xcmp /\ eq_reflexive PlannerProps.xcmp /\ enforces_keys MomentsProps.menv /\
  good_start MomentsProps.menv (fcfg SError false 1 false) (fout SError false) fplan PlannerProps.cfgA fbefore /\
  accepted MomentsProps.menv (fcfg SError false 1 false) fplan fmeta /\ placed MomentsProps.menv (fout SError false) fplan /\
  fitting MomentsProps.menv (fcfg SError false 1 false) fplan fmeta [] (fout SError false) (w_dest fbefore) (w_dest (fst run)) /\
  conflict_free MomentsProps.menv (fcfg SError false 1 false) (fout SError false) fplan fmeta true fbefore (ds_tables (w_dest (fst run))) /\
  (forall n tb fk, table_of (ds_tables (w_dest (fst run))) n tb -> In fk (tb_fks tb) ->
    respected MomentsProps.menv (fcfg SError false 1 false) (fout SError false) fplan PlannerProps.cfgA true fbefore (ds_tables (w_dest (fst run))) n fk /\
    fk_holds PlannerProps.xcmp fk (rows_of (w_dest fbefore) n) (rows_of (w_dest fbefore) (fk_dst fk))) /\ snd run = Ok tt.
Proof.
  intros run. assert (Ht : ds_tables (w_dest (fst run)) = ftables) by (apply MomentsProps.m_tables; left; auto).
  split; [exact (f_sound MomentsProps.checking SError false 1 false)|]. split; [apply CompactWholeProps.xcmp_laws|]. split; [apply xcmp_refl|]. split; [exact MomentsProps.m_enforces|].
  destruct (MomentsProps.C104_hypotheses SError true (or_introl (conj eq_refl eq_refl))) as [Hg Hr].
  split; [exact Hg|]. split; [exact (f_accepted MomentsProps.checking SError false 1 false)|]. split; [exact (f_placed MomentsProps.checking SError false)|].
  split; [refine (f_fitting MomentsProps.checking SError false 1 false (w_dest (fst run)) _ Ht); discriminate|]. split; [|split; [exact Hr|vm_compute; reflexivity]].
  rewrite Ht. exact (f_free MomentsProps.checking SError false 1 false true (or_introl eq_refl)).
Qed.
(** The condition on keys is needed: without emptying the tables, or merging, the same run stops at a taken key. *)
Example C107_taken_key : snd (sample (fenv yes) (fcfg SError false 1 false) fplan false false tt fbefore) = Err OxDbError /\
  snd (sample (fenv yes) (fcfg SSkip false 1 false) fplan false false tt fbefore) = Ok tt.
Proof. vm_compute. split; reflexivity. Qed.
(** Tables can be created where there are none. *)
Example C107_create_hypotheses : let run := sample (fenv yes) (fcfg SError false 1 false) fplan false true tt (odest [] [] []) in
  creatable (fenv yes) (fout SError false) fplan (w_dest (odest [] [] [])) /\ snd run = Ok tt /\
  map tb_name (ds_tables (w_dest (fst run))) = [("b", "codes"); ("c", "elders"); ("b", "grp"); ("a", "child")].
Proof.
  split; [|vm_compute; split; reflexivity].
  intros t n n' tb Ht Hn _ [Hin Htn] _. vm_compute in Ht.
  destruct Hin as [<-|[<-|[<-|[<-|[]]]]]; (split; [intros u []|]); intros fk Hf; cbn in Hf; try contradiction; destruct Hf as [<-|[]]; [exists "a.parent"|exists "b.grp"];
    eexists; (split; [vm_compute; tauto|]); (split; [apply parse_named; reflexivity|]); (split; [apply parse_named; vm_compute; reflexivity|]); intros tbd [[] _].
Qed.
