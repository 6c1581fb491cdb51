(** Property C135: the foreign keys a run follows. *)
From Coq Require Import Lia.
From Verif Require Import Model.Base Model.Value Model.Names Model.PlanModel Model.Metadata Model.Planner Model.Output Model.Sampler.
From Verif Require Import Spec.GraphSpec Spec.SchemaSpec Spec.PlannerSpec Spec.RunSpec Spec.SampleSpec Spec.WholeSpec Spec.RunKeysSpec.
From Verif Require Import Proofs.BaseFacts Proofs.NameFacts Proofs.MetadataMain Proofs.PlannerExamples Proofs.SampleExamples Proofs.OutputExamples Proofs.RunKeys.
From Verif Require Props.PlannerProps Props.WholeRunProps Props.CompactWholeProps.
Open Scope string_scope.
Open Scope list_scope.

(** C135 *)
Theorem C135_run_keys : forall G (E : env G) cfg p, db_ok (en_source_schema E) -> forall n fk,
  source_fk E cfg p n fk <-> followed_fk (en_fnm E) (en_source_schema E) p (sc_infer cfg) n fk.
Proof. exact run_keys. Qed.
(** The schema as a run sees it: the tables of the plan, with the foreign keys it follows. *)
Theorem C135_schema_seen : forall fnm db p infer, db_ok db -> exists ms, sampler_meta fnm db (p_queries p) infer = Ok ms /\ NoDup (dkeys ms) /\
  (forall n, In n (dkeys ms) <-> sampled_table fnm db p n) /\
  forall n m, In (n, m) ms -> table_of db n (tm_table m) /\ forall fk, In fk (tm_fks m) <-> followed_fk fnm db p infer n fk.
Proof. exact run_meta. Qed.
Theorem C135_planned_keys : forall G (E : env G) cfg p pcfg, planned_by E p pcfg -> c_extra_fks pcfg = [] -> c_ignore_fks pcfg = [] ->
  c_infer pcfg = sc_infer cfg -> (sc_infer cfg = InferNone \/ forall n, chosen (en_fnm E) pcfg (en_source_schema E) n <-> sampled_table (en_fnm E) (en_source_schema E) p n) ->
  forall s n fk, In s (dkeys (p_queries p)) -> named s n -> (source_fk E cfg p n fk <-> considered (en_fnm E) pcfg (en_source_schema E) n fk).
Proof. exact run_keys_planned. Qed.
Print Assumptions C135_run_keys.
Print Assumptions C135_schema_seen.
Print Assumptions C135_planned_keys.

(** The plan and the run of Props/CompactWholeProps.v. *)
Notation venv := (CompactWholeProps.yenv PlannerProps.xdb PlannerProps.xsource).
Notation vcfg := (CompactWholeProps.ycfg CompactWholeProps.vremap).
Example C135_hypotheses : planned_by venv WholeRunProps.wplan PlannerProps.cfgA /\ c_extra_fks PlannerProps.cfgA = [] /\ c_ignore_fks PlannerProps.cfgA = [] /\
  c_infer PlannerProps.cfgA = sc_infer vcfg /\ sc_infer vcfg = InferNone /\ In "a.child" (dkeys (p_queries WholeRunProps.wplan)) /\ named "a.child" ("a", "child") /\
  source_fk venv vcfg WholeRunProps.wplan ("a", "child") (mkFK ["pid"] ("a", "parent") ["pid"]).
Proof.
  destruct WholeRunProps.C87_hypotheses as (_ & Hp & _). split; [exact Hp|]. split; [reflexivity|]. split; [reflexivity|]. split; [reflexivity|]. split; [reflexivity|].
  split; [vm_compute; tauto|]. split; [apply parse_named; reflexivity|]. eexists. eexists. split; [vm_compute; reflexivity|]. split; [vm_compute; reflexivity|]. left. reflexivity.
Qed.

(** ** With inference, the run may follow foreign keys the planner did not consider: a.note.uid could mean a user or an old user for
    the planner, only a user for the run, in which the old users are not planned. *)
Definition fdb : list table :=
  [ mkTable ("a", "note") ["id"; "uid"] ["id"] [] []; mkTable ("a", "user") ["uid"] ["uid"] [] []; mkTable ("a", "old") ["uid"] ["uid"] [] [];
    mkTable ("b", "book") ["bid"; "id"; "uid"] ["bid"] [] [] ].
Definition fpcfg : config :=
  mkConfig [] ["a.note"; "a.user"; "a.old"; "b.book"] [("a.note", PlannerProps.tg_whole); ("a.user", PlannerProps.tg_whole); ("b.book", PlannerProps.tg_whole)] [] [] [] [] InferSchema true.
Definition fplan : plan := match plan_db PlannerProps.idl PlannerProps.idl PlannerProps.xfnm fpcfg fdb with Ok p => p | Err _ => mkPlan [] [] end.
Notation fenv := (CompactWholeProps.yenv fdb (fun _ => [])).
Definition fcfg (infer : infer_mode) : sampler_config :=
  mkSampler (sc_output vcfg) [] (sc_multiplicity vcfg) infer (sc_compact vcfg).
Definition fkeys (infer : infer_mode) : list (tname * list fkey) :=
  match sampler_meta PlannerProps.xfnm fdb (p_queries fplan) infer with Ok ms => map (fun nm => (fst nm, tm_fks (snd nm))) ms | Err _ => [] end.
Example C135_modes :
  fkeys InferNone = [(("a", "note"), []); (("a", "user"), []); (("b", "book"), [])] /\
  fkeys InferSchema = [(("a", "note"), [mkFK ["uid"] ("a", "user") ["uid"]]); (("a", "user"), []); (("b", "book"), [])] /\
  fkeys InferAll = [(("a", "note"), [mkFK ["uid"] ("a", "user") ["uid"]]); (("a", "user"), []); (("b", "book"), [mkFK ["id"] ("a", "note") ["id"]; mkFK ["uid"] ("a", "user") ["uid"]])].
Proof. vm_compute. repeat split. Qed.
Theorem C135_inference_differs : exists (E : env unit) cfg p pcfg n fk, planned_by E p pcfg /\ c_extra_fks pcfg = [] /\ c_ignore_fks pcfg = [] /\ c_infer pcfg = sc_infer cfg /\
  In (render n) (dkeys (p_queries p)) /\ In (render (fk_dst fk)) (dkeys (p_queries p)) /\
  source_fk E cfg p n fk /\ ~ considered (en_fnm E) pcfg (en_source_schema E) n fk.
Proof.
  exists fenv, (fcfg InferSchema), fplan, fpcfg, ("a", "note"), (mkFK ["uid"] ("a", "user") ["uid"]).
  assert (Hdb : db_ok fdb) by (apply db_okb_true; vm_compute; reflexivity).
  split.
  { split; [split; [repeat constructor; vm_compute; intuition discriminate|constructor]|]. split; [intros x []|]. split; [exact Hdb|]. split.
    { intros n g t c (s & Hs & _) _ [(x & Hin)|(x & Hin)]; destruct Hs as [Eq|[Eq|[Eq|[]]]]; injection Eq as <- <-; destruct Hin. }
    split; [exists PlannerProps.idl, PlannerProps.idl; split; [apply PlannerProps.idl_any|]; split; [apply PlannerProps.idl_any|vm_compute; reflexivity]|].
    split; [|intros s _; apply eqb_refl]. intros t [<-|[<-|[<-|[<-|[]]]]]; (split; [nd|]); (split; [vm_compute; intuition discriminate|]); intros _; nd. }
  split; [reflexivity|]. split; [reflexivity|]. split; [reflexivity|]. split; [vm_compute; tauto|]. split; [vm_compute; tauto|].
  split; [eexists; eexists; split; [vm_compute; reflexivity|split; [vm_compute; reflexivity|left; reflexivity]]|].
  intros (_ & [[[(t & [Ht Hn] & Hf)|(_ & c & d & t & Eq & _ & _ & _ & _ & Hu)] _]|(x & [] & _)]).
  - destruct Ht as [<-|[<-|[<-|[<-|[]]]]]; destruct Hf.
  - injection Eq as <- <-. assert (F : ("a", "old") = ("a", "user")); [|discriminate F]. apply Hu.
    exists (mkTable ("a", "old") ["uid"] ["uid"] [] []). split; [|split; [split; [cbn; tauto|reflexivity]|split; [reflexivity|right; reflexivity]]].
    eapply (@chosen_by PlannerProps.xfnm fpcfg fdb _ "a.old" "a.old"); [right; right; left; reflexivity|reflexivity|reflexivity|right; right; left; reflexivity|reflexivity].
Qed.
Print Assumptions C135_inference_differs.
