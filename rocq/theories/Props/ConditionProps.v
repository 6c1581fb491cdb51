(** Properties C129 and C130: the conditions of multiplex filters, and filters that stop a run.  Python's operators are those of
    Model/PyCompare.v; identity of objects, values of further types, the random generator, Faker and plugins are arbitrary. *)
From Coq Require Import Lia.
From Verif Require Import Model.Base Model.Value Model.Names Model.PlanModel Model.SqlAlgebra Model.Metadata Model.Planner Model.Filters Model.Multiply Model.Materialize Model.Dest Model.Output Model.Sampler Model.PyCompare.
From Verif Require Import Spec.GraphSpec Spec.SchemaSpec Spec.SqlSem Spec.PlannerSpec Spec.FilterSpec Spec.OutputSpec Spec.SampleSpec Spec.RunSpec Spec.WholeSpec Spec.CompleteSpec Spec.PatternSpec Spec.ConditionSpec.
From Verif Require Import Proofs.BaseFacts Proofs.NameFacts Proofs.PlannerExamples Proofs.SampleExamples Proofs.OutputExamples Proofs.PatternFacts Proofs.ConditionFacts Proofs.ConditionRun.
From Verif Require Props.PlannerProps Props.WholeRunProps.
From Verif Require Import Model.Dest.
Open Scope string_scope.
Open Scope list_scope.

Section Props.
Variable same_object : value -> value -> bool.
Variable other_eq : value -> value -> bool.
Variable other_cmp : value -> value -> res filter_exn comparison.
Context {G : Type}.
Variable F : filter_env G.
Notation env_of := (python_env same_object other_eq other_cmp F).
Notation run_filter := (apply_sview (fe_randint F) (fe_uniform F) (fe_index F) (fe_uuid4 F) (fe_fake F) (fe_plugin F)).
Notation run v := (run_filters env_of [v]).

(** C129: a condition that makes sense for a value holds of it exactly if what it says is true, and any other raises TypeError.  Missing:
    identity with anything but NULL, patterns with backward ranges (C127) and values of further types. *)
Theorem C129_conditions_partial : forall k x, plain_condition (mc_op k) (mc_value k) -> ordinary x -> ordinary_values (mc_value k) ->
  (sensible (mc_op k) x (mc_value k) -> exists b, match_condition same_object other_eq other_cmp k x = Ok b /\ (b = true <-> said (mc_op k) x (mc_value k))) /\
  (~ sensible (mc_op k) x (mc_value k) -> match_condition same_object other_eq other_cmp k x = Err FxTypeError).
Proof.
  intros k x Hp Hx Hw. destruct (condition_decided same_object other_eq other_cmp Hp Hx Hw) as [(Hs & H)|(Hs & H)].
  - split; [intros _; exact H|intros Hn; destruct (Hn Hs)].
  - split; [intros Hn; destruct (Hs Hn)|intros _; exact H].
Qed.

(** C129: the filter of the first condition that holds is applied to a row, no filter if none holds. *)
Theorem C129_first_condition : forall cols col conds v r g x, NoDup cols ->
  construct_view (fe_load_plugin F) (FcMultiplex col conds) cols = Ok v -> value_of cols r col = Some x -> ordinary x ->
  (forall k, In k conds -> plain_condition (mc_op k) (mc_value k) /\ ordinary_values (mc_value k)) ->
  (forall pre k post, conds = pre ++ k :: post ->
     (forall k', In k' pre -> sensible (mc_op k') x (mc_value k') /\ ~ said (mc_op k') x (mc_value k')) ->
     (sensible (mc_op k) x (mc_value k) -> said (mc_op k) x (mc_value k) ->
        exists f, construct_simple (fe_load_plugin F) (mc_apply k) cols = Ok f /\ run v r g = run_filter f r g) /\
     (~ sensible (mc_op k) x (mc_value k) -> run v r g = Err FxTypeError)) /\
  ((forall k, In k conds -> sensible (mc_op k) x (mc_value k) /\ ~ said (mc_op k) x (mc_value k)) -> run v r g = Ok (r, g)).
Proof. intros cols col conds v r g x N C Hv Ho Hk. exact (conditions_run same_object other_eq other_cmp g N C Hv Ho Hk). Qed.

(** C130, where it holds: safe filters never fail on rows without values of further types ... *)
Theorem C130_safe_filters_partial : (forall low high g, (low <= high)%Z -> exists z g', fe_randint F low high g = Ok (z, g')) ->
  forall fs cols chain out r g, construct_chain (fe_load_plugin F) fs cols = Ok (chain, out) -> (forall f, In f fs -> safe_filter f) ->
  length r = length cols -> (forall v, In v r -> ordinary v) -> exists r' g', run_filters env_of chain r g = Ok (r', g').
Proof. intros Hr fs cols chain out r g C Hs Hl Ho. exact (safe_ordinary same_object other_eq other_cmp Hr g C Hs Hl Ho). Qed.
(** ... nor on any row, if they do not zero columns; so they cannot be what ends a run (C102, C103). *)
Theorem C130_runs_partial : (forall low high g, (low <= high)%Z -> exists z g', fe_randint F low high g = Ok (z, g')) ->
  forall (E : env G) cfg p, en_filters E = env_of -> (forall t f, In f (filters_of cfg t) -> safe_filter f /\ ~ may_zero f) -> filters_work E cfg p.
Proof. intros Hr E cfg p HE Hs. exact (safe_work Hr HE Hs). Qed.
End Props.
Print Assumptions C129_conditions_partial.
Print Assumptions C129_first_condition.
Print Assumptions C130_safe_filters_partial.
Print Assumptions C130_runs_partial.

(** ** C129 refuted as stated: "is" with anything but NULL asks for one object, and equal values read from a database are others *)
Theorem C129_is_refuted : exists same_object k x, mc_op k = MIs /\ said (mc_op k) x (mc_value k) /\
  match_condition same_object (fun _ _ => false) (fun _ _ => Err FxTypeError) k x = Ok false.
Proof.
  exists (fun _ _ => false), (mkCond MIs (MvOne (VStr "admin")) (SfNull ["name"])), (VStr "admin"). split; [reflexivity|]. split; [|reflexivity].
  exists (VStr "admin"). split; [reflexivity|]. right. reflexivity.
Qed.
Print Assumptions C129_is_refuted.

(** ** A case: names that begin with "test" are kept, NULL is kept, ages below 18 are cleared *)
Definition bF : filter_env unit := python_env (fun _ _ => false) (fun _ _ => false) (fun _ _ => Err FxTypeError) ofilters.
Definition bconds : list mcond :=
  [ mkCond MIs (MvOne VNull) (SfConstant ["name"] [VStr "none"]); mkCond MMatches (MvOne (VStr "test*")) (SfConstant ["name"] [VStr "kept"]);
    mkCond MNotIn (MvList [VStr "bob"; VInt 1]) (SfNull ["name"]) ].
Definition bview : view := match construct_view (fe_load_plugin bF) (FcMultiplex "name" bconds) ["id"; "name"] with Ok v => v | Err _ => VwMultiplex [] 0 [] end.
Example C129_case : construct_view (fe_load_plugin bF) (FcMultiplex "name" bconds) ["id"; "name"] = Ok bview /\
  (forall k, In k bconds -> plain_condition (mc_op k) (mc_value k) /\ ordinary_values (mc_value k)) /\
  map (fun x => run_filters bF [bview] [VInt 1; x] tt) [VNull; VStr "test7"; VStr "ann"; VStr "bob"; VInt 5] =
    [ Ok ([VInt 1; VStr "none"], tt); Ok ([VInt 1; VStr "kept"], tt); Ok ([VInt 1; VNull], tt); Ok ([VInt 1; VStr "bob"], tt); Err FxTypeError ].
Proof.
  split; [reflexivity|]. split; [|vm_compute; reflexivity].
  intros k [<-|[<-|[<-|[]]]]; cbn; (split; [try reflexivity; try exact I|]).
  - intros k E. discriminate.
  - intros p E. injection E as <-. intros a c e b E. exfalso. do 6 (destruct a as [|? a]; [discriminate E|try (injection E as _ E)]). discriminate E.
  - intros k E. discriminate.
  - intros y [<-|[<-|[]]] k E; discriminate.
Qed.
Example C129_sensible : sensible MMatches (VStr "test7") (MvOne (VStr "test*")) /\ said MMatches (VStr "test7") (MvOne (VStr "test*")) /\
  ~ sensible MMatches (VInt 5) (MvOne (VStr "test*")) /\ said MLt (VBool true) (MvOne (VFloat (3 # 2))) /\ ~ said MLt (VStr "b") (MvOne (VStr "abc")) /\
  sensible MLt (VStr "b") (MvOne (VStr "abc")).
Proof.
  split; [eexists; eexists; split; reflexivity|]. split.
  { exists "test7", "test*". split; [reflexivity|]. split; [reflexivity|].
    assert (Hf : forward "test*") by (intros a c e b E; exfalso; do 6 (destruct a as [|? a]; [discriminate E|try (injection E as _ E)]); discriminate E).
    apply (fnmatch_spec "test7" Hf). vm_compute. reflexivity. }
  split; [intros (s & q & E & _); discriminate|]. split.
  { eexists. split; [reflexivity|]. left. exists 1%Q, (3 # 2)%Q. split; [constructor|]. split; [constructor|]. reflexivity. }
  split; [|eexists; split; [reflexivity|]; right; split; eexists; reflexivity].
  intros (y & E & Hl). injection E as <-. destruct Hl as [(a & b & H & _)|(s & t & E1 & E2 & H)]; [inversion H|]. injection E1 as <-. injection E2 as <-.
  apply compare_less in H. discriminate H.
Qed.

(** C130: a chain of safe filters. *)
Definition bsafe : list filter_config :=
  [ FcMultiplex "name" [mkCond MIn (MvList [VNull; VStr "ann"]) (SfZero ["id"])]; FcSimple (SfRandomInt ["age"] 1 6); FcSimple (SfOmit ["id"]) ].
Example C130_case : (forall f, In f bsafe -> safe_filter f) /\ exists chain, construct_chain (fe_load_plugin bF) bsafe ["id"; "name"; "age"] = Ok (chain, ["name"; "age"]) /\
  run_filters bF chain [VInt 7; VStr "ann"; VNull] tt = Ok ([VStr "ann"; VInt 1], tt).
Proof.
  split; [|eexists; split; [reflexivity|vm_compute; reflexivity]].
  intros f [<-|[<-|[<-|[]]]]; cbn; [|lia|exact I]. intros k [<-|[]]. split; [eexists; reflexivity|exact I].
Qed.

(** ** C130 refuted as stated: a NULL in a column that is compared stops the run half way, after the tables have been emptied *)
Definition bplan : plan := PlannerProps.plan_of (PlannerProps.xcfg [("a.child", PlannerProps.tg_whole)] []).
Definition benv : env unit :=
  Sampler.mkEnv bF PlannerProps.xfnm osub osets osets PlannerProps.xdb PlannerProps.xsource (fun _ _ => true) (fun _ => false)
    PlannerProps.xcmp PlannerProps.xtext xraw xraw_cols xz xrank true odflt yes (fun _ _ => false) (fun _ => None) (fun _ _ => true) none 1.
Definition bcfg : sampler_config :=
  mkSampler (ToDatabase WholeRunProps.wout) [("a.child", [FcMultiplex "pid" [mkCond MLt (MvOne (VInt 15)) (SfNull ["pid"])]])] (mkMult 1 [] [] []) InferNone (mkCompact false false 1 []).
Lemma bplanned : planned_by benv bplan (PlannerProps.xcfg [("a.child", PlannerProps.tg_whole)] []).
Proof.
  destruct WholeProps.C77_C81_hypotheses as (A1 & _ & _ & _ & _ & A6 & _).
  destruct (@PlannerProps.check_sampling [("a.child", PlannerProps.tg_whole)] []) as (_ & H2 & H3 & H4 & _);
    [vm_compute; reflexivity|repeat constructor; intros []|repeat constructor; intros []|].
  split; [exact H2|]. split; [exact H3|]. split; [exact A1|]. split.
  { intros n g t c (s & [E|[]] & _) _ Hc. inversion E; subst s g. destruct Hc as [(x & [])|(x & [])]. }
  split; [exact H4|]. split; [exact A6|]. intros s _. apply eqb_true. reflexivity.
Qed.
Theorem C130_null_refuted : exists (E : env unit) same_object other_eq other_cmp F cfg c p pcfg w w' x,
  env_ok E /\ en_filters E = python_env same_object other_eq other_cmp F /\ planned_by E p pcfg /\ sc_output cfg = ToDatabase c /\ no_compaction (sc_compact cfg) /\ plain_run cfg c /\
  (forall d e, en_accepts E d e = true) /\
  sample E cfg p true false tt w = (w', Err x) /\ x = OxFilter FxTypeError /\
  (exists r, In r (rows_of (w_dest w') ("a", "child"))) /\
  exists r, In r (en_source E ("a", "child")) /\ forall r', In r' (rows_of (w_dest w') ("a", "child")) -> rget r' "id" <> rget r "id".
Proof.
  exists benv, (fun _ _ => false), (fun _ _ => false), (fun _ _ => Err FxTypeError), ofilters, bcfg, WholeRunProps.wout, bplan,
    (PlannerProps.xcfg [("a.child", PlannerProps.tg_whole)] []), WholeRunProps.wbefore, (fst (sample benv bcfg bplan true false tt WholeRunProps.wbefore)), (OxFilter FxTypeError).
  destruct WholeRunProps.C87_hypotheses as (He & Hp & Hc & _ & _ & Hpl & _).
  split; [exact He|]. split; [reflexivity|]. split; [exact bplanned|]. split; [reflexivity|]. split; [exact Hc|]. split; [exact Hpl|]. split; [reflexivity|].
  split; [vm_compute; reflexivity|]. split; [reflexivity|].
  assert (Hr : rows_of (w_dest (fst (sample benv bcfg bplan true false tt WholeRunProps.wbefore))) ("a", "child") =
    [[("pid", VNull); ("id", VInt 1); ("note", VNull)]; [("pid", VInt 20); ("id", VInt 2); ("note", VNull)]]) by (vm_compute; reflexivity).
  rewrite Hr. split; [eexists; left; reflexivity|].
  exists [("id", VInt 3); ("pid", VNull)]. split; [right; right; left; reflexivity|]. intros r' [<-|[<-|[]]]; discriminate.
Qed.
Print Assumptions C130_null_refuted.
