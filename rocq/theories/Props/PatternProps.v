(** Properties C127 and C128: which tables a pattern chooses, and which tables are found by their names. *)
From Coq Require Import String Ascii List.
From Verif Require Import Model.Base Model.Value Model.Names Model.PlanModel Model.SqlAlgebra Model.Metadata Model.Planner Model.Filters Model.Multiply Model.Materialize Model.Dest Model.Output Model.Sampler Model.Fnmatch.
From Verif Require Import Spec.GraphSpec Spec.SchemaSpec Spec.PlannerSpec Spec.PatternSpec.
From Verif Require Import Proofs.BaseFacts Proofs.NameFacts Proofs.SampleExamples Proofs.OutputExamples Proofs.PatternFacts Proofs.PatternTables.
From Verif Require Props.PlannerProps Props.AgainProps.
From Verif Require Import Model.Dest.
Open Scope string_scope.
Open Scope list_scope.

(** C127.  [stands_for] (Spec/PatternSpec.v) defines shell patterns.  In full: without [forward]. *)
Theorem C127_patterns_partial : forall p s, forward p -> fnmatch s p = true <-> stands_for p s.
Proof. exact fnmatch_spec. Qed.
Print Assumptions C127_patterns_partial.
(** A set that begins with a range running backwards may be read as its complement. *)
Theorem C127_patterns_refuted : exists p s, fnmatch s p = true /\ ~ stands_for p s.
Proof.
  exists "[z-a!x]", "b". split; [reflexivity|]. intros H. inversion H as [| | |? ? ? ? P Hp Hx Hs| |]; subst.
  destruct Hp as (i & [(Hb & _ & HP)|(s' & E & _)]); [|discriminate E]. apply body_spec in Hb. vm_compute in Hb. injection Hb as <- _.
  apply HP, items_listed in Hx. vm_compute in Hx. discriminate Hx.
Qed.
Print Assumptions C127_patterns_refuted.
(** What the usual patterns choose: a name, all tables of a schema, all tables. *)
Theorem C127_name : forall db p n, plain p -> matching fnmatch db [p] n <-> named p n /\ exists t, table_of db n t.
Proof. exact by_name. Qed.
Print Assumptions C127_name.
Theorem C127_schema : forall db a n, plain a -> no_dot a -> matching fnmatch db [a ++ ".*"]%string n <-> fst n = a /\ exists t, table_of db n t.
Proof. exact by_schema. Qed.
Print Assumptions C127_schema.
Theorem C127_all : forall db n t, db_ok db -> table_of db n t -> matching fnmatch db ["*"] n.
Proof. exact by_star. Qed.
Print Assumptions C127_all.

(** C128.  In full: without [unbracketed]. *)
Theorem C128_passthrough_partial : forall cfg db ord ordp p s n t,
  db_ok db -> any_order ord -> any_order ordp -> plan_db ord ordp fnmatch cfg db = Ok p ->
  In s (c_passthrough cfg) -> named s n -> table_of db n t -> unbracketed s ->
  In s (p_passthrough p) /\ In s (dkeys (p_queries p)).
Proof. exact passthrough_found. Qed.
Print Assumptions C128_passthrough_partial.
Theorem C128_sampler_partial : forall db queries infer ms s n t,
  db_ok db -> sampler_meta fnmatch db queries infer = Ok ms -> In s (dkeys queries) -> named s n -> table_of db n t -> unbracketed s ->
  exists m, In (n, m) ms /\ tm_table m = t.
Proof. exact sampler_finds. Qed.
Print Assumptions C128_sampler_partial.

(** A table with brackets in its name.  Listed as a passthrough table it is not found. *)
Definition bdb : list table := [ mkTable ("a", "t[1]") ["id"] ["id"] [] []; mkTable ("a", "u") ["id"] ["id"] [] [] ].
Definition bpass : config := mkConfig [] ["a.u"] [("a.u", PlannerProps.tg_whole)] [] ["a.t[1]"] [] [] InferNone true.
Definition bplan (cfg : config) : plan := match plan_db osets osets fnmatch cfg bdb with Ok p => p | Err _ => mkPlan [] [] end.
Theorem C128_passthrough_refuted : exists cfg db ord ordp p s n t,
  db_ok db /\ any_order ord /\ any_order ordp /\ plan_db ord ordp fnmatch cfg db = Ok p /\ In s (c_passthrough cfg) /\ named s n /\ table_of db n t /\
  ~ In s (dkeys (p_queries p)).
Proof.
  exists bpass, bdb, osets, osets, (bplan bpass), "a.t[1]", ("a", "t[1]"), (mkTable ("a", "t[1]") ["id"] ["id"] [] []).
  split; [exact (MetadataMain.db_okb_true bdb eq_refl)|]. split; [intros l; apply Permutation.Permutation_refl|]. split; [intros l; apply Permutation.Permutation_refl|].
  split; [vm_compute; reflexivity|]. split; [left; reflexivity|]. split; [apply parse_named; reflexivity|]. split; [split; [left; reflexivity|reflexivity]|].
  vm_compute. intros [E|[]]. discriminate E.
Qed.
Print Assumptions C128_passthrough_refuted.
(** Chosen by a pattern it is planned, but not found when sampling; by then the other table of the destination has been emptied. *)
Definition bcfg : config := mkConfig [] ["a.*"] [("a.t[1]", PlannerProps.tg_whole); ("a.u", PlannerProps.tg_whole)] [] [] [] [] InferNone true.
Definition benv : env unit :=
  Sampler.mkEnv ofilters fnmatch osub osets osets bdb (fun _ => [ [("id", VInt 1)] ]) (fun _ _ => true) (fun _ => false)
    PlannerProps.xcmp PlannerProps.xtext xraw xraw_cols xz xrank true odflt yes (fun _ _ => false) (fun _ => None) (fun _ _ => true) none 1.
Definition bdest : world := odest bdb [(("a", "u"), [ [("id", VInt 5)] ])] [].
Theorem C128_sampler_refuted : exists (E : env unit) cfg p w ord ordp pcfg s,
  any_order ord /\ any_order ordp /\ en_fnm E = fnmatch /\ db_ok (en_source_schema E) /\ plan_db ord ordp fnmatch pcfg (en_source_schema E) = Ok p /\ In s (dkeys (p_queries p)) /\
  rows_of (w_dest w) ("a", "u") <> [] /\ rows_of (w_dest (fst (sample E cfg p true false tt w))) ("a", "u") = [] /\ snd (sample E cfg p true false tt w) = Err (OxSample SxKeyError).
Proof.
  exists benv, (ocfg (mkDbConfig SQLite [] SError false)), (bplan bcfg), bdest, osets, osets, bcfg, "a.t[1]".
  split; [intros l; apply Permutation.Permutation_refl|]. split; [intros l; apply Permutation.Permutation_refl|]. split; [reflexivity|]. split; [exact (MetadataMain.db_okb_true bdb eq_refl)|].
  split; [vm_compute; reflexivity|]. split; [vm_compute; tauto|]. split; [vm_compute; discriminate|]. split; vm_compute; reflexivity.
Qed.
Print Assumptions C128_sampler_refuted.

(** ** Cases *)
Example C127_case : map (fun p => map (fun t => fnmatch (render (tb_name t)) p) PlannerProps.xdb) ["a.*"; "?.[!cg]*"; "b.[a-g]*[s]"; "*p*"; "b.grp"] =
  [ [true; true; false; false]; [false; true; false; false]; [false; false; false; true]; [false; true; true; false]; [false; false; true; false] ] /\
  forward "b.[a-g]*[s]" /\ plain "b.grp".
Proof.
  split; [reflexivity|]. split.
  - intros x c e b E. repeat (destruct x as [|? x]; cbn in E; [first [discriminate E|injection E as <- <- <-; vm_compute; discriminate]|injection E as _ E]). destruct x; discriminate E.
  - repeat (apply plain_cons; split; [unfold special; intros [H|[H|H]]; discriminate H|]). intros [|x a] c b E; discriminate E.
Qed.
(** C128: "*" and "?" in names do no harm. *)
Definition sdb : list table := [ mkTable ("a", "t*?") ["id"] ["id"] [] []; mkTable ("a", "u") ["id"] ["id"] [] [] ].
Definition scfg : config := mkConfig [] ["a.u"] [("a.u", PlannerProps.tg_whole)] [] ["a.t*?"] [] [] InferNone true.
Example C128_case : match plan_db osets osets fnmatch scfg sdb with
  | Ok p => p_passthrough p = ["a.t*?"] /\ match sampler_meta fnmatch sdb (p_queries p) InferNone with Ok ms => dkeys ms = [("a", "t*?"); ("a", "u")] | Err _ => False end
  | Err _ => False
  end /\ unbracketed "a.t*?" /\ db_ok sdb.
Proof.
  split; [vm_compute; split; reflexivity|]. split; [|exact (MetadataMain.db_okb_true sdb eq_refl)]. intros x b E. repeat (destruct x as [|? x]; cbn in E; [discriminate E|injection E as _ E]). destruct x; discriminate E.
Qed.
