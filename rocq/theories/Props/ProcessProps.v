(** Properties C91 and C113: commands run by different processes, one after the other or from the same state.  The processes iterate over
    sets in different orders, start with different states of the random generator, and the databases draw different random numbers. *)
From Coq Require Import Lia Permutation.
From Verif Require Import Model.Base Model.Value Model.Names Model.PlanModel Model.Metadata Model.Planner Model.Filters Model.Multiply Model.Materialize
  Model.Dest Model.Output Model.Sampler Model.Config Model.PlanIO Model.ConfigIO Model.Main.
From Verif Require Import Spec.GraphSpec Spec.SchemaSpec Spec.SqlSem Spec.PlannerSpec Spec.FilterSpec Spec.OutputSpec Spec.SampleSpec Spec.RunSpec Spec.WholeSpec Spec.CompactWholeSpec Spec.SameSpec Spec.ConfigSpec Spec.CliSpec Spec.ProcessSpec.
From Verif Require Import Proofs.BaseFacts Proofs.NameFacts Proofs.MetadataMain Proofs.PlannerExamples Proofs.PlanIOPlanner Proofs.SampleFinal Proofs.SampleExamples Proofs.OutputExamples
  Proofs.ConfigLoad Proofs.CliFacts Proofs.TwoSteps Proofs.CliEnv Proofs.Processes.
From Verif Require Props.PlannerProps Props.WholeProps Props.WholeRunProps.
From Verif Require Import Props.CliProps.
From Verif Require Import Model.Dest.
Open Scope string_scope.
Open Scope list_scope.


Section Props.
Context {G : Type}.
Variable getenv : string -> option string.
Variable to_int : string -> option Z.
Variable reachable : engine -> bool.
Variable environment : engine -> env G.
Variables (explicit : PlanIO.path -> bool) (can_open can_write : string -> bool) (partly : string -> content).
Notation main x := (main getenv to_int reachable (seen_in environment x) (pr_graph x) (pr_names x) explicit (pr_start x) can_open can_write partly).
Notation plans x := (plans getenv to_int reachable (seen_in environment x) (pr_graph x) (pr_names x)).
Notation output_place := (output_place getenv to_int).

(** C91.  Process [x] plans, [y] samples the plan, [z] plans and samples; [y] and [z] leave the same behind. *)
Theorem C91_two_steps_database : forall x y z, process_ok x -> process_ok y -> process_ok z -> forall files file truncate create s s1 s2 s3 c p pc e sec u db remap str merge,
  let cmd a := mkArgs files a in
  file <> "" -> file <> "-" -> ~ In "-" (config_files (cmd (APlan None))) -> ~ In file (config_files (cmd (APlan None))) ->
  main x (cmd (APlan (Some file))) s = (s1, 0%Z) -> main y (cmd (ASample file truncate create)) s1 = (s2, 0%Z) -> main z (cmd (ASubset truncate create)) s = (s3, 0%Z) ->
  configured s (cmd (APlan None)) c -> distinct_keys s (cmd (APlan None)) -> plans z c p -> sub_planner c = Some pc -> source_of getenv to_int c e ->
  sub_sampler c = Some sec -> ss_output sec = OsDatabase db remap str merge -> output_place c (AtDatabase u) ->
  let E := seen_in environment z e in
  let cfg := sampler_of sec (dialect_of u) in
  let dc := mkDbConfig (dialect_of u) remap str merge in
  let d := cl_places s (AtDatabase u) in
  let d2 := cl_places s2 (AtDatabase u) in
  let d3 := cl_places s3 (AtDatabase u) in
  env_ok E -> sound_source E pc p -> plan_random_free (p_queries p) -> renumbers_soundly E cfg p -> run_ok E cfg dc p d ->
  (forall n tb, table_of (ds_tables d2) n tb <-> table_of (ds_tables d3) n tb) /\
  (forall n, (forall t, In t (dkeys (p_queries p)) -> lands (en_resub E) remap t n -> steady_table E cfg t) -> rows_of d2 n = rows_of d3 n) /\
  (forall t n n' tb tb', In t (dkeys (p_queries p)) -> named t n -> table_of (en_source_schema E) n tb -> lands (en_resub E) remap t n' ->
     table_of (ds_tables d3) n' tb' -> strategy_of dc p t = SError ->
     exists new2 new3, rows_of d2 n' = (if truncate then [] else rows_of d n') ++ new2 /\ rows_of d3 n' = (if truncate then [] else rows_of d n') ++ new3 /\
       Forall2 (fun row2 row3 => forall k, In k (tb_cols tb) -> untouched_column E cfg t n' k -> rget row2 k = rget row3 k) new2 new3) /\
  (forall q, ~ same_place q (AtDatabase u) -> cl_places s2 q = cl_places s3 q).
Proof. intros x y z Hx Hy Hz. exact (@two_steps_database G getenv to_int reachable environment explicit can_open can_write partly x y z Hx Hy Hz). Qed.
Theorem C91_two_steps_directory : forall x y z, process_ok x -> process_ok y -> process_ok z -> forall files file truncate create s s1 s2 s3 c p pc e sec dir,
  let cmd a := mkArgs files a in
  file <> "" -> file <> "-" -> ~ In "-" (config_files (cmd (APlan None))) -> ~ In file (config_files (cmd (APlan None))) ->
  main x (cmd (APlan (Some file))) s = (s1, 0%Z) -> main y (cmd (ASample file truncate create)) s1 = (s2, 0%Z) -> main z (cmd (ASubset truncate create)) s = (s3, 0%Z) ->
  configured s (cmd (APlan None)) c -> distinct_keys s (cmd (APlan None)) -> plans z c p -> sub_planner c = Some pc -> source_of getenv to_int c e ->
  sub_sampler c = Some sec -> ss_output sec = OsDirectory dir ->
  let E := seen_in environment z e in
  let cfg := sampler_of sec MySQL in
  env_ok E -> sound_source E pc p -> plan_random_free (p_queries p) -> renumbers_soundly E cfg p ->
  (forall f, (forall t, In t (dkeys (p_queries p)) -> f = json_file dir t -> steady_table E cfg t) -> file_of (cl_places s2 AtDisk) f = file_of (cl_places s3 AtDisk) f) /\
  (forall t n tb, In t (dkeys (p_queries p)) -> named t n -> table_of (en_source_schema E) n tb ->
     Forall2 (fun row2 row3 => forall k, In k (tb_cols tb) -> (forall f, In f (filters_of cfg t) -> ~ may_change f k) -> rget row2 k = rget row3 k)
       (file_of (cl_places s2 AtDisk) (json_file dir t)) (file_of (cl_places s3 AtDisk) (json_file dir t))) /\
  (forall u, cl_places s2 (AtDatabase u) = cl_places s3 (AtDatabase u)).
Proof. intros x y z Hx Hy Hz. exact (@two_steps_directory G getenv to_int reachable environment explicit can_open can_write partly x y z Hx Hy Hz). Qed.

(** C113.  Processes [x] and [y] both plan and sample, from states [s'] and [s] with the same configuration and the same tables at the
    destination, with the same rows in them unless they are truncated. *)
Theorem C113_reproducible_database : forall x y, process_ok x -> process_ok y -> forall files truncate create s' s s2 s3 c p pc e sec u db remap str merge,
  let cmd := mkArgs files (ASubset truncate create) in
  main x cmd s' = (s2, 0%Z) -> main y cmd s = (s3, 0%Z) ->
  configured s' cmd c -> configured s cmd c -> distinct_keys s cmd -> plans y c p -> sub_planner c = Some pc -> source_of getenv to_int c e ->
  sub_sampler c = Some sec -> ss_output sec = OsDatabase db remap str merge -> output_place c (AtDatabase u) ->
  let E := seen_in environment y e in
  let cfg := sampler_of sec (dialect_of u) in
  let dc := mkDbConfig (dialect_of u) remap str merge in
  let d' := cl_places s' (AtDatabase u) in
  let d := cl_places s (AtDatabase u) in
  let d2 := cl_places s2 (AtDatabase u) in
  let d3 := cl_places s3 (AtDatabase u) in
  env_ok E -> sound_source E pc p -> plan_random_free (p_queries p) -> renumbers_soundly E cfg p -> run_ok E cfg dc p d ->
  ds_tables d' = ds_tables d -> truncate = true \/ (forall n, rows_of d' n = rows_of d n) ->
  (forall n tb, table_of (ds_tables d2) n tb <-> table_of (ds_tables d3) n tb) /\
  (forall n, (forall t, In t (dkeys (p_queries p)) -> lands (en_resub E) remap t n -> steady_table E cfg t) ->
     truncate = true /\ affected (en_resub E) remap (ds_tables d3) (dkeys (p_queries p)) n \/ rows_of d' n = rows_of d n -> rows_of d2 n = rows_of d3 n) /\
  (forall t n n' tb tb', In t (dkeys (p_queries p)) -> named t n -> table_of (en_source_schema E) n tb -> lands (en_resub E) remap t n' ->
     table_of (ds_tables d3) n' tb' -> strategy_of dc p t = SError ->
     exists new2 new3, rows_of d2 n' = (if truncate then [] else rows_of d n') ++ new2 /\ rows_of d3 n' = (if truncate then [] else rows_of d n') ++ new3 /\
       Forall2 (fun row2 row3 => forall k, In k (tb_cols tb) -> untouched_column E cfg t n' k -> rget row2 k = rget row3 k) new2 new3).
Proof. intros x y Hx Hy. exact (@again_database G getenv to_int reachable environment explicit can_open can_write partly x y Hx Hy). Qed.
Theorem C113_reproducible_directory : forall x y, process_ok x -> process_ok y -> forall files truncate create s' s s2 s3 c p pc e sec dir,
  let cmd := mkArgs files (ASubset truncate create) in
  main x cmd s' = (s2, 0%Z) -> main y cmd s = (s3, 0%Z) ->
  configured s' cmd c -> configured s cmd c -> distinct_keys s cmd -> plans y c p -> sub_planner c = Some pc -> source_of getenv to_int c e ->
  sub_sampler c = Some sec -> ss_output sec = OsDirectory dir ->
  let E := seen_in environment y e in
  let cfg := sampler_of sec MySQL in
  env_ok E -> sound_source E pc p -> plan_random_free (p_queries p) -> renumbers_soundly E cfg p ->
  forall t, In t (dkeys (p_queries p)) ->
  (steady_table E cfg t -> file_of (cl_places s2 AtDisk) (json_file dir t) = file_of (cl_places s3 AtDisk) (json_file dir t)) /\
  (forall n tb, named t n -> table_of (en_source_schema E) n tb ->
     Forall2 (fun row2 row3 => forall k, In k (tb_cols tb) -> (forall f, In f (filters_of cfg t) -> ~ may_change f k) -> rget row2 k = rget row3 k)
       (file_of (cl_places s2 AtDisk) (json_file dir t)) (file_of (cl_places s3 AtDisk) (json_file dir t))).
Proof. intros x y Hx Hy. exact (@again_directory G getenv to_int reachable environment explicit can_open can_write partly x y Hx Hy). Qed.
End Props.
Print Assumptions C91_two_steps_database.
Print Assumptions C91_two_steps_directory.
Print Assumptions C113_reproducible_database.
Print Assumptions C113_reproducible_directory.

(** ** The case of CliProps.v, by two processes *)
Definition forth : process unit := mkProcess PlannerProps.idl PlannerProps.idl osets osets xz tt.
Definition back : process unit := mkProcess (@rev string) (@rev tname) (@rev string) (@rev tname) (fun _ _ => mkRnd (fun _ _ _ => 1 # 2)%Q (@rev _)) tt.
Lemma forth_ok : process_ok forth.
Proof. repeat split; try (intros l; apply Permutation_refl). - vm_compute. discriminate. Qed.
Lemma back_ok : process_ok back.
Proof. repeat split; try (intros l; apply Permutation_sym, Permutation_rev); vm_compute; discriminate. Qed.
Definition xmain_in (x : process unit) := main (fun _ => None) (fun _ => Some 0%Z) (fun _ => true) (seen_in (fun _ => WholeRunProps.wenv) x) (pr_graph x) (pr_names x) (fun _ => false) (pr_start x)
  (fun f => negb (String.eqb f "/plan.yaml")) (fun f => negb (String.eqb f "full.yaml")) (fun _ => NotYaml).

(** Both ways of sampling write the same rows and files. *)
Example C91_case : let cmd := xargs "db.yaml" in
  let '(s1, k1) := xmain_in back (cmd (APlan (Some "plan.yaml"))) xbefore in
  let '(s2, k2) := xmain_in back (cmd (ASample "plan.yaml" true false)) s1 in
  let '(s3, k3) := xmain_in forth (cmd (ASubset true false)) xbefore in
  (k1, k2, k3) = (0%Z, 0%Z, 0%Z) /\ look s2 = look s3 /\ map (@length row) (look s2) = [1; 2; 2].
Proof. vm_compute. repeat split. Qed.
(** ... also rows that are multiplied and filtered. *)
Definition xmult_sec : sampler_section := mkSection (OsDatabase (mkDatabase (Some "sqlite") None None (Some "dst.db") None None [] [] None no_ssl) [("a.parent", "c.elders")] SError false)
  [("a.child", [FcSimple (SfNull ["pid"])])] (mkMult 2 [] [] []) InferNone default_compact.
Example C91_multiplied : let cmd := xargs "mult.yaml" in
  let '(s1, k1) := xmain_in back (cmd (APlan (Some "plan.yaml"))) xbefore in
  let '(s2, k2) := xmain_in back (cmd (ASample "plan.yaml" true false)) s1 in
  let '(s3, k3) := xmain_in forth (cmd (ASubset true false)) xbefore in
  (k1, k2, k3) = (0%Z, 0%Z, 0%Z) /\ look s2 = look s3 /\
  rows_of (cl_places s2 xpl) ("a", "child") = [ [("pid", VNull); ("id", VInt 2); ("note", VNull)]; [("pid", VNull); ("id", VInt 3); ("note", VNull)] ] /\
  map (@length row) (look s2) = [2; 4; 4].
Proof. vm_compute. repeat split. Qed.
Example C91_steady : match load_config (merged [xmain_yaml; xmult_yaml]) with Ok c => sub_sampler c | Err _ => None end = Some xmult_sec /\
  (forall t, steady_table WholeRunProps.wenv (sampler_of xmult_sec SQLite) t) /\ renumbers_soundly WholeRunProps.wenv (sampler_of xmult_sec SQLite) WholeRunProps.wplan.
Proof.
  split; [vm_compute; reflexivity|]. split; [|left; repeat split]. intros t f Hf. unfold filters_of, dget_or in Hf. cbn [sampler_of sc_filters ss_filters xmult_sec dget] in Hf.
  destruct (eq_dec t "a.child") as [->|]; [destruct Hf as [<-|[]]; exact I|destruct Hf].
Qed.
Definition xtg : Planner.target := mkTarget false None None [] [("pid", [LInt 10; LInt 20])] None.
Definition xpc : config := PlannerProps.xcfg [("a.parent", xtg)] [("a.child", [PlannerProps.cA])].
Definition xplan : plan := PlannerProps.plan_of xpc.
Definition xdst : database_config := mkDatabase (Some "sqlite") None None (Some "dst.db") None None [] [] None no_ssl.
Definition xremap : list (string * string) := [("a.parent", "c.elders")].
Definition xsec : sampler_section := mkSection (OsDatabase xdst xremap SError false) [] default_mult InferNone default_compact.
Definition xsrc : database_config := mkDatabase (Some "sqlite") None None (Some "src.db") None None [] [] None no_ssl.
Definition xsub : subsetter_config := mkSubsetter xsrc (Some xpc) (Some xsec).
Definition xengine : engine := mkEngine (mkUrl "sqlite" None None (Some "src.db") None None []) "SERIALIZABLE" NoArgs [].
Example C91_hypotheses :
  configured xbefore (xargs "db.yaml" (APlan None)) xsub /\ distinct_keys xbefore (xargs "db.yaml" (APlan None)) /\
  CliSpec.plans (fun _ => None) (fun _ => Some 0%Z) (fun _ => true) (fun _ => WholeRunProps.wenv) PlannerProps.idl PlannerProps.idl xsub xplan /\
  source_of (fun _ => None) (fun _ => Some 0%Z) xsub xengine /\ output_place (fun _ => None) (fun _ => Some 0%Z) xsub xpl /\ renumbers_soundly WholeRunProps.wenv (sampler_of xsec SQLite) xplan /\
  env_ok WholeRunProps.wenv /\ sound_source WholeRunProps.wenv xpc xplan /\ plan_random_free (p_queries xplan) /\
  run_ok WholeRunProps.wenv (sampler_of xsec SQLite) (mkDbConfig SQLite xremap SError false) xplan (cl_places xbefore xpl) /\
  lands osub xremap "a.parent" ("c", "elders") /\ untouched_column WholeRunProps.wenv (sampler_of xsec SQLite) "a.parent" ("c", "elders") "gid".
Proof.
  assert (Hsay : say xbefore (config_files (xargs "db.yaml" (APlan None))) [xmain_yaml; xdb_yaml]) by reflexivity.
  assert (Hplan : plan_db PlannerProps.idl PlannerProps.idl PlannerProps.xfnm xpc PlannerProps.xdb = Ok xplan) by (vm_compute; reflexivity).
  destruct WholeRunProps.C87_hypotheses as (He & Hpl & _). destruct Hpl as (_ & _ & Hdb & _ & _ & Hsrc & _).
  assert (Hcf : configured xbefore (xargs "db.yaml" (APlan None)) xsub) by (exists [xmain_yaml; xdb_yaml]; split; [exact Hsay|vm_compute; reflexivity]).
  assert (Hdk : distinct_keys xbefore (xargs "db.yaml" (APlan None))).
  { intros ds Hds. rewrite (say_fun Hds Hsay). assert (W : forall d, (fix wf d := match d with DMap m => nodupb (dkeys m) && forallb (fun kv => wf (snd kv)) m | _ => true end) d = true -> well_formed d).
    { fix IH 1. intros d H. destruct d as [| | | | | |m]; try (apply wf_other; intros (? & ?); discriminate). apply andb_prop in H. destruct H as [H1 H2]. apply wf_map; [apply nodupb_true; exact H1|].
      clear H1. induction m as [|[k0 v0] m IHm]; intros k v HI; [destruct HI|]. cbn [forallb snd] in H2. apply andb_prop in H2. destruct H2 as [H2 H3]. destruct HI as [HI|HI]; [injection HI as _ <-; apply IH; exact H2|exact (IHm H3 k v HI)]. }
    constructor; [apply W; vm_compute; reflexivity|constructor; [apply W; vm_compute; reflexivity|constructor]]. }
  assert (Hp : CliSpec.plans (fun _ => None) (fun _ => Some 0%Z) (fun _ => true) (fun _ => WholeRunProps.wenv) PlannerProps.idl PlannerProps.idl xsub xplan).
  { exists xpc, xengine. split; [reflexivity|]. split; [vm_compute; reflexivity|]. split; [reflexivity|exact Hplan]. }
  assert (Hss : sound_source WholeRunProps.wenv xpc xplan).
  { split; [exact Hdb|]. split.
    - intros n g t c (s & [Eq|[]] & Hn) [Ht Ht'] Hc. inversion Eq; subst s g. clear Eq. apply (proj2 (parse_named _ _)) in Hn. vm_compute in Hn. inversion Hn as [Ex].
      assert (c = "pid") as ->. { destruct Hc as [(x & [])|(x & [Eq|[]])]. inversion Eq. reflexivity. }
      destruct Ht as [<-|[<-|[<-|[<-|[]]]]]; rewrite <- Ht' in Ex; try discriminate Ex; left; reflexivity.
    - split; [exact Hsrc|]. intros s _. apply eqb_refl. }
  assert (Hso : source_of (fun _ => None) (fun _ => Some 0%Z) xsub xengine) by (vm_compute; reflexivity).
  split; [exact Hcf|]. split; [exact Hdk|]. split; [exact Hp|]. split; [exact Hso|]. split; [exists xsec; split; [reflexivity|]; eexists; split; [vm_compute; reflexivity|reflexivity]|].
  split; [left; repeat split|]. split; [exact He|]. split; [exact Hss|]. split.
  { intros s q st HI Hq. vm_compute in HI. repeat (destruct HI as [HI|HI]; [injection HI as <- <-; cbn in Hq; injection Hq as <-; cbn; tauto|]). destruct HI. }
  split; [|split; [exists ("a", "parent"); split; apply parse_named; reflexivity|split; [intros f []|reflexivity]]].
  constructor; [reflexivity|exact Hdb|apply db_okb_true; vm_compute; reflexivity|intros l; apply Permutation_refl|intros n s _; apply eqb_true|].
  refine (WholeRunProps.C87_columns WholeRunProps.wenv _ xplan xpc He _ _); [|repeat split].
  exact (planned (environment := fun _ => WholeRunProps.wenv) PlannerProps.idl_any PlannerProps.idl_any Hcf Hdk eq_refl Hso Hp Hss).
Qed.

(** The process [forth] sees that environment and makes that plan; [back] lists its queries differently. *)
Example C91_C113_processes : seen_in (fun _ => WholeRunProps.wenv) forth xengine = WholeRunProps.wenv /\ process_ok forth /\ process_ok back /\
  CliSpec.plans (fun _ => None) (fun _ => Some 0%Z) (fun _ => true) (seen_in (fun _ => WholeRunProps.wenv) forth) (pr_graph forth) (pr_names forth) xsub xplan.
Proof.
  split; [reflexivity|]. split; [exact forth_ok|]. split; [exact back_ok|]. exists xpc, xengine. split; [reflexivity|]. split; [vm_compute; reflexivity|]. split; [reflexivity|vm_compute; reflexivity].
Qed.
(** C113: the destination holds other rows when the second process truncates and samples; it ends with the same rows. *)
Definition xother : cli := mkCli xfiles (Doc DNull) [] (fun _ => w_dest (odest WholeRunProps.wtables [(("a", "child"), [ [("pid", VInt 7); ("id", VInt 9); ("note", VStr "old")] ]); (("c", "elders"), [ [("pid", VInt 7); ("gid", VInt 5)] ])] [])) [].
Example C113_case : let cmd := xargs "mult.yaml" (ASubset true false) in
  let '(s2, k2) := xmain_in back cmd xother in
  let '(s3, k3) := xmain_in forth cmd xbefore in
  (k2, k3) = (0%Z, 0%Z) /\ look xother <> look xbefore /\ look s2 = look s3 /\ map (@length row) (look s3) = [2; 4; 4].
Proof. vm_compute. repeat split. discriminate. Qed.
Example C113_hypotheses : configured xother (xargs "db.yaml" (ASubset true false)) xsub /\ configured xbefore (xargs "db.yaml" (ASubset true false)) xsub /\
  ds_tables (cl_places xother xpl) = ds_tables (cl_places xbefore xpl).
Proof. destruct C91_hypotheses as (H & _). split; [exact H|]. split; [exact H|]. reflexivity. Qed.
