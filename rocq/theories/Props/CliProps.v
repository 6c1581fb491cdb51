(** Properties C88 to C90 and C92 to C94 (C91 is in ProcessProps.v): the command line and the configuration file.  What is outside the program is arbitrary: the environment variables
    [getenv], Python's [int()], which databases answer and what is in them, the iteration orders of sets, the random generator's [start],
    which fields of a plan count as set explicitly, which files can be opened and written and what a failed write leaves behind. *)
From Coq Require Import Lia Permutation.
From Verif Require Import Model.Base Model.Value Model.Names Model.PlanModel Model.Metadata Model.Planner Model.Filters Model.Multiply Model.Materialize
  Model.Dest Model.Output Model.Sampler Model.Config Model.PlanIO Model.ConfigIO Model.Main.
From Verif Require Import Spec.GraphSpec Spec.SchemaSpec Spec.SqlSem Spec.PlannerSpec Spec.FilterSpec Spec.OutputSpec Spec.SampleSpec Spec.RunSpec Spec.WholeSpec Spec.SameSpec Spec.ConfigSpec Spec.CliSpec.
From Verif Require Import Proofs.BaseFacts Proofs.NameFacts Proofs.MetadataMain Proofs.PlannerExamples Proofs.PlanIOPlanner Proofs.SampleFinal Proofs.SampleExamples Proofs.OutputExamples
  Proofs.ConfigLoad Proofs.CliFacts Proofs.TwoSteps Proofs.CliEnv.
From Verif Require Props.PlannerProps Props.WholeProps Props.WholeRunProps.
From Verif Require Import Model.Dest.
Open Scope string_scope.
Open Scope list_scope.

(** C88.  What is missing: the sections of connections, of their TLS settings and of filters. *)
Theorem C88_unknown_options_partial : forall d c position names m k v, load_config d = Ok c -> In (position, names) options -> found d position m ->
  In (k, v) m -> In k names.
Proof. exact known_options. Qed.

(** C93 *)
Theorem C93_defaults_planner : forall m k v, In (k, v) planner_defaults -> dget m k = None -> load_planner (DMap (m ++ [(k, v)])) = load_planner (DMap m).
Proof. exact planner_default. Qed.
Theorem C93_defaults_target : forall m k v, In (k, v) target_defaults -> dget m k = None -> load_target (DMap (m ++ [(k, v)])) = load_target (DMap m).
Proof. exact target_default. Qed.
Theorem C93_defaults_sampler : forall m k v, In (k, v) sampler_defaults -> dget m k = None -> load_sampler (DMap (m ++ [(k, v)])) = load_sampler (DMap m).
Proof. exact sampler_default. Qed.
Theorem C93_defaults_multiplicity : forall m k v, In (k, v) mult_defaults -> dget m k = None -> load_mult (DMap (m ++ [(k, v)])) = load_mult (DMap m).
Proof. exact mult_default. Qed.
Theorem C93_defaults_compact : forall m k v, In (k, v) compact_defaults -> dget m k = None -> load_compact (DMap (m ++ [(k, v)])) = load_compact (DMap m).
Proof. exact compact_default. Qed.
Theorem C93_defaults_output : forall m k v, In (k, v) output_defaults -> dget m k = None -> dget m "mode" = Some (DStr "database") ->
  load_output (DMap (m ++ [(k, v)])) = load_output (DMap m).
Proof. exact output_default. Qed.

(** C92 *)
Theorem C92_accepted_configurations : forall s a c pc, configured s a c -> distinct_keys s a -> sub_planner c = Some pc ->
  NoDup (dkeys (c_targets pc)) /\ NoDup (dkeys (c_constraints pc)) /\
  forall x, In x (c_extra_fks pc) -> x_src_cols x <> [] /\ length (x_src_cols x) = length (x_dst_cols x).
Proof. intros s a c pc H1 H2 H3. destruct (configured_valid H1 H2 H3) as [[A B] C]. auto. Qed.

Section Props.
Context {G : Type}.
Variable getenv : string -> option string.
Variable to_int : string -> option Z.
Variable reachable : engine -> bool.
Variable environment : engine -> env G.
Variables (ord_graph : list string -> list string) (ord_names : list tname -> list tname) (explicit : PlanIO.path -> bool) (start : G)
  (can_open can_write : string -> bool) (partly : string -> content).
Notation main_with getenv := (main getenv to_int reachable environment ord_graph ord_names explicit start can_open can_write partly).
Notation main := (main_with getenv).
Notation plans := (plans getenv to_int reachable environment ord_graph ord_names).
Notation runs := (runs getenv to_int reachable environment start).
Notation told := (told getenv to_int reachable environment ord_graph ord_names).
Notation output_place := (output_place getenv to_int).

(** C89 *)
Theorem C89_plan_command : forall a out s s' k, ar_action a = APlan out -> main a s = (s', k) ->
  no_output s s' /\
  (k = 0%Z -> exists c p, configured s a c /\ plans c p /\
     match out with
     | None | Some "" => cl_stdout s' = cl_stdout s ++ [sort_keys (dump_plan explicit p)] /\ (forall f, cl_files s' f = cl_files s f)
     | Some path => cl_files s' path = Some (Doc (sort_keys (dump_plan explicit p))) /\ cl_stdout s' = cl_stdout s /\ (forall f, f <> path -> cl_files s' f = cl_files s f)
     end) /\
  (k <> 0%Z -> nothing_changed s s' \/
     exists path c p, out = Some path /\ configured s a c /\ plans c p /\ can_open path = true /\ can_write path = false /\
       cl_stdout s' = cl_stdout s /\ (forall f, f <> path -> cl_files s' f = cl_files s f)).
Proof. exact (@plan_command G getenv to_int reachable environment ord_graph ord_names explicit start can_open can_write partly). Qed.
(** ... and what was written is read back as this plan. *)
Theorem C89_plan_readable : forall c p, plans c p -> exists p', load_plan (sort_keys (dump_plan explicit p)) = Ok p' /\
  Permutation (p_queries p) (p_queries p') /\ p_passthrough p' = p_passthrough p.
Proof. intros c p (pc & e & _ & _ & _ & H). destruct (plan_file explicit H) as (p' & L & P & _ & Q). exists p'. auto. Qed.

(** C90 *)
Theorem C90_sampling_command : forall a s s' k, (forall out, ar_action a <> APlan out) -> main a s = (s', k) ->
  (k = 1%Z /\ nothing_changed s s') \/
  exists c p truncate create pl w r, told s a c p truncate create /\ runs c p truncate create pl (cl_places s pl) w r /\
    (k = 0%Z <-> exists g, r = Ok g) /\ (forall f, cl_files s' f = cl_files s f) /\ cl_stdout s' = cl_stdout s /\
    cl_log s' = cl_log s ++ map (pair pl) (trace w) /\ (forall q, same_place q pl -> cl_places s' q = w_dest w) /\ (forall q, ~ same_place q pl -> cl_places s' q = cl_places s q).
Proof. exact (@sampling_command G getenv to_int reachable environment ord_graph ord_names explicit start can_open can_write partly). Qed.

(** C94 *)
Theorem C94_plan_environment : forall getenv' a out s, (forall n, getenv ("SUBSET_SOURCE_" ++ n)%string = getenv' ("SUBSET_SOURCE_" ++ n)%string) ->
  ar_action a = APlan out -> main a s = main_with getenv' a s.
Proof. intros getenv' a out s H Ha. apply plan_env with (out := out); assumption. Qed.
Theorem C94_sampling_environment : forall getenv' a s, (forall n, getenv ("SUBSET_SOURCE_" ++ n)%string = getenv' ("SUBSET_SOURCE_" ++ n)%string) ->
  (forall n, getenv ("SUBSET_DESTINATION_" ++ n)%string = getenv' ("SUBSET_DESTINATION_" ++ n)%string) -> main a s = main_with getenv' a s.
Proof. intros getenv' a s H1 H2. apply sampling_env; assumption. Qed.
Theorem C94_destination : forall getenv' c pl, (forall n, getenv ("SUBSET_DESTINATION_" ++ n)%string = getenv' ("SUBSET_DESTINATION_" ++ n)%string) ->
  (output_place c pl <-> CliSpec.output_place getenv' to_int c pl).
Proof. intros getenv' c pl H. apply place_env; assumption. Qed.
End Props.

(** C88: a misspelled TLS option is ignored, and the connection is made without TLS. *)
Theorem C88_unknown_options_refuted : exists d c m k v e, load_config d = Ok c /\ found d [Key "source"; Key "ssl"] m /\ In (k, v) m /\
  ~ In k ["require"; "client"; "server"] /\ database_engine (fun _ => None) (fun _ => Some 0%Z) (sub_source c) (Some "SUBSET_SOURCE_") = Ok e /\ eg_args e = NoArgs.
Proof.
  exists (DMap [("source", DMap [("host", DStr "db"); ("ssl", DMap [("requires", DBool true)])])]). do 2 eexists. exists "requires", (DBool true). eexists.
  split; [vm_compute; reflexivity|]. split; [eapply found_key; [reflexivity|]; eapply found_key; [reflexivity|]; apply found_here|]. split; [left; reflexivity|].
  split; [cbn; intuition discriminate|]. split; vm_compute; reflexivity.
Qed.
Print Assumptions C88_unknown_options_partial.
Print Assumptions C88_unknown_options_refuted.
Print Assumptions C89_plan_command.
Print Assumptions C89_plan_readable.
Print Assumptions C90_sampling_command.
Print Assumptions C92_accepted_configurations.
Print Assumptions C93_defaults_planner.
Print Assumptions C93_defaults_target.
Print Assumptions C93_defaults_sampler.
Print Assumptions C93_defaults_multiplicity.
Print Assumptions C93_defaults_compact.
Print Assumptions C93_defaults_output.
Print Assumptions C94_plan_environment.
Print Assumptions C94_sampling_environment.
Print Assumptions C94_destination.

(** ** A case: the database of Props/PlannerProps.v; two configuration files, the second names the output. *)
Definition strs (l : list string) : data := DList (map DStr l).
Definition xmain_yaml : data := DMap [
  ("source", DMap [("dialect", DStr "sqlite"); ("database", DStr "src.db")]);
  ("planner", DMap [("targets", DMap [("a.parent", DMap [("in", DMap [("pid", DList [DInt 10; DInt 20])])])]); ("select", strs ["a.child"]);
     ("passthrough", strs ["b.codes"]); ("table_constraints", DMap [("a.child", DList [DMap [("column", DStr "id"); ("operator", DStr "="); ("value", DInt 1)]])])]);
  ("sampler", DMap [("output", DMap [("mode", DStr "database"); ("dialect", DStr "sqlite"); ("database", DStr "x.db")])])].
Definition xdb_yaml : data := DMap [("sampler", DMap [("output", DMap [("database", DStr "dst.db");
   ("remap", DList [DMap [("search", DStr "a.parent"); ("replace", DStr "c.elders")]])])])].
Definition xdir_yaml : data := DMap [("sampler", DNull)].
Definition xdir2_yaml : data := DMap [("sampler", DMap [])].
Definition xmult_yaml : data := DMap [("sampler", DMap [("output", DMap [("database", DStr "dst.db"); ("remap", DList [DMap [("search", DStr "a.parent"); ("replace", DStr "c.elders")]])]);
   ("multiplicity", DMap [("multiplier", DInt 2)]); ("filters", DMap [("a.child", DList [DMap [("op", DStr "null"); ("columns", strs ["pid"])]])])])].
Definition xfiles (f : string) : option content :=
  if String.eqb f "mult.yaml" then Some (Doc xmult_yaml) else
  if String.eqb f "main.yaml" then Some (Doc xmain_yaml) else if String.eqb f "db.yaml" then Some (Doc xdb_yaml)
  else if String.eqb f "none.yaml" then Some (Doc xdir_yaml) else if String.eqb f "dir.yaml" then Some (Doc xdir2_yaml) else None.
Definition xbefore : cli := mkCli xfiles (Doc DNull) [] (fun _ => w_dest WholeRunProps.wbefore) [].
Definition xmain := main (fun _ => None) (fun _ => Some 0%Z) (fun _ => true) (fun _ => WholeRunProps.wenv) PlannerProps.idl PlannerProps.idl (fun _ => false) tt
  (fun f => negb (String.eqb f "/plan.yaml")) (fun f => negb (String.eqb f "full.yaml")) (fun _ => NotYaml).
Definition xargs (second : string) x := mkArgs ["main.yaml"; second] x.
Definition xpl : place := AtDatabase (mkUrl "sqlite" None None (Some "dst.db") None None []).
Definition look (s : cli) : list (list row) := map (rows_of (cl_places s xpl)) [("a", "child"); ("c", "elders"); ("b", "grp")].

(** The plan is written; a plan file that cannot be opened or written is an error. *)
Example C89_case : let '(s1, k1) := xmain (xargs "db.yaml" (APlan (Some "plan.yaml"))) xbefore in k1 = 0%Z /\
  match cl_files s1 "plan.yaml" with Some (Doc d) => match load_plan d with Ok p => dkeys (p_queries p) | Err _ => [] end | _ => [] end = ["a.child"; "a.parent"; "b.codes"; "b.grp"] /\
  snd (xmain (xargs "db.yaml" (APlan (Some "/plan.yaml"))) xbefore) = 1%Z /\ snd (xmain (xargs "db.yaml" (APlan (Some "full.yaml"))) xbefore) = 1%Z /\
  snd (xmain (xargs "db.yaml" (APlan None)) xbefore) = 0%Z /\ snd (xmain (xargs "missing.yaml" (APlan None)) xbefore) = 1%Z.
Proof. vm_compute. repeat split. Qed.
(** Sampling with the sampler section replaced by null fails and changes nothing. *)
Example C90_case : let '(s, k) := xmain (xargs "db.yaml" (ASubset true false)) xbefore in k = 0%Z /\
  look s = [ [ [("pid", VInt 10); ("id", VInt 1); ("note", VNull)] ]; [ [("pid", VInt 10); ("gid", VInt 100)]; [("pid", VInt 20); ("gid", VInt 200)] ]; [ [("gid", VInt 100)]; [("gid", VInt 200)] ] ] /\
  cl_places s AtDisk = w_dest WholeRunProps.wbefore /\
  (let '(s', k') := xmain (xargs "none.yaml" (ASubset true false)) xbefore in k' = 1%Z /\ look s' = look xbefore).
Proof. vm_compute. repeat split. Qed.

(** C88, C92, C93: the files of the case are accepted; with a misspelled option, or columns of an extra foreign key that do not match, they are not. *)
Definition xedit (d : data) : data := merged [xmain_yaml; DMap [("planner", d)]].
Example C88_C92_C93_case : load_config (xedit (DMap [])) <> Err LxInvalid /\
  found (xedit (DMap [])) [Key "planner"; Key "targets"; Each] [("in", DMap [("pid", DList [DInt 10; DInt 20])])] /\
  load_config (xedit (DMap [("targets", DMap [("a.parent", DMap [("percents", DInt 5)])])])) = Err LxInvalid /\
  load_config (xedit (DMap [("extra_fks", DList [DMap [("src_table", DStr "a.child"); ("src_columns", strs ["id"; "pid"]); ("dst_table", DStr "b.codes"); ("dst_columns", strs ["code"])]])])) = Err LxInvalid /\
  load_config (xedit (DMap [("extra_fks", DList [DMap [("src_table", DStr "a.child"); ("src_columns", strs ["id"]); ("dst_table", DStr "b.codes"); ("dst_columns", strs ["code"])]])])) <> Err LxInvalid /\
  load_config (xedit (DMap [("include_dependencies", DBool true)])) = load_config (xedit (DMap [])) /\
  load_config (xedit (DMap [("include_dependencies", DBool false)])) <> load_config (xedit (DMap [])).
Proof.
  split; [vm_compute; discriminate|]. split; [eapply found_key; [reflexivity|]; eapply found_key; [reflexivity|]; eapply found_each; [left; reflexivity|]; apply found_here|].
  split; [vm_compute; reflexivity|]. split; [vm_compute; reflexivity|]. split; [vm_compute; discriminate|]. split; [vm_compute; reflexivity|]. vm_compute. discriminate.
Qed.
(** C94: the variables of the destination decide where output goes. *)
Example C94_case : let c d := mkSubsetter default_database None (Some (mkSection (OsDatabase d [] SError false) [] default_mult InferNone default_compact)) in
  let vars n := if String.eqb n "SUBSET_DESTINATION_HOST" then Some "dst" else if String.eqb n "SUBSET_SOURCE_HOST" then Some "src" else None in
  output_place vars (fun _ => Some 0%Z) (c default_database) (AtDatabase (mkUrl "mysql+pymysql" (Some "dst") (Some 3306%Z) None None None [("charset", "utf8mb4")])) /\
  output_place (fun _ => None) (fun _ => Some 0%Z) (c default_database) (AtDatabase (mkUrl "mysql+pymysql" (Some "localhost") (Some 3306%Z) None None None [("charset", "utf8mb4")])).
Proof. split; (eexists; split; [reflexivity|]; eexists; split; [vm_compute; reflexivity|reflexivity]). Qed.
