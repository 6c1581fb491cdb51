(** Specification vocabulary for the command line and the configuration file. *)
From Verif Require Import Model.Base Model.Value Model.Names Model.PlanModel Model.Metadata Model.Planner Model.Materialize Model.Dest Model.Output Model.Sampler
  Model.Config Model.PlanIO Model.ConfigIO Model.Main.
From Verif Require Import Spec.SchemaSpec Spec.PlannerSpec Spec.OutputSpec Spec.SampleSpec Spec.WholeSpec Spec.ConfigSpec.
Open Scope string_scope.
Open Scope list_scope.

(** ** What a command reads *)
(** The contents found at the paths, read in order.  "-" is the standard input, which is empty when it is read again. *)
Fixpoint inputs (files : string -> option content) (stdin : content) (paths : list string) : list (option content) :=
  match paths with
  | [] => []
  | p :: ps => if String.eqb p "-" then Some stdin :: inputs files (Doc DNull) ps else files p :: inputs files stdin ps
  end.
(** All of them can be read, and say [ds]. *)
Definition say (s : cli) (paths : list string) (ds : list data) : Prop :=
  inputs (cl_files s) (cl_stdin s) paths = map (fun d => Some (Doc d)) ds.
Definition config_files (a : args) : list string := match ar_config a with [] => ["subsetter.yaml"] | l => l end.
(** Later files win (C75). *)
Definition merged (ds : list data) : data := fold_left dict_merge ds (DMap []).
(** The configuration of a command. *)
Definition configured (s : cli) (a : args) (c : subsetter_config) : Prop :=
  exists ds, say s (config_files a) ds /\ load_config (merged ds) = Ok c.
(** ... and the plan it was given. *)
Definition configured_with (s : cli) (a : args) (file : string) (c : subsetter_config) (p : plan) : Prop :=
  exists ds d, say s (config_files a ++ [file]) (ds ++ [d]) /\ load_config (merged ds) = Ok c /\ load_plan d = Ok p.

(** No mapping of the configuration files repeats a key. *)
Definition distinct_keys (s : cli) (a : args) : Prop := forall ds, say s (config_files a) ds -> Forall well_formed ds.

(** ** What a command changes *)
(** The two states differ at most in what was read from the standard input. *)
Definition nothing_changed (s s' : cli) : Prop :=
  (forall f, cl_files s' f = cl_files s f) /\ cl_stdout s' = cl_stdout s /\ (forall pl, cl_places s' pl = cl_places s pl) /\ cl_log s' = cl_log s.
Definition no_output (s s' : cli) : Prop := (forall pl, cl_places s' pl = cl_places s pl) /\ cl_log s' = cl_log s.
(** Two places are the same. *)
Definition same_place (a b : place) : Prop :=
  match a, b with
  | AtDisk, AtDisk => True
  | AtDatabase u, AtDatabase v => u_driver u = u_driver v /\ u_host u = u_host v /\ u_port u = u_port v /\ u_database u = u_database v
  | _, _ => False
  end.

Section Places.
Variable getenv : string -> option string.
Variable to_int : string -> option Z.
(** [e] is the connection to the source database; [pl] the place named by the sampler's output section. *)
Definition source_of (c : subsetter_config) (e : engine) : Prop := database_engine getenv to_int (sub_source c) (Some "SUBSET_SOURCE_") = Ok e.
Definition output_place (c : subsetter_config) (pl : place) : Prop :=
  exists s, sub_sampler c = Some s /\
  match ss_output s with
  | OsDirectory _ => pl = AtDisk
  | OsDatabase db _ _ _ => exists e, database_engine getenv to_int db (Some "SUBSET_DESTINATION_") = Ok e /\ pl = AtDatabase (eg_url e)
  end.
(** A connection with the driver of [u] is to a database with the dialect [dl]. *)
Definition speaks (u : url) (dl : dialect) : Prop :=
  (dl = MySQL <-> u_driver u = "mysql+pymysql") /\ (dl = PostgreSQL <-> u_driver u = "postgresql+psycopg2") /\ (dl = SQLite <-> u_driver u = "sqlite").
(** How the sampler is configured for a destination database with the dialect [dl]. *)
Definition sampler_of (s : sampler_section) (dl : dialect) : sampler_config :=
  mkSampler (match ss_output s with OsDirectory d => ToDirectory d | OsDatabase _ remap st merge => ToDatabase (mkDbConfig dl remap st merge) end)
    (ss_filters s) (ss_multiplicity s) (ss_infer s) (ss_compact s).
End Places.

(** ** What a command does *)
Section Doing.
Context {G : Type}.
Variable getenv : string -> option string.
Variable to_int : string -> option Z.
Variable reachable : engine -> bool.
Variable environment : engine -> env G.
Variables (ord_graph : list string -> list string) (ord_names : list tname -> list tname) (start : G).
(** The planner makes the plan [p]. *)
Definition plans (c : subsetter_config) (p : plan) : Prop :=
  exists pc e, sub_planner c = Some pc /\ source_of getenv to_int c e /\ reachable e = true /\
    plan_db ord_graph ord_names (en_fnm (environment e)) pc (en_source_schema (environment e)) = Ok p.
(** A run of the sampler at a place. *)
Definition runs (c : subsetter_config) (p : plan) (truncate create : bool) (pl : place) (d : dest) (w : world) (r : res out_exn G) : Prop :=
  exists e s dl, source_of getenv to_int c e /\ reachable e = true /\ sub_sampler c = Some s /\ output_place getenv to_int c pl /\
    (forall u, pl = AtDatabase u -> speaks u dl) /\
    sample (environment e) (sampler_of s dl) p truncate create start (mkWorld d []) = (w, r).
(** What a sampling command is told to do. *)
Definition told (s : cli) (a : args) (c : subsetter_config) (p : plan) (truncate create : bool) : Prop :=
  match ar_action a with
  | APlan _ => False
  | ASample file t cr => configured_with s a file c p /\ t = truncate /\ cr = create
  | ASubset t cr => configured s a c /\ plans c p /\ t = truncate /\ cr = create
  end.
(** What is asked of a source database and of the targets of a plan. *)
Definition sound_source (E : env G) (pc : config) (p : plan) : Prop :=
  db_ok (en_source_schema E) /\ targets_fit pc (en_source_schema E) /\ source_ok id_column (en_source_schema E) (en_source E) /\
  (forall s, In s (dkeys (p_queries p)) -> en_fnm E s s = true).
End Doing.

(** ** The options of a configuration file *)
(** Where an option stands: under a key, under any key of a mapping or in any element of a list. *)
Inductive step := Key (k : string) | Each | Element.
(** [found d where m]: at one of the positions [where] of [d] there is the mapping [m]. *)
Inductive found : data -> list step -> dict string data -> Prop :=
| found_here : forall m, found (DMap m) [] m
| found_key : forall m k d w m', dget m k = Some d -> found d w m' -> found (DMap m) (Key k :: w) m'
| found_each : forall m k d w m', In (k, d) m -> found d w m' -> found (DMap m) (Each :: w) m'
| found_element : forall l d w m', In d l -> found d w m' -> found (DList l) (Element :: w) m'.
(** The options documented in subsetter.example.yaml and README.md, except those of connections and filters. *)
Definition options : list (list step * list string) :=
  [ ([], ["source"; "planner"; "sampler"]);
    ([Key "planner"], ["table_constraints"; "select"; "targets"; "ignore"; "passthrough"; "ignore_fks"; "extra_fks"; "infer_foreign_keys"; "include_dependencies"]);
    ([Key "planner"; Key "targets"; Each], ["all"; "percent"; "amount"; "like"; "in"; "sql"]);
    ([Key "planner"; Key "table_constraints"; Each; Element], ["column"; "operator"; "value"]);
    ([Key "planner"; Key "ignore_fks"; Element], ["src_table"; "dst_table"]);
    ([Key "planner"; Key "extra_fks"; Element], ["src_table"; "src_columns"; "dst_table"; "dst_columns"]);
    ([Key "sampler"], ["output"; "filters"; "multiplicity"; "infer_foreign_keys"; "compact"]);
    ([Key "sampler"; Key "multiplicity"], ["multiplier"; "ignore_tables"; "extra_columns"; "ignore_primary_key_columns"]);
    ([Key "sampler"; Key "compact"], ["primary_keys"; "auto_increment_keys"; "columns"; "start_key"]);
    ([Key "sampler"; Key "output"; Key "remap"; Element], ["search"; "replace"]) ].

(** The default values. *)
Definition planner_defaults : list (string * data) :=
  [("table_constraints", DMap []); ("ignore", DList []); ("passthrough", DList []); ("ignore_fks", DList []); ("extra_fks", DList []);
   ("infer_foreign_keys", DStr "none"); ("include_dependencies", DBool true)].
Definition target_defaults : list (string * data) :=
  [("all", DBool false); ("percent", DNull); ("amount", DNull); ("like", DMap []); ("in", DMap []); ("sql", DNull)].
Definition sampler_defaults : list (string * data) :=
  [("output", DMap [("mode", DStr "directory"); ("directory", DStr "output")]); ("filters", DMap []); ("multiplicity", DMap []);
   ("infer_foreign_keys", DStr "none"); ("compact", DMap [])].
Definition output_defaults : list (string * data) := [("remap", DList []); ("conflict_strategy", DStr "error"); ("merge", DBool false)].
Definition mult_defaults : list (string * data) :=
  [("multiplier", DInt 1); ("ignore_tables", DList []); ("extra_columns", DMap []); ("ignore_primary_key_columns", DMap [])].
Definition compact_defaults : list (string * data) :=
  [("primary_keys", DBool false); ("auto_increment_keys", DBool false); ("columns", DMap []); ("start_key", DInt 1)].
