(** Model of the command line: /repo/subsetter/__main__.py after the arguments were parsed (parsing is in Model/Args.v; logging and progress bars are left out). *)
From Verif Require Import Model.Base Model.Value Model.Names Model.PlanModel Model.Metadata Model.Planner Model.Filters Model.Multiply
  Model.Materialize Model.Dest Model.Output Model.Sampler Model.Config Model.PlanIO Model.ConfigIO.
Open Scope string_scope.
Open Scope list_scope.

(** __main__.py:31-98  the arguments; [-o], [-p], [--truncate], [--create], [-c] *)
Inductive action := APlan (output : option string) | ASample (plan : string) (truncate create : bool) | ASubset (truncate create : bool).
Record args := mkArgs { ar_config : list string; ar_action : action }.

(** What a file says: YAML data (nothing, for an empty file) or something that is not YAML.  (__main__.py:122, 178) *)
Inductive content := Doc (d : data) | NotYaml.
(** Where output goes: the database of a URL or the directories of the machine.  (sampler.py:333-341) *)
Inductive place := AtDatabase (u : url) | AtDisk.
(** The state of the machine.  [cl_files]: [None] when a file cannot be read.  [cl_log]: what was executed, and where.  (__main__.py:218-246) *)
Record cli := mkCli { cl_files : string -> option content; cl_stdin : content; cl_stdout : list data; cl_places : place -> dest;
  cl_log : list (place * event) }.

(** Everything that ends a command; [SystemExit] after a message or an exception.  (__main__.py:123-138, 150-152, 167-171, 179-193, 204-208, 239-246) *)
Inductive cli_exn :=
| CxOpenConfig | CxYamlConfig | CxInvalidConfig            (* 123, 239, 132 *)
| CxNoPlanner                                              (* 150, 204 *)
| CxSettings (e : url_exn)                                 (* common.py:43, 67, 155 *)
| CxUnreachable                                            (* an error of the source database *)
| CxPlanning (e : plan_exn)
| CxWritePlan                                              (* 167 *)
| CxOpenPlan | CxYamlPlan | CxInvalidPlan                  (* 186, 239, 179 *)
| CxNoSampler                                              (* AttributeError: sampler.py:730 *)
| CxSampling (e : out_exn).

Definition cio (A : Type) := cli -> cli * res cli_exn A.
Definition done {A} (a : A) : cio A := fun s => (s, Ok a).
Definition fail {A} (e : cli_exn) : cio A := fun s => (s, Err e).
Definition then_do {A B} (m : cio A) (k : A -> cio B) : cio B :=
  fun s => match m s with (s', Ok a) => k a s' | (s', Err e) => (s', Err e) end.
Notation "'let!' x := m 'in' k" := (then_do m (fun x => k)) (at level 200, x pattern, m at level 100, k at level 200, right associativity).
(** An exception of a part of the program, as __main__.py:148-216 sees it. *)
Definition try {E A} (err : E -> cli_exn) (r : res E A) : cio A := match r with Ok a => done a | Err e => fail (err e) end.

(** __main__.py:22-28  _open_config_path and yaml.safe_load; what is read from the standard input is gone. *)
Definition read_yaml (cannot_open not_yaml : cli_exn) (path : string) : cio data := fun s =>
  let parsed c := match c with Doc d => Ok d | NotYaml => Err not_yaml end in
  if String.eqb path "-" then (mkCli (cl_files s) (Doc DNull) (cl_stdout s) (cl_places s) (cl_log s), parsed (cl_stdin s))
  else (s, match cl_files s path with Some c => parsed c | None => Err cannot_open end).

(** __main__.py:118-122 *)
Fixpoint read_configs (files : list string) (config_data : data) : cio data :=
  match files with
  | [] => done config_data
  | f :: files' => let! d := read_yaml CxOpenConfig CxYamlConfig f in read_configs files' (dict_merge config_data d)
  end.
(** __main__.py:101-145  _get_config *)
Definition get_config (a : args) : cio subsetter_config :=
  let files := if is_nil (ar_config a) then ["subsetter.yaml"] else ar_config a in
  let! d := read_configs files (DMap []) in
  try (fun _ => CxInvalidConfig) (load_config d).

Section Main.
Context {G : Type}.
(** Outside the program: environment variables and int(); whether a source database answers, what is in it and everything else a run
    meets (as in Model/Sampler.v); set orders in the planner; which fields of a plan were set explicitly; the random generator; whether a
    file can be opened for writing and written, and what is left of it when writing fails. *)
(** common.py:30-76, os.environ. *)
Variable getenv : string -> option string.
(** common.py:30-76, int(). *)
Variable to_int : string -> option Z.
(** metadata.py:72-84. *)
Variable reachable : engine -> bool.
(** sampler.py:721-751, planner.py:43-63. *)
Variable environment : engine -> env G.
Variables ord_graph : list string -> list string.
Variables ord_names : list tname -> list tname.
(** __main__.py:148-172, exclude_unset. *)
Variable explicit : path -> bool.
(** filters.py:29-32. *)
Variable start : G.
Variables can_open can_write : string -> bool.
(** __main__.py:148-172. *)
Variable partly : string -> content.

(** planner.py:36, sampler.py:715 *)
Definition connect_source (c : subsetter_config) : cio engine :=
  let! e := try CxSettings (database_engine getenv to_int (sub_source c) (Some "SUBSET_SOURCE_")) in
  if reachable e then done e else fail CxUnreachable.

(** __main__.py:150-154, 204-210  Planner(config.source, config.planner).plan() *)
Definition make_plan (c : subsetter_config) : cio plan :=
  match sub_planner c with
  | None => fail CxNoPlanner
  | Some pc =>
      let! e := connect_source c in
      try CxPlanning (plan_db ord_graph ord_names (en_fnm (environment e)) pc (en_source_schema (environment e)))
  end.

(** __main__.py:155-171.  Opening a file for writing empties it. *)
Definition write_plan (output : option string) (p : plan) : cio unit := fun s =>
  let text := sort_keys (dump_plan explicit p) in
  let write path c := mkCli (fun f => if String.eqb f path then Some c else cl_files s f) (cl_stdin s) (cl_stdout s) (cl_places s) (cl_log s) in
  match output with
  | None | Some "" => (mkCli (cl_files s) (cl_stdin s) (cl_stdout s ++ [text]) (cl_places s) (cl_log s), Ok tt)
  | Some path =>
      if negb (can_open path) then (s, Err CxWritePlan)
      else if negb (can_write path) then (write path (partly path), Err CxWritePlan)
      else (write path (Doc text), Ok tt)
  end.

(** The SQLAlchemy dialect of a connection.  (sampler.py:185-232, common.py:52-65) *)
Definition dialect_of (u : url) : dialect :=
  if String.eqb (u_driver u) "mysql+pymysql" then MySQL
  else if String.eqb (u_driver u) "postgresql+psycopg2" then PostgreSQL
  else if String.eqb (u_driver u) "sqlite" then SQLite else OtherDialect.
(** Run a program of Model/Sampler.v on the output at a place.  (__main__.py:174-216) *)
Definition at_place {A} (pl : place) (prog : io out_exn A) : cio A := fun s =>
  let (w, r) := prog (mkWorld (cl_places s pl) []) in
  (mkCli (cl_files s) (cl_stdin s) (cl_stdout s)
     (fun q => match q, pl with
               | AtDisk, AtDisk => w_dest w
               | AtDatabase u, AtDatabase v => if eqb (u_driver u, u_host u, u_port u, u_database u) (u_driver v, u_host v, u_port v, u_database v) then w_dest w else cl_places s q
               | _, _ => cl_places s q
               end)
     (cl_log s ++ map (pair pl) (trace w)),
   match r with Ok a => Ok a | Err e => Err (CxSampling e) end).

(** __main__.py:195-199, 211-215  Sampler(config.source, config.sampler).sample(...).  Simplifications: the destination answers; the
    destination's settings (sampler.py:399) are looked at before the filters and the multiplicities are checked (nothing is written in
    between; when both are wrong the program reports the other error). *)
Definition run_sampler (c : subsetter_config) (p : plan) (truncate create : bool) : cio unit :=
  let! src := connect_source c in
  match sub_sampler c with
  | None => fail CxNoSampler
  | Some s =>
      let! (pl, out) :=
        match ss_output s with
        | OsDirectory dir => done (AtDisk, ToDirectory dir)
        | OsDatabase db remap st merge =>
            let! dst := try CxSettings (database_engine getenv to_int db (Some "SUBSET_DESTINATION_")) in
            done (AtDatabase (eg_url dst), ToDatabase (mkDbConfig (dialect_of (eg_url dst)) remap st merge))
        end in
      let! _ := at_place pl (sample (environment src) (mkSampler out (ss_filters s) (ss_multiplicity s) (ss_infer s) (ss_compact s)) p truncate create start) in
      done tt
  end.

(** __main__.py:148-171  _main_plan *)
Definition main_plan (a : args) (output : option string) : cio unit :=
  let! c := get_config a in
  let! p := make_plan c in
  write_plan output p.
(** __main__.py:174-199  _main_sample *)
Definition main_sample (a : args) (plan : string) (truncate create : bool) : cio unit :=
  let! c := get_config a in
  let! d := read_yaml CxOpenPlan CxYamlPlan plan in
  let! p := try (fun _ => CxInvalidPlan) (load_plan d) in
  run_sampler c p truncate create.
(** __main__.py:202-215  _main_subset *)
Definition main_subset (a : args) (truncate create : bool) : cio unit :=
  let! c := get_config a in
  let! p := make_plan c in
  run_sampler c p truncate create.
(** __main__.py:218-246  main: the exit status *)
Definition main (a : args) : cli -> cli * Z := fun s =>
  let (s', r) :=
    match ar_action a with
    | APlan output => main_plan a output s
    | ASample plan truncate create => main_sample a plan truncate create s
    | ASubset truncate create => main_subset a truncate create s
    end in
  (s', match r with Ok _ => 0%Z | Err _ => 1%Z end).
End Main.
