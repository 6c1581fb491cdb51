(** What the properties about configuration say, independently of the program's helpers. *)
From Verif Require Import Model.Base Model.Config.
Open Scope string_scope.
Open Scope list_scope.

(** ** Precedence of settings.  An empty string in the configuration counts as not set. *)
Definition set_to (x : option string) (v : string) : Prop := x = Some v /\ v <> "".
Definition unset (x : option string) : Prop := x = None \/ x = Some "".
(** The configured value, else the environment's, else the default. *)
Definition resolved (configured environment default result : option string) : Prop :=
  (forall v, set_to configured v -> result = Some v) /\
  (unset configured -> forall v, environment = Some v -> result = Some v) /\
  (unset configured -> environment = None -> result = default).
(** The same for ports, which the environment gives as text; 0 counts as not set. *)
Definition unset_port (x : option Z) : Prop := x = None \/ x = Some 0%Z.
Definition resolved_port (to_int : string -> option Z) (configured : option Z) (environment : option string) (default result : Z) : Prop :=
  (forall z, configured = Some z -> z <> 0%Z -> result = z) /\
  (unset_port configured -> forall s z, environment = Some s -> to_int s = Some z -> z <> 0%Z -> result = z) /\
  (unset_port configured -> environment = None \/ (exists s, environment = Some s /\ to_int s = Some 0%Z) -> result = default).

(** ** The URL *)
Definition driver_of (dialect : string) : string := if String.eqb dialect "mysql" then "mysql+pymysql" else "postgresql+psycopg2".
Definition default_port (dialect : string) : Z := if String.eqb dialect "mysql" then 3306%Z else 5432%Z.
(** The database of a PostgreSQL URL: an empty name is no name. *)
Definition named_only (x r : option string) : Prop := (forall v, set_to x v -> r = Some v) /\ (unset x -> r = None).

(** ** TLS *)
Definition sslmode_of (verify : string) : string :=
  if String.eqb verify "identity" then "verify-full" else if String.eqb verify "cert" then "verify-ca" else "require".
Definition verify_flag (verify : string) : string * bool :=
  if String.eqb verify "identity" then ("verify_identity", true) else if String.eqb verify "cert" then ("verify_cert", true) else ("verify_cert", false).
Definition tls_required (getenv : string -> option string) (e : string) (ssl : ssl_config) : Prop :=
  ssl_require ssl = Some (Some true) \/
  (ssl_require ssl = None /\ exists v, getenv (e ++ "SSL_REQUIRE")%string = Some v /\ v <> "").
Definition verifies (getenv : string -> option string) (e : string) (ssl : ssl_config) (v : string) : Prop :=
  ssl_verify ssl = Some v \/
  (ssl_verify ssl = None /\ (getenv (e ++ "SSL_SERVER_VERIFY")%string = Some v \/ (getenv (e ++ "SSL_SERVER_VERIFY")%string = None /\ v = "none"))).
(** The file the setting names, if it names one. *)
Definition file_setting (configured environment : option string) (v : string) : Prop :=
  set_to configured v \/ (unset configured /\ set_to environment v).
(** The arguments suit the driver. *)
Definition args_fit (driver : string) (a : conn_args) : Prop :=
  match a with
  | NoArgs => True
  | PgArgs _ => driver = "postgresql+psycopg2"
  | MyArgs _ => driver = "mysql+pymysql"
  end.

(** The configuration with its dialect filled in. *)
Definition with_dialect (c : database_config) (d : string) : database_config :=
  mkDatabase (Some d) (dc_host c) (dc_port c) (dc_database c) (dc_username c) (dc_password c) (dc_session_sqls c) (dc_sqlite c) (dc_isolation c) (dc_ssl c).

(** ** SQL string literals between quotes: a doubled quote stands for one. *)
Inductive literal : string -> string -> Prop :=
| literal_end : literal "" ""
| literal_quote : forall t v, literal t v -> literal (String "'" (String "'" t)) (String "'" v)
| literal_char : forall c t v, c <> "'"%char -> literal t v -> literal (String c t) (String c v).

(** ** Key paths in configuration trees *)
Fixpoint at_path (d : data) (path : list string) : option data :=
  match path with
  | [] => Some d
  | key :: path' => match d with DMap m => match dget m key with Some d' => at_path d' path' | None => None end | _ => None end
  end.
Definition mapping (d : data) : Prop := exists m, d = DMap m.
(** Mappings do not repeat a key. *)
Inductive well_formed : data -> Prop :=
| wf_map : forall m, NoDup (dkeys m) -> (forall k v, In (k, v) m -> well_formed v) -> well_formed (DMap m)
| wf_other : forall d, ~ mapping d -> well_formed d.
(** A file says nothing about a path: it does not define it, and what it defines above it are mappings. *)
Definition silent (d : data) (path : list string) : Prop :=
  at_path d path = None /\ forall above rest v, path = above ++ rest -> at_path d above = Some v -> mapping v.
(** It replaces something above the path by a value that is not a mapping. *)
Definition cuts (d : data) (path : list string) : Prop :=
  exists above key rest v, path = above ++ key :: rest /\ at_path d above = Some v /\ ~ mapping v.

(** ** Object graphs *)
Section Graph.
Variable heap : nat -> obj.
Definition refers (u v : nat) : Prop := exists l, (heap u = OModel l \/ heap u = OList l \/ heap u = ODict l) /\ In v l.
Inductive reachable (root : nat) : nat -> Prop :=
| reach_root : reachable root root
| reach_step : forall u v, reachable root u -> refers u v -> reachable root v.
Definition is_model (v : nat) : Prop := exists l, heap v = OModel l.
End Graph.
