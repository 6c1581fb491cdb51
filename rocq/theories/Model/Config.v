(** Model of the configuration code: /repo/subsetter/common.py (connections), the merging of configuration files in
    /repo/subsetter/__main__.py and a validator of /repo/subsetter/config_model.py. *)
From Verif Require Import Model.Base.
Open Scope string_scope.
Open Scope list_scope.

(** ** Plain data, as [yaml.safe_load] delivers it.  Simplifications: keys of mappings are strings, floats are rationals, dates and other
    YAML types are left out.  (__main__.py:122, 178 yaml.safe_load) *)
Inductive data :=
| DNull
| DBool (b : bool)
| DInt (z : Z)
| DFloat (q : Q)
| DStr (s : string)
| DList (l : list data)
| DMap (m : dict string data).

(** __main__.py:106-115  _dict_merge.  The inner loop is lines 109-113: a key of [rhs] is merged into the value [lhs] has, or added. *)
Fixpoint dict_merge (lhs rhs : data) {struct rhs} : data :=
  match lhs, rhs with
  | DMap l, DMap r =>
      DMap ((fix go (r : dict string data) (result : dict string data) : dict string data :=
               match r with
               | [] => result
               | (key, val) :: r' => go r' (dset result key (match dget result key with Some old => dict_merge old val | None => val end))
               end) r l)
  | _, _ => rhs
  end.
(** __main__.py:101-122  _get_config: the configuration files in the order given (reading and validating them: Model/Main.v, Model/ConfigIO.v) *)
Definition config_data (files : list data) : data := fold_left dict_merge files (DMap []).

(** ** config_model.py:27-44  PlannerConfig.ExtraFKConfig; [None] is the ValueError *)
Definition check_columns_match (src_columns dst_columns : list string) : option unit :=
  let col_count := length src_columns in
  if Nat.eqb col_count 0 then None
  else if negb (Nat.eqb (length dst_columns) col_count) then None
  else if negb (Nat.eqb (length (set_of src_columns)) col_count) then None
  else if negb (Nat.eqb (length (set_of dst_columns)) col_count) then None
  else Some tt.

(** ** Connections.  (common.py:67 ValueError) *)
Inductive url_exn := UxValueError.
(** The parts of a SQLAlchemy URL that the program sets.  (common.py:69-76) *)
Record url := mkUrl { u_driver : string; u_host : option string; u_port : option Z; u_database : option string; u_username : option string;
  u_password : option string; u_query : dict string string }.

Section Env.
(** os.getenv and int() on a string (an error is a ValueError).  (common.py:41-46) *)
Variable getenv : string -> option string.
Variable to_int : string -> option Z.

(** [x or y] on optional strings: None and "" are false.  (common.py:41-46) *)
Definition or_str (x y : option string) : option string := match x with None | Some "" => y | _ => x end.
Definition or_int (x : option Z) (y : res url_exn Z) : res url_exn Z := match x with None | Some 0%Z => y | Some z => Ok z end.
Definition getenv_or (name default : string) : string := match getenv name with Some v => v | None => default end.
Definition var (prefix name : string) : string := (prefix ++ name)%string.
(** [if database:].  (common.py:62) *)
Definition truthy (x : option string) : bool := match x with None | Some "" => false | _ => true end.

(** common.py:30-76  database_url *)
Definition database_url (dialect env_prefix host : option string) (port : option Z) (database username password : option string) : res url_exn url :=
  let* settings :=
    match env_prefix with
    | Some e =>                                                                                        (* common.py:40-46 *)
        let* port := or_int port (match to_int (getenv_or (var e "PORT") "0") with Some z => Ok z | None => Err UxValueError end) in
        Ok (or_str dialect (getenv (var e "DIALECT")), or_str host (Some (getenv_or (var e "HOST") "localhost")), Some port,
            or_str database (getenv (var e "DATABASE")), or_str username (getenv (var e "USERNAME")), or_str password (getenv (var e "PASSWORD")))
    | None => Ok (dialect, host, port, database, username, password)
    end in
  let '(dialect, host, port, database, username, password) := settings in
  let dialect := match dialect with None => "mysql" | Some d => d end in                                (* common.py:48-50 *)
  let port_or (z : Z) := match port with None | Some 0%Z => Some z | Some p => Some p end in
  if String.eqb dialect "mysql" then Ok (mkUrl "mysql+pymysql" host (port_or 3306%Z) None username password [("charset", "utf8mb4")])
  else if String.eqb dialect "postgres" then
    Ok (mkUrl "postgresql+psycopg2" host (port_or 5432%Z) (if truthy database then database else None) username password [])
  else if String.eqb dialect "sqlite" then Ok (mkUrl "sqlite" None None database None None [])
  else Err UxValueError.

(** common.py:87-99  SSLConfig.  [ssl_require = None]: not set in the configuration file, [Some None]: set to null; [ssl_verify = None]: not set. *)
Record ssl_config := mkSsl { ssl_require : option (option bool); ssl_cert : option string; ssl_key : option string;
  ssl_rootcert : option string; ssl_verify : option string }.
(** A connection argument: for PostgreSQL a string; for MySQL the "ssl" dict.  (common.py:123-153) *)
Inductive ssl_arg := AStr (s : string) | ABool (b : bool).
Inductive conn_args := NoArgs | PgArgs (a : dict string string) | MyArgs (a : dict string ssl_arg).

(** common.py:138, 146 {key: value for ... if value} *)
Definition given (l : list (string * option string)) : dict string string :=
  flat_map (fun kv => match snd kv with None | Some "" => [] | Some v => [(fst kv, v)] end) l.

(** common.py:101-155  get_connect_args.  An f-string renders [env_prefix = None] as "None". *)
Definition get_connect_args (ssl : ssl_config) (dialect : string) (env_prefix : option string) : res url_exn conn_args :=
  let e := match env_prefix with Some e => e | None => "None" end in
  let require := match ssl_require ssl with
                 | Some r => match r with Some b => b | None => false end
                 | None => negb (String.eqb (getenv_or (var e "SSL_REQUIRE") "") "")
                 end in
  if negb require then Ok NoArgs
  else
    let verify := match ssl_verify ssl with Some v => v | None => getenv_or (var e "SSL_SERVER_VERIFY") "none" end in
    let cert := or_str (ssl_cert ssl) (getenv (var e "SSL_CLIENT_CERT")) in
    let key := or_str (ssl_key ssl) (getenv (var e "SSL_CLIENT_KEY")) in
    let rootcert := or_str (ssl_rootcert ssl) (getenv (var e "SSL_SERVER_ROOTCERT")) in
    if String.eqb dialect "postgres" then
      let sslmode := if String.eqb verify "identity" then "verify-full" else if String.eqb verify "cert" then "verify-ca" else "require" in
      Ok (PgArgs (given [("sslcert", cert); ("sslkey", key); ("sslmode", Some sslmode); ("sslrootcert", rootcert)]))
    else if String.eqb dialect "mysql" then
      let a := map (fun kv => (fst kv, AStr (snd kv))) (given [("ca", rootcert); ("key", key); ("cert", cert)]) in
      Ok (MyArgs (a ++ [if String.eqb verify "identity" then ("verify_identity", ABool true)
                        else if String.eqb verify "cert" then ("verify_cert", ABool true) else ("verify_cert", ABool false)]))
    else Err UxValueError.

(** common.py:157-167  DatabaseConfig *)
Record database_config := mkDatabase { dc_dialect : option string; dc_host : option string; dc_port : option Z; dc_database : option string;
  dc_username : option string; dc_password : option string; dc_session_sqls : list string; dc_sqlite : dict string string;
  dc_isolation : option string; dc_ssl : ssl_config }.

(** common.py:210-214: [db_file.replace("'", "''")] *)
Fixpoint escape (s : string) : string :=
  match s with
  | EmptyString => EmptyString
  | String c s' => if Ascii.eqb c "'" then String c (String c (escape s')) else String c (escape s')
  end.

(** common.py:183-221  database_engine: where to connect, with which isolation level and arguments, and the statements sent on each connection.
    ([sqlite_databases = None] is not modelled: the listener fails.) *)
Record engine := mkEngine { eg_url : url; eg_isolation : string; eg_args : conn_args; eg_session : list string }.
Definition database_engine (c : database_config) (env_prefix : option string) : res url_exn engine :=
  let is_sqlite := match dc_dialect c with Some d => String.eqb d "sqlite" | None => false end in
  let isolation := match dc_isolation c with
                   | Some ((String _ _) as i) => i
                   | _ => if is_sqlite then "SERIALIZABLE" else "READ COMMITTED"
                   end in
  let* u := database_url (dc_dialect c) env_prefix (dc_host c) (dc_port c) (dc_database c) (dc_username c) (dc_password c) in
  let* a := get_connect_args (dc_ssl c) (match or_str (dc_dialect c) None with Some d => d | None => "mysql" end) env_prefix in
  let attach := if is_sqlite then map (fun kv => "ATTACH DATABASE '" ++ escape (snd kv) ++ "' as " ++ fst kv)%string (dc_sqlite c) else [] in
  Ok (mkEngine u isolation a (attach ++ dc_session_sqls c)).
End Env.

(** ** common.py:224-253  pydantic_search.  Objects are numbers (their [id()]); [heap] tells what each is and refers to. *)
Inductive obj := OModel (fields : list nat) | OList (elems : list nat) | ODict (vals : list nat) | OOther.
Section Search.
Variable heap : nat -> obj.
Definition container (v : nat) : bool := match heap v with OOther => false | _ => true end.
(** common.py:233-237  _push *)
Definition push (vs : list nat * list nat) (v : nat) : list nat * list nat :=
  let '(vis, stack) := vs in
  if container v && negb (memb v vis) then (set_add v vis, v :: stack) else vs.
Definition parts (v : nat) : list nat := match heap v with OModel l | OList l | ODict l => l | OOther => [] end.
(** common.py:240-253: the loop; the top of the stack is the head of the list.  [None]: out of fuel (proved not to happen). *)
Fixpoint search_loop (fuel : nat) (vis stack : list nat) : option (list nat) :=
  match stack with
  | [] => Some []
  | v :: stack' =>
      match fuel with
      | O => None
      | S f =>
          let '(vis, stack'') := fold_left push (parts v) (vis, stack') in
          option_map (fun l => match heap v with OModel _ => v :: l | _ => l end) (search_loop f vis stack'')
      end
  end.
(** common.py:224-253 *)
Definition pydantic_search (fuel : nat) (root : nat) : option (list nat) :=
  let '(vis, stack) := push ([], []) root in search_loop fuel vis stack.
End Search.
