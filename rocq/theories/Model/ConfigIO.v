(** Model of reading the configuration: [SubsetterConfig.model_validate] (/repo/subsetter/__main__.py:131) for the classes of
    /repo/subsetter/config_model.py, /repo/subsetter/common.py:87-167 and the filter configurations of /repo/subsetter/filters.py.
    As in Model/PlanIO.v, pydantic's conversions between scalar types other than from integers to floats are not modelled: such data is
    rejected here.  Unions of scalar types keep the type of the data. *)
From Verif Require Import Model.Base Model.Value Model.PlanModel Model.Metadata Model.Planner Model.Filters Model.Multiply Model.Materialize
  Model.Dest Model.Output Model.Config Model.PlanIO.
Open Scope string_scope.
Open Scope list_scope.

(** config_model.py:10-11  ForbidBaseModel: no other keys than the fields *)
Definition only (names : list string) (m : dict string data) : lres unit :=
  if forallb (fun kv => memb (fst kv) names) m then Ok tt else Err LxInvalid.
(** Literal types.  (common.py:8-12, 79-84, config_model.py:58, 67, 103, filters.py:277-287) *)
Definition as_one_of (names : list string) (d : data) : lres string :=
  let* s := as_str d in if memb s names then Ok s else Err LxInvalid.
(** A required field without alias.  (pydantic, for the models of config_model.py:14-114) *)
Definition field_of {A} (f : data -> lres A) (m : dict string data) (name : string) : lres A := required f m name name.

(** ** config_model.py:15-21  TargetConfig *)
Definition load_target (d : data) : lres target :=
  let* m := as_map d in
  let* _ := only ["all"; "percent"; "amount"; "like"; "in"; "sql"] m in
  let* all := optional as_bool false m "all" in
  let* percent := optional (nullable as_float) None m "percent" in
  let* amount := optional (nullable as_int) None m "amount" in
  let* like := optional (as_dict (as_list as_str)) [] m "like" in
  let* in_ := optional (as_dict (as_list as_lit)) [] m "in" in
  let* sql := optional (nullable as_str) None m "sql" in
  Ok (mkTarget all percent amount like in_ sql).
(** config_model.py:23-25  IgnoreFKConfig *)
Definition load_ignore_fk (d : data) : lres (string * string) :=
  let* m := as_map d in
  let* _ := only ["src_table"; "dst_table"] m in
  let* src := field_of as_str m "src_table" in
  let* dst := field_of as_str m "dst_table" in
  Ok (src, dst).
(** config_model.py:27-44  ExtraFKConfig *)
Definition load_extra_fk (d : data) : lres extra_fk :=
  let* m := as_map d in
  let* _ := only ["src_table"; "src_columns"; "dst_table"; "dst_columns"] m in
  let* src := field_of as_str m "src_table" in
  let* src_columns := field_of (as_list as_str) m "src_columns" in
  let* dst := field_of as_str m "dst_table" in
  let* dst_columns := field_of (as_list as_str) m "dst_columns" in
  match check_columns_match src_columns dst_columns with
  | Some _ => Ok (mkExtra src src_columns dst dst_columns)
  | None => Err LxInvalid
  end.
(** config_model.py:46-49  ColumnConstraint *)
Definition as_lit_or_list (d : data) : lres (lit + list lit) :=
  match d with DList _ => let* l := as_list as_lit d in Ok (inr l) | _ => let* v := as_lit d in Ok (inl v) end.
Definition load_constraint (d : data) : lres constr :=
  let* m := as_map d in
  let* _ := only ["column"; "operator"; "value"] m in
  let* column := field_of as_str m "column" in
  let* op := field_of as_op m "operator" in
  let* v := field_of as_lit_or_list m "value" in
  Ok (mkConstr column op v).
(** config_model.py:58, 103 *)
Definition as_infer (d : data) : lres infer_mode :=
  let* s := as_one_of ["none"; "schema"; "all"] d in
  Ok (if String.eqb s "none" then InferNone else if String.eqb s "schema" then InferSchema else InferAll).
(** config_model.py:51-59  PlannerConfig *)
Definition load_planner (d : data) : lres config :=
  let* m := as_map d in
  let* _ := only ["table_constraints"; "select"; "targets"; "ignore"; "passthrough"; "ignore_fks"; "extra_fks"; "infer_foreign_keys"; "include_dependencies"] m in
  let* constraints := optional (as_dict (as_list load_constraint)) [] m "table_constraints" in
  let* select := field_of (as_list as_str) m "select" in
  let* targets := field_of (as_dict load_target) m "targets" in
  let* ignore := optional (as_list as_str) [] m "ignore" in
  let* passthrough := optional (as_list as_str) [] m "passthrough" in
  let* ignore_fks := optional (as_list load_ignore_fk) [] m "ignore_fks" in
  let* extra_fks := optional (as_list load_extra_fk) [] m "extra_fks" in
  let* infer := optional as_infer InferNone m "infer_foreign_keys" in
  let* deps := optional as_bool true m "include_dependencies" in
  Ok (mkConfig constraints select targets ignore passthrough ignore_fks extra_fks infer deps).

(** ** common.py:88-99  SSLConfig.  Plain BaseModels: other keys are ignored. *)
Definition no_ssl : ssl_config := mkSsl None None None None None.
Definition load_client (d : data) : lres (option string * option string) :=
  let* m := as_map d in
  let* cert := optional (nullable as_str) None m "cert" in
  let* key := optional (nullable as_str) None m "key" in
  Ok (cert, key).
Definition load_server (d : data) : lres (option string * option string) :=
  let* m := as_map d in
  let* rootcert := optional (nullable as_str) None m "rootcert" in
  let* verify := optional (fun d => let* s := as_one_of ["none"; "cert"; "identity"] d in Ok (Some s)) None m "verify" in
  Ok (rootcert, verify).
(** common.py:88-99. *)
Definition load_ssl (d : data) : lres ssl_config :=
  let* m := as_map d in
  let* require := optional (fun d => let* b := nullable as_bool d in Ok (Some b)) None m "require" in
  let* (cert, key) := optional load_client (None, None) m "client" in
  let* (rootcert, verify) := optional load_server (None, None) m "server" in
  Ok (mkSsl require cert key rootcert verify).
(** common.py:87, 157-167  DatabaseConfig (a plain BaseModel).  [echo] only concerns logging; a null [sqlite_databases] is read as no databases
    (with it, connections to SQLite fail). *)
Definition load_database (m : dict string data) : lres database_config :=
  let* dialect := optional (nullable (as_one_of ["mysql"; "postgres"; "sqlite"])) None m "dialect" in
  let* host := optional (nullable as_str) None m "host" in
  let* port := optional (nullable as_int) None m "port" in
  let* database := optional (nullable as_str) None m "database" in
  let* username := optional (nullable as_str) None m "username" in
  let* password := optional (nullable as_str) None m "password" in
  let* session := optional (as_list as_str) [] m "session_sqls" in
  let* sqlite := optional (nullable (as_dict as_str)) (Some []) m "sqlite_databases" in
  let* isolation := optional (nullable (as_one_of ["READ COMMITTED"; "READ UNCOMMITTED"; "REPEATABLE READ"; "SERIALIZABLE"])) None m "isolation_level" in
  let* ssl := optional load_ssl no_ssl m "ssl" in
  let* _ := optional as_bool false m "echo" in
  Ok (mkDatabase dialect host port database username password session (match sqlite with Some l => l | None => [] end) isolation ssl).
(** common.py:146-167, defaults. *)
Definition default_database : database_config := mkDatabase None None None None None None [] [] None no_ssl.

(** ** Filters: plain BaseModels, the class is chosen by "op".  (filters.py:137-553) *)
(** filters.py:330  FilterConstantTypes *)
Definition as_value (d : data) : lres value :=
  match d with DNull => Ok VNull | DInt z => Ok (VInt z) | DFloat q => Ok (VFloat q) | DStr s => Ok (VStr s) | _ => Err LxInvalid end.
(** filters.py:421-463 *)
Definition fake_ops : list string :=
  ["fake_email"; "fake_first_name"; "fake_last_name"; "fake_name"; "fake_phone_number"; "fake_license_plate"; "fake_vin"; "fake_address";
   "fake_building_number"; "fake_city"; "fake_state"; "fake_state_abbr"; "fake_country"; "fake_country_code"; "fake_postal_code";
   "fake_street_address"; "fake_street_name"; "fake_latitude"; "fake_longitude"].
(** filters.py:277-287 *)
Definition alphabets : list string := ["alnum"; "hex"; "hex_lower"; "hex_upper"; "digit"; "alpha"; "alpha_lower"; "alpha_upper"; "custom"].
(** filters.py:521-553  SimpleFilterConfig.  The keyword arguments of plugins (479) are not modelled. *)
Definition load_simple (d : data) : lres simple_filter :=
  let* m := as_map d in
  let* op := field_of as_str m "op" in
  let columns := field_of (as_list as_str) m "columns" in
  if String.eqb op "zero" then let* c := columns in Ok (SfZero c)
  else if String.eqb op "omit" then let* c := columns in Ok (SfOmit c)
  else if String.eqb op "null" then let* c := columns in Ok (SfNull c)
  else if String.eqb op "constant" then
    let* c := columns in
    let* vals := field_of (as_list as_value) m "values" in
    Ok (SfConstant c vals)
  else if String.eqb op "random_int" then
    let* c := columns in
    let* low := field_of as_int m "low" in
    let* high := field_of as_int m "high" in
    Ok (SfRandomInt c low high)
  else if String.eqb op "random_float" then
    let* c := columns in
    let* low := field_of as_float m "low" in
    let* high := field_of as_float m "high" in
    Ok (SfRandomFloat c low high)
  else if String.eqb op "random_string" then
    let* c := columns in
    let* len := field_of as_int m "length" in
    let* alphabet := optional (as_one_of alphabets) "alnum" m "alphabet" in
    let* custom := optional (nullable as_str) None m "custom_alphabet" in
    Ok (SfRandomString c len alphabet custom)
  else if String.eqb op "uuid" then let* c := columns in Ok (SfUuid c)
  else if String.eqb op "plugin" then
    let* c := columns in
    let* module := field_of as_str m "module" in
    let* clazz := field_of as_str m "class" in
    let* _ := optional as_map [] m "kwargs" in
    Ok (SfPlugin c module clazz)
  else if memb op fake_ops then
    let* c := columns in
    let* unique := optional as_bool false m "unique" in
    Ok (SfFake op c unique)
  else Err LxInvalid.
(** filters.py:556-561  MultiplexCondition *)
Definition mop_text (op : mop) : string :=
  match op with MIs => "is" | MIsNot => "is not" | MIn => "in" | MNotIn => "not in" | MEq => "=" | MNe => "!=" | MLt => "<" | MGt => ">"
  | MLe => "<=" | MGe => ">=" | MMatches => "matches" end.
Definition as_mop (d : data) : lres mop :=
  let* s := as_str d in
  match find (fun op => String.eqb (mop_text op) s) [MIs; MIsNot; MIn; MNotIn; MEq; MNe; MLt; MGt; MLe; MGe; MMatches] with
  | Some op => Ok op
  | None => Err LxInvalid
  end.
(** filters.py:556-562. *)
Definition as_mvalue (d : data) : lres mvalue :=
  match d with DList _ => let* l := as_list as_value d in Ok (MvList l) | _ => let* v := as_value d in Ok (MvOne v) end.
(** filters.py:556-562. *)
Definition load_condition (d : data) : lres mcond :=
  let* m := as_map d in
  let* op := field_of as_mop m "op" in
  let* v := field_of as_mvalue m "value" in
  let* f := field_of load_simple m "apply" in
  Ok (mkCond op v f).
(** filters.py:590-594, 643-649  FilterMultiplex.Config and FilterConfig *)
Definition load_filter (d : data) : lres filter_config :=
  let* m := as_map d in
  let* op := field_of as_str m "op" in
  if String.eqb op "multiplex" then
    let* column := field_of as_str m "column" in
    let* conds := field_of (as_list load_condition) m "conditions" in
    Ok (FcMultiplex column conds)
  else let* f := load_simple d in Ok (FcSimple f).

(** ** config_model.py:62-84  the output section *)
Inductive output_section := OsDirectory (directory : string)
| OsDatabase (db : database_config) (remap : list (string * string)) (s : strategy) (merge : bool).
(** config_model.py:71-73 *)
Definition load_remap (d : data) : lres (string * string) :=
  let* m := as_map d in
  let* _ := only ["search"; "replace"] m in
  let* search := field_of as_str m "search" in
  let* replace := field_of as_str m "replace" in
  Ok (search, replace).
(** config_model.py:67 *)
Definition as_strategy (d : data) : lres strategy :=
  let* s := as_one_of ["error"; "replace"; "skip"] d in
  Ok (if String.eqb s "error" then SError else if String.eqb s "replace" then SReplace else SSkip).
Definition load_output (d : data) : lres output_section :=
  let* m := as_map d in
  let* mode := field_of as_str m "mode" in
  if String.eqb mode "directory" then
    let* _ := only ["mode"; "directory"] m in
    let* dir := field_of as_str m "directory" in
    Ok (OsDirectory dir)
  else if String.eqb mode "database" then
    let* db := load_database m in
    let* remap := optional (as_list load_remap) [] m "remap" in
    let* s := optional as_strategy SError m "conflict_strategy" in
    let* merge := optional as_bool false m "merge" in
    Ok (OsDatabase db remap s merge)
  else Err LxInvalid.

(** ** config_model.py:88-92  MultiplicityConfig, 94-98  CompactConfig *)
Definition default_mult : mult_config := mkMult 1 [] [] [].
Definition load_mult (d : data) : lres mult_config :=
  let* m := as_map d in
  let* _ := only ["multiplier"; "ignore_tables"; "extra_columns"; "ignore_primary_key_columns"] m in
  let* multiplier := optional as_int 1%Z m "multiplier" in
  let* ignore := optional (as_list as_str) [] m "ignore_tables" in
  let* extra := optional (as_dict (as_list as_str)) [] m "extra_columns" in
  let* ignore_pk := optional (as_dict (as_list as_str)) [] m "ignore_primary_key_columns" in
  Ok (mkMult multiplier extra ignore ignore_pk).
(** config_model.py:94-98, defaults. *)
Definition default_compact : compact_config := mkCompact false false 1 [].
(** config_model.py:94-98. *)
Definition load_compact (d : data) : lres compact_config :=
  let* m := as_map d in
  let* _ := only ["primary_keys"; "auto_increment_keys"; "columns"; "start_key"] m in
  let* pk := optional as_bool false m "primary_keys" in
  let* auto := optional as_bool false m "auto_increment_keys" in
  let* columns := optional (as_dict (as_list as_str)) [] m "columns" in
  let* start := optional as_int 1%Z m "start_key" in
  Ok (mkCompact pk auto start columns).
(** config_model.py:87-104  SamplerConfig *)
Record sampler_section := mkSection {
  ss_output : output_section; ss_filters : dict string (list filter_config); ss_multiplicity : mult_config; ss_infer : infer_mode;
  ss_compact : compact_config }.
Definition load_sampler (d : data) : lres sampler_section :=
  let* m := as_map d in
  let* _ := only ["output"; "filters"; "multiplicity"; "infer_foreign_keys"; "compact"] m in
  let* output := optional load_output (OsDirectory "output") m "output" in
  let* filters := optional (as_dict (as_list load_filter)) [] m "filters" in
  let* mult := optional load_mult default_mult m "multiplicity" in
  let* infer := optional as_infer InferNone m "infer_foreign_keys" in
  let* compact := optional load_compact default_compact m "compact" in
  Ok (mkSection output filters mult infer compact).
(** config_model.py:107-110  SubsetterConfig *)
Record subsetter_config := mkSubsetter { sub_source : database_config; sub_planner : option config; sub_sampler : option sampler_section }.
Definition load_config (d : data) : lres subsetter_config :=
  let* m := as_map d in
  let* _ := only ["source"; "planner"; "sampler"] m in
  let* source := optional (fun d => let* m := as_map d in load_database m) default_database m "source" in
  let* planner := optional (nullable load_planner) None m "planner" in
  let* sampler := optional (nullable load_sampler) None m "sampler" in
  Ok (mkSubsetter source planner sampler).
