(** A configuration written out in full, with the option names of subsetter.example.yaml and README.md. *)
From Verif Require Import Model.Base Model.Value Model.PlanModel Model.Metadata Model.Planner Model.Filters Model.Multiply Model.Materialize
  Model.Dest Model.Output Model.Config Model.ConfigIO Spec.ScalarSpec.
Open Scope string_scope.
Open Scope list_scope.

(** [Flag], [Number], [Decimal]: there are several ways to write them; [Value]: to compare columns with, true and false are 1 and 0;
    [Options]: named options; [Table]: the user chooses the keys (table or column names). *)
Inductive doc :=
| Leaf (d : data)
| Flag (b : bool)
| Number (z : Z)
| Decimal (q : Q)
| Value (d : data)
| Items (l : list doc)
| Table (m : list (string * doc))
| Options (m : list (string * doc)).

(** The data says, wherever both speak, what the document says; options may be left out. *)
Inductive agrees : data -> doc -> Prop :=
| agrees_leaf : forall d, agrees d (Leaf d)
| agrees_flag : forall d b, spells_flag d b -> agrees d (Flag b)
| agrees_number : forall d z, spells_number d z -> agrees d (Number z)
| agrees_decimal : forall d q, spells_decimal d q -> agrees d (Decimal q)
| agrees_value : forall d, agrees d (Value d)
| agrees_one : forall b, agrees (DBool b) (Value (DInt (one_or_zero b)))
| agrees_null : agrees DNull (Table [])
| agrees_items : forall l l', Forall2 agrees l l' -> agrees (DList l) (Items l')
| agrees_table : forall m m', Forall2 (fun a b => fst a = fst b /\ agrees (snd a) (snd b)) m m' -> agrees (DMap m) (Table m')
| agrees_options : forall m m', (forall k d x, dget m k = Some d -> dget m' k = Some x -> agrees d x) -> agrees (DMap m) (Options m').

(** The data that says everything. *)
Fixpoint plain (x : doc) : data :=
  match x with
  | Leaf d => d
  | Flag b => DBool b
  | Number z => DInt z
  | Decimal q => DFloat q
  | Value d => d
  | Items l => DList (map plain l)
  | Table m | Options m => DMap (map (fun kx => (fst kx, plain (snd kx))) m)
  end.

Definition maybe {A} (f : A -> doc) (o : option A) : doc := match o with Some a => f a | None => Leaf DNull end.
Definition given {A} (name : string) (f : A -> doc) (o : option A) : list (string * doc) := match o with Some a => [(name, f a)] | None => [] end.
Definition text (s : string) : doc := Leaf (DStr s).
Definition flag (b : bool) : doc := Flag b.
Definition number (z : Z) : doc := Number z.
Definition decimal (q : Q) : doc := Decimal q.
Definition texts (l : list string) : doc := Items (map text l).
Definition table_of {A} (f : A -> doc) (m : dict string A) : doc := Table (map (fun ka => (fst ka, f (snd ka))) m).
Definition literal (l : lit) : doc := Value (match l with LStr s => DStr s | LInt z => DInt z | LFloat q => DFloat q end).
Definition doc_infer (i : infer_mode) : doc := text (match i with InferNone => "none" | InferSchema => "schema" | InferAll => "all" end).

(** ** The planner section *)
Definition doc_target (t : Planner.target) : doc := Options
  [("all", flag (tg_all t)); ("percent", maybe decimal (tg_percent t)); ("amount", maybe number (tg_amount t));
   ("like", table_of texts (tg_like t)); ("in", table_of (fun l => Items (map literal l)) (tg_in t)); ("sql", maybe text (tg_sql t))].
Definition doc_op (o : sqlop) : doc := text
  (match o with OpLt => "<" | OpGt => ">" | OpEq => "=" | OpNe => "<>" | OpBang => "!=" | OpLike => "like" | OpNotLike => "not like" end).
Definition doc_constraint (c : constr) : doc := Options
  [("column", text (cc_col c)); ("operator", doc_op (cc_op c)); ("value", match cc_val c with inl v => literal v | inr l => Items (map literal l) end)].
Definition doc_ignore_fk (p : string * string) : doc := Options [("src_table", text (fst p)); ("dst_table", text (snd p))].
Definition doc_extra_fk (x : extra_fk) : doc := Options
  [("src_table", text (x_src x)); ("src_columns", texts (x_src_cols x)); ("dst_table", text (x_dst x)); ("dst_columns", texts (x_dst_cols x))].
Definition doc_planner (c : config) : doc := Options
  [("table_constraints", table_of (fun l => Items (map doc_constraint l)) (c_constraints c));
   ("select", texts (c_select c));
   ("targets", table_of doc_target (c_targets c));
   ("ignore", texts (c_ignore c));
   ("passthrough", texts (c_passthrough c));
   ("ignore_fks", Items (map doc_ignore_fk (c_ignore_fks c)));
   ("extra_fks", Items (map doc_extra_fk (c_extra_fks c)));
   ("infer_foreign_keys", doc_infer (c_infer c));
   ("include_dependencies", flag (c_include_deps c))].

(** ** Connections *)
Definition doc_client (cert_key : option string * option string) : doc := Options [("cert", maybe text (fst cert_key)); ("key", maybe text (snd cert_key))].
Definition doc_server (rootcert_verify : option string * option string) : doc :=
  Options (("rootcert", maybe text (fst rootcert_verify)) :: given "verify" text (snd rootcert_verify)).
Definition doc_ssl (s : ssl_config) : doc := Options
  (given "require" (maybe flag) (ssl_require s) ++
   [("client", doc_client (ssl_cert s, ssl_key s)); ("server", doc_server (ssl_rootcert s, ssl_verify s))]).
Definition database_options (c : database_config) : list (string * doc) :=
  [("dialect", maybe text (dc_dialect c)); ("host", maybe text (dc_host c)); ("port", maybe number (dc_port c));
   ("database", maybe text (dc_database c)); ("username", maybe text (dc_username c)); ("password", maybe text (dc_password c));
   ("session_sqls", texts (dc_session_sqls c)); ("sqlite_databases", table_of text (dc_sqlite c));
   ("isolation_level", maybe text (dc_isolation c)); ("ssl", doc_ssl (dc_ssl c))].

(** ** Filters *)
(** Constants are NULL, strings and numbers; other values cannot be written. *)
Definition constant (v : value) : doc := Leaf (match v with VStr s => DStr s | VInt z => DInt z | VFloat q => DFloat q | _ => DNull end).
Definition simple_options (f : simple_filter) : list (string * doc) :=
  match f with
  | SfZero c => [("op", text "zero"); ("columns", texts c)]
  | SfOmit c => [("op", text "omit"); ("columns", texts c)]
  | SfNull c => [("op", text "null"); ("columns", texts c)]
  | SfConstant c l => [("op", text "constant"); ("columns", texts c); ("values", Items (map constant l))]
  | SfRandomInt c low high => [("op", text "random_int"); ("columns", texts c); ("low", number low); ("high", number high)]
  | SfRandomFloat c low high => [("op", text "random_float"); ("columns", texts c); ("low", decimal low); ("high", decimal high)]
  | SfRandomString c n a cu => [("op", text "random_string"); ("columns", texts c); ("length", number n); ("alphabet", text a); ("custom_alphabet", maybe text cu)]
  | SfUuid c => [("op", text "uuid"); ("columns", texts c)]
  | SfFake op c u => [("op", text op); ("columns", texts c); ("unique", flag u)]
  | SfPlugin c m cl => [("op", text "plugin"); ("columns", texts c); ("module", text m); ("class", text cl)]
  end.
Definition doc_mop (o : mop) : doc := text
  (match o with MIs => "is" | MIsNot => "is not" | MIn => "in" | MNotIn => "not in" | MEq => "=" | MNe => "!=" | MLt => "<" | MGt => ">"
   | MLe => "<=" | MGe => ">=" | MMatches => "matches" end).
Definition doc_condition (c : mcond) : doc := Options
  [("op", doc_mop (mc_op c)); ("value", match mc_value c with MvOne v => constant v | MvList l => Items (map constant l) end);
   ("apply", Options (simple_options (mc_apply c)))].
Definition doc_filter (f : filter_config) : doc := Options
  (match f with
   | FcSimple f => simple_options f
   | FcMultiplex c conds => [("op", text "multiplex"); ("column", text c); ("conditions", Items (map doc_condition conds))]
   end).

(** ** The sampler section *)
Definition doc_strategy (s : strategy) : doc := text (match s with SError => "error" | SReplace => "replace" | SSkip => "skip" end).
Definition doc_remap (p : string * string) : doc := Options [("search", text (fst p)); ("replace", text (snd p))].
Definition doc_output (o : output_section) : doc := Options
  (match o with
   | OsDirectory d => [("mode", text "directory"); ("directory", text d)]
   | OsDatabase db remap s m => ("mode", text "database") :: database_options db ++
       [("remap", Items (map doc_remap remap)); ("conflict_strategy", doc_strategy s); ("merge", flag m)]
   end).
Definition doc_mult (m : mult_config) : doc := Options
  [("multiplier", number (mc_multiplier m)); ("ignore_tables", texts (mc_ignore_tables m)); ("extra_columns", table_of texts (mc_extra m));
   ("ignore_primary_key_columns", table_of texts (mc_ignore_pk m))].
Definition doc_compact (c : compact_config) : doc := Options
  [("primary_keys", flag (cp_primary_keys c)); ("auto_increment_keys", flag (cp_auto_increment c)); ("columns", table_of texts (cp_columns c));
   ("start_key", number (cp_start c))].
Definition doc_sampler (s : sampler_section) : doc := Options
  [("output", doc_output (ss_output s)); ("filters", table_of (fun l => Items (map doc_filter l)) (ss_filters s));
   ("multiplicity", doc_mult (ss_multiplicity s)); ("infer_foreign_keys", doc_infer (ss_infer s)); ("compact", doc_compact (ss_compact s))].
Definition doc_config (c : subsetter_config) : doc := Options
  [("source", Options (database_options (sub_source c))); ("planner", maybe doc_planner (sub_planner c)); ("sampler", maybe doc_sampler (sub_sampler c))].
