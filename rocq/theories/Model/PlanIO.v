(** Model of writing a plan to a file and reading it back: [model_dump(exclude_unset=True, by_alias=True)] followed by
    [yaml.dump(sort_keys=True)] (/repo/subsetter/__main__.py:157-163) and [yaml.safe_load] followed by [SubsetPlan.model_validate]
    (__main__.py:178), for the classes of /repo/subsetter/plan_model.py.  YAML text is not modelled: it is taken to carry plain data
    faithfully, except that the keys of mappings are sorted. *)
From Coq Require DecimalString.
From Verif Require Import Model.Base Model.Value Model.PlanModel Model.Config.
Open Scope string_scope.
Open Scope list_scope.

(** ** Writing.  Which fields that hold their default were set explicitly depends on how the object was made: [set] answers for each
    path below the object; fields with another value are always written.  (__main__.py:157-163) *)
Definition path := list (string + nat).
Definition below (set : path -> bool) (p : path) : path -> bool := fun q => set (p ++ q).
Definition field (set : path -> bool) (name : string) (default : bool) (d : data) : dict string data :=
  if default && negb (set [inl name]) then [] else [(name, d)].
(** common.py:18 *)
Definition dump_strs (l : list string) : data := DList (map DStr l).
Definition dump_lit (l : lit) : data := match l with LStr s => DStr s | LInt z => DInt z | LFloat q => DFloat q end.
Definition dump_params (p : option (dict string lit)) : data :=
  match p with None => DNull | Some m => DMap (map (fun kv => (fst kv, dump_lit (snd kv))) m) end.
(** common.py:17 *)
Definition op_text (op : sqlop) : string :=
  match op with OpLt => "<" | OpGt => ">" | OpEq => "=" | OpNe => "<>" | OpBang => "!=" | OpLike => "like" | OpNotLike => "not like" end.

(** plan_model.py:16-21  SQLTableIdentifier *)
Definition dump_ident (set : path -> bool) (t : ident) : data :=
  DMap ([("schema", DStr (i_schema t)); ("table", DStr (i_table t))] ++ field set "sampled" (negb (i_sampled t)) (DBool (i_sampled t))).
(** plan_model.py:235-239  SQLLeftJoin *)
Definition dump_join (set : path -> bool) (j : join) : data :=
  DMap ([("right", dump_ident (below set [inl "right"]) (j_right j)); ("left_columns", dump_strs (j_left_cols j)); ("right_columns", dump_strs (j_right_cols j))]
    ++ field set "half_unique" (j_half_unique j) (DBool (j_half_unique j))).
Definition is_none {A} (o : option A) : bool := match o with None => true | Some _ => false end.
(** Elements of a list, with their positions.  (__main__.py:157-163) *)
Definition dump_list {A} (dump : (path -> bool) -> A -> data) (set : path -> bool) : list A -> nat -> list data :=
  fix go l i := match l with [] => [] | a :: l' => dump (below set [inr i]) a :: go l' (S i) end.

(** plan_model.py:27-232 the where clauses, 242-249  SQLStatementSelect, 337-339  SQLStatementUnion *)
Fixpoint dump_wc (set : path -> bool) (c : wc) {struct c} : data :=
  match c with
  | WFalse => DMap [("type", DStr "false")]
  | WTrue => DMap [("type", DStr "true")]
  | WOp op column v =>
      DMap ([("type", DStr "operator")] ++ field set "operator" (String.eqb (op_text op) "=") (DStr (op_text op)) ++ [("column", DStr column); ("value", dump_lit v)])
  | WInVals columns values negated =>
      DMap ([("type", DStr "in"); ("columns", dump_strs columns); ("values", DList (map (fun l => DList (map dump_lit l)) values))]
        ++ field set "negated" (negb negated) (DBool negated))
  | WInStmt columns values negated =>
      DMap ([("type", DStr "in"); ("columns", dump_strs columns); ("values", dump_stmt (below set [inl "values"]) values)]
        ++ field set "negated" (negb negated) (DBool negated))
  | WAnd l => DMap [("type", DStr "and"); ("conditions", DList (dump_list dump_wc (below set [inl "conditions"]) l 0))]
  | WOr l => DMap [("type", DStr "or"); ("conditions", DList (dump_list dump_wc (below set [inl "conditions"]) l 0))]
  | WRandom q => DMap [("type", DStr "random"); ("threshold", DFloat q)]
  | WSQL sql params => DMap ([("type", DStr "sql"); ("sql", DStr sql)] ++ field set "sql_params" (is_none params) (dump_params params))
  end
(** plan_model.py:242-251 *)
with dump_sel (set : path -> bool) (s : sel) {struct s} : data :=
  match s with
  | Sel columns from wher limit joins outer =>
      DMap ([("type", DStr "select")]
        ++ field set "columns" (is_none columns) (match columns with None => DNull | Some l => dump_strs l end)
        ++ [("from", dump_ident (below set [inl "from"]) from)]
        ++ field set "where" (is_none wher) (match wher with None => DNull | Some w => dump_wc (below set [inl "where"]) w end)
        ++ field set "limit" (is_none limit) (match limit with None => DNull | Some z => DInt z end)
        ++ field set "joins" (is_none joins) (match joins with None => DNull | Some l => DList (dump_list dump_join (below set [inl "joins"]) l 0) end)
        ++ field set "joins_outer" (negb outer) (DBool outer))
  end
(** plan_model.py:337-342 *)
with dump_stmt (set : path -> bool) (s : stmt) {struct s} : data :=
  match s with
  | SSelect x => dump_sel set x
  | SUnion l => DMap [("type", DStr "union"); ("statements", DList (dump_list dump_sel (below set [inl "statements"]) l 0))]
  end.

(** plan_model.py:396-400  SQLTableQuery *)
Definition dump_query (set : path -> bool) (q : table_query) : data :=
  DMap (field set "sql" (is_none (q_sql q)) (match q_sql q with None => DNull | Some s => DStr s end)
    ++ field set "sql_params" (is_none (q_params q)) (dump_params (q_params q))
    ++ field set "statement" (is_none (q_stmt q)) (match q_stmt q with None => DNull | Some s => dump_stmt (below set [inl "statement"]) s end)).
(** plan_model.py:413-415  SubsetPlan *)
Definition dump_plan (set : path -> bool) (p : plan) : data :=
  DMap ([("queries", DMap (map (fun kq => (fst kq, dump_query (below set [inl "queries"; inl (fst kq)]) (snd kq))) (p_queries p)))]
    ++ field set "passthrough" (is_nil (p_passthrough p)) (dump_strs (p_passthrough p))).

(** yaml.dump(sort_keys=True): every mapping is written in the order of its keys.  (__main__.py:157-163) *)
Fixpoint insert_key {A} (k : string) (a : A) (m : dict string A) : dict string A :=
  match m with
  | [] => [(k, a)]
  | (k', a') :: m' => if String.leb k k' then (k, a) :: m else (k', a') :: insert_key k a m'
  end.
Fixpoint sort_keys (d : data) : data :=
  match d with
  | DList l => DList (map sort_keys l)
  | DMap m => DMap (fold_right (fun kv acc => insert_key (fst kv) (snd kv) acc) [] (map (fun kv => (fst kv, sort_keys (snd kv))) m))
  | _ => d
  end.

(** ** Reading.  Validation in pydantic's lax mode: flags may be 0 and 1 or words such as "yes", integers may be flags, floats without
    fraction or texts, floats may be integers or texts.  Of the texts of numbers only those with a minus sign or none, decimal digits and,
    for floats, a point with further digits are modelled: others (white space, underscores, plus signs, exponents) are rejected here, and so
    are flags for floats.  In a union the types are tried without conversions first; a flag is then an integer.  [LxFuel]: deeper than the fuel; proved not to be returned by [load_plan].  (__main__.py:178) *)
Inductive load_exn := LxInvalid | LxFuel.
Notation lres := (res load_exn).

(** plan_model.py:16-415 (the field types) *)
Definition as_str (d : data) : lres string := match d with DStr s => Ok s | _ => Err LxInvalid end.
(** Flags; plan_model.py:19, 84, 239, 249 and config_model.py:16, 59, 78, 95-96 (fields of type [bool]). *)
Definition lower_letter (c : Ascii.ascii) : Ascii.ascii :=
  let n := Ascii.nat_of_ascii c in if Nat.leb 65 n && Nat.leb n 90 then Ascii.ascii_of_nat (n + 32) else c.
Fixpoint lower_word (s : string) : string := match s with EmptyString => EmptyString | String c s' => String (lower_letter c) (lower_word s') end.
Definition flag_word (s : string) : option bool :=
  let w := lower_word s in
  if memb w ["0"; "off"; "f"; "false"; "n"; "no"] then Some false
  else if memb w ["1"; "on"; "t"; "true"; "y"; "yes"] then Some true else None.
Definition flag_int (z : Z) : option bool := match z with 0%Z => Some false | 1%Z => Some true | _ => None end.
(** Numbers; plan_model.py:187, 247 and config_model.py:17-18, 89, 98 (fields of type [int] and [float]). *)
Definition whole (q : Q) : option Z := let r := Qred q in match Qden r with xH => Some (Qnum r) | _ => None end.
Definition int_text (s : string) : option Z := option_map Z.of_int (DecimalString.NilZero.int_of_string s).
Fixpoint cut_point (s : string) : option (string * string) :=
  match s with
  | EmptyString => None
  | String c s' => if Ascii.eqb c "."%char then Some (EmptyString, s') else option_map (fun ab => (String c (fst ab), snd ab)) (cut_point s')
  end.
Definition float_text (s : string) : option Q :=
  match cut_point s with
  | None => option_map inject_Z (int_text s)
  | Some (a, b) =>
      match DecimalString.NilZero.int_of_string a, DecimalString.NilZero.uint_of_string b with
      | Some i, Some u => Some (Qred (Z.of_int (Decimal.app_int i u) # Pos.pow 10 (Pos.of_nat (Decimal.nb_digits u))))
      | _, _ => None
      end
  end.
(** plan_model.py:16-415 (the field types) *)
Definition valid {A} (o : option A) : lres A := match o with Some a => Ok a | None => Err LxInvalid end.
Definition as_bool (d : data) : lres bool :=
  match d with
  | DBool b => Ok b
  | DInt z => valid (flag_int z)
  | DFloat q => match whole q with Some z => valid (flag_int z) | None => Err LxInvalid end
  | DStr s => valid (flag_word s)
  | _ => Err LxInvalid
  end.
(** plan_model.py:247 *)
Definition as_int (d : data) : lres Z :=
  match d with
  | DInt z => Ok z
  | DBool b => Ok (if b then 1 else 0)%Z
  | DFloat q => valid (whole q)
  | DStr s => valid (int_text s)
  | _ => Err LxInvalid
  end.
(** plan_model.py:187 *)
Definition as_float (d : data) : lres Q :=
  match d with DFloat q => Ok q | DInt z => Ok (inject_Z z) | DStr s => valid (float_text s) | _ => Err LxInvalid end.
(** common.py:18 *)
Definition as_lit (d : data) : lres lit := 
  match d with DStr s => Ok (LStr s) | DInt z => Ok (LInt z) | DFloat q => Ok (LFloat q) | DBool b => Ok (LInt (if b then 1 else 0)) | _ => Err LxInvalid end.
(** e.g. plan_model.py:82-83 *)
Definition as_list {A} (f : data -> lres A) (d : data) : lres (list A) := match d with DList l => mapM f l | _ => Err LxInvalid end.
(** e.g. plan_model.py:206, 414 *)
Definition as_dict {A} (f : data -> lres A) (d : data) : lres (dict string A) :=
  match d with DMap m => mapM (fun kv => let* a := f (snd kv) in Ok (fst kv, a)) m | _ => Err LxInvalid end.
(** pydantic's Optional, e.g. plan_model.py:242-251. *)
Definition nullable {A} (f : data -> lres A) (d : data) : lres (option A) :=
  match d with DNull => Ok None | _ => let* a := f d in Ok (Some a) end.
(** pydantic's models, e.g. plan_model.py:16-21. *)
Definition as_map (d : data) : lres (dict string data) := match d with DMap m => Ok m | _ => Err LxInvalid end.

(** A field under its alias or, with populate_by_name, its own name.  (e.g. plan_model.py:51-57) *)
Definition lookup (m : dict string data) (alias name : string) : option data :=
  match dget m alias with Some d => Some d | None => dget m name end.
(** e.g. plan_model.py:51-57. *)
Definition required {A} (f : data -> lres A) (m : dict string data) (alias name : string) : lres A :=
  match lookup m alias name with Some d => f d | None => Err LxInvalid end.
(** e.g. plan_model.py:242-251. *)
Definition optional {A} (f : data -> lres A) (default : A) (m : dict string data) (name : string) : lres A :=
  match dget m name with Some d => f d | None => Ok default end.

(** common.py:17 *)
Definition as_op (d : data) : lres sqlop :=
  let* s := as_str d in
  match find (fun op => String.eqb (op_text op) s) [OpLt; OpGt; OpEq; OpNe; OpBang; OpLike; OpNotLike] with Some op => Ok op | None => Err LxInvalid end.

(** plan_model.py:16-21 *)
Definition load_ident (d : data) : lres ident :=
  let* m := as_map d in
  let* schema := required as_str m "schema" "table_schema" in
  let* table := required as_str m "table" "table_name" in
  let* sampled := optional as_bool false m "sampled" in
  Ok (mkIdent schema table sampled).
(** plan_model.py:235-239 *)
Definition load_join (d : data) : lres join :=
  let* m := as_map d in
  let* rgt := required load_ident m "right" "right" in
  let* left_columns := required (as_list as_str) m "left_columns" "left_columns" in
  let* right_columns := required (as_list as_str) m "right_columns" "right_columns" in
  let* half_unique := optional as_bool true m "half_unique" in
  Ok (mkJoin rgt left_columns right_columns half_unique).
(** plan_model.py:242-251 *)
Definition load_sel_with (lw : data -> lres wc) (d : data) : lres sel :=
  let* m := as_map d in
  let* columns := optional (nullable (as_list as_str)) None m "columns" in
  let* from := required load_ident m "from" "from_" in
  let* wher := optional (nullable lw) None m "where" in
  let* limit := optional (nullable as_int) None m "limit" in
  let* joins := optional (nullable (as_list load_join)) None m "joins" in
  let* outer := optional as_bool false m "joins_outer" in
  Ok (Sel columns from wher limit joins outer).
(** A union of [select]s only takes selects: their tag is checked too.  (plan_model.py:337-342) *)
Definition tagged {A} (tag : string) (f : data -> lres A) (d : data) : lres A :=
  let* m := as_map d in
  let* t := required as_str m "type" "type_" in
  if String.eqb t tag then f d else Err LxInvalid.
(** The tag of a discriminated union decides the class.  (plan_model.py:387-393) *)
Definition load_stmt_with (lw : data -> lres wc) (d : data) : lres stmt :=
  let* m := as_map d in
  let* t := required as_str m "type" "type_" in
  if String.eqb t "select" then let* s := load_sel_with lw d in Ok (SSelect s)
  else if String.eqb t "union" then let* l := required (as_list (tagged "select" (load_sel_with lw))) m "statements" "statements" in Ok (SUnion l)
  else Err LxInvalid.
(** plan_model.py:27-232 *)
Fixpoint load_wc (fuel : nat) (d : data) {struct fuel} : lres wc :=
  match fuel with
  | O => Err LxFuel
  | S f =>
      let* m := as_map d in
      let* t := required as_str m "type" "type_" in
      if String.eqb t "false" then Ok WFalse
      else if String.eqb t "true" then Ok WTrue
      else if String.eqb t "operator" then
        let* op := optional as_op OpEq m "operator" in
        let* column := required as_str m "column" "column" in
        let* v := required as_lit m "value" "value" in
        Ok (WOp op column v)
      else if String.eqb t "in" then
        let* columns := required (as_list as_str) m "columns" "columns" in
        let* negated := optional as_bool false m "negated" in
        match dget m "values" with
        | Some (DList l) => let* vals := mapM (as_list as_lit) l in Ok (WInVals columns vals negated)
        | Some d' => let* s := load_stmt_with (load_wc f) d' in Ok (WInStmt columns s negated)
        | None => Err LxInvalid
        end
      else if String.eqb t "and" then let* l := required (as_list (load_wc f)) m "conditions" "conditions" in Ok (WAnd l)
      else if String.eqb t "or" then let* l := required (as_list (load_wc f)) m "conditions" "conditions" in Ok (WOr l)
      else if String.eqb t "random" then let* q := required as_float m "threshold" "threshold" in Ok (WRandom q)
      else if String.eqb t "sql" then
        let* sql := required as_str m "sql" "sql" in
        let* params := optional (nullable (as_dict as_lit)) None m "sql_params" in
        Ok (WSQL sql params)
      else Err LxInvalid
  end.
(** plan_model.py:396-400 *)
Definition load_query (fuel : nat) (d : data) : lres table_query :=
  let* m := as_map d in
  let* sql := optional (nullable as_str) None m "sql" in
  let* params := optional (nullable (as_dict as_lit)) None m "sql_params" in
  let* statement := optional (nullable (load_stmt_with (load_wc fuel))) None m "statement" in
  Ok (mkQuery sql params statement).

(** Nesting depth: the fuel that is enough.  (__main__.py:178) *)
Fixpoint depth (d : data) : nat :=
  match d with
  | DList l => S (list_max (map depth l))
  | DMap m => S (list_max (map (fun kv => depth (snd kv)) m))
  | _ => 1
  end.
(** plan_model.py:413-415 *)
Definition load_plan (d : data) : lres plan :=
  let* m := as_map d in
  let* queries := required (as_dict (load_query (depth d))) m "queries" "queries" in
  let* passthrough := optional (as_list as_str) [] m "passthrough" in
  Ok (mkPlan queries passthrough).
