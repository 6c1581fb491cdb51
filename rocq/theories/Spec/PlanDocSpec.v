(** The format of plan files. *)
From Verif Require Import Model.Base Model.Value Model.PlanModel Model.Config Spec.ScalarSpec.
Open Scope string_scope.
Open Scope list_scope.

(** ** Values.  [F d a]: the data [d] is a way to write [a]. *)
Definition text (d : data) (s : string) : Prop := d = DStr s.
Definition flag := spells_flag.
Definition number := spells_number.
Definition decimal := spells_decimal.
Definition literal (d : data) (l : lit) : Prop := 
  match l with LStr s => d = DStr s | LInt z => d = DInt z \/ (exists b, d = DBool b /\ z = one_or_zero b) | LFloat q => d = DFloat q end.
Definition operator (d : data) (o : sqlop) : Prop := d = DStr
  (match o with OpLt => "<" | OpGt => ">" | OpEq => "=" | OpNe => "<>" | OpBang => "!=" | OpLike => "like" | OpNotLike => "not like" end).
Definition items {A} (F : data -> A -> Prop) (d : data) (l : list A) : Prop := exists ds, d = DList ds /\ Forall2 F ds l.
(** The keys are names of the user's. *)
Definition table {A} (F : data -> A -> Prop) (d : data) (m : dict string A) : Prop :=
  exists ds, d = DMap ds /\ Forall2 (fun a b => fst a = fst b /\ F (snd a) (snd b)) ds m.

(** ** Entries of a mapping.  Entries with other names than those mentioned do not matter. *)
Definition entry (m : dict string data) (name : string) (d : data) : Prop := dget m name = Some d.
Definition no_entry (m : dict string data) (name : string) : Prop := dget m name = None.
Definition has {A} (m : dict string data) (name : string) (F : data -> A -> Prop) (a : A) : Prop := exists d, entry m name d /\ F d a.
(** Under its name or, if there is no such entry, another one. *)
Definition has_or {A} (m : dict string data) (name other : string) (F : data -> A -> Prop) (a : A) : Prop :=
  exists d, (entry m name d \/ no_entry m name /\ entry m other d) /\ F d a.
(** If there is no entry: the value [a0]. *)
Definition may {A} (m : dict string data) (name : string) (F : data -> A -> Prop) (a0 a : A) : Prop := has m name F a \/ no_entry m name /\ a = a0.
(** If there is no entry, or null: nothing. *)
Definition maybe {A} (m : dict string data) (name : string) (F : data -> A -> Prop) (o : option A) : Prop :=
  (no_entry m name \/ entry m name DNull) /\ o = None \/ exists a d, o = Some a /\ entry m name d /\ d <> DNull /\ F d a.
Definition type (m : dict string data) (s : string) : Prop := has_or m "type" "type_" text s.

(** ** Plans *)
Definition says_ident (d : data) (t : ident) : Prop := exists m, d = DMap m /\
  has_or m "schema" "table_schema" text (i_schema t) /\ has_or m "table" "table_name" text (i_table t) /\ may m "sampled" flag false (i_sampled t).
Definition says_join (d : data) (j : join) : Prop := exists m, d = DMap m /\
  has m "right" says_ident (j_right j) /\ has m "left_columns" (items text) (j_left_cols j) /\ has m "right_columns" (items text) (j_right_cols j) /\
  may m "half_unique" flag true (j_half_unique j).
Inductive says_wc : data -> wc -> Prop :=
| says_false m : type m "false" -> says_wc (DMap m) WFalse
| says_true m : type m "true" -> says_wc (DMap m) WTrue
| says_operator m o c v : type m "operator" -> may m "operator" operator OpEq o -> has m "column" text c -> has m "value" literal v ->
    says_wc (DMap m) (WOp o c v)
| says_in m cols rows neg : type m "in" -> has m "columns" (items text) cols -> may m "negated" flag false neg ->
    has m "values" (items (items literal)) rows -> says_wc (DMap m) (WInVals cols rows neg)
| says_in_statement m cols d s neg : type m "in" -> has m "columns" (items text) cols -> may m "negated" flag false neg ->
    entry m "values" d -> says_stmt d s -> says_wc (DMap m) (WInStmt cols s neg)
| says_and m ds l : type m "and" -> entry m "conditions" (DList ds) -> Forall2 says_wc ds l -> says_wc (DMap m) (WAnd l)
| says_or m ds l : type m "or" -> entry m "conditions" (DList ds) -> Forall2 says_wc ds l -> says_wc (DMap m) (WOr l)
| says_random m q : type m "random" -> has m "threshold" decimal q -> says_wc (DMap m) (WRandom q)
| says_sql m sql params : type m "sql" -> has m "sql" text sql -> maybe m "sql_params" (table literal) params -> says_wc (DMap m) (WSQL sql params)
with says_sel : data -> sel -> Prop :=
| says_select m cols from w lim joins outer : type m "select" -> maybe m "columns" (items text) cols -> has_or m "from" "from_" says_ident from ->
    maybe m "limit" number lim -> maybe m "joins" (items says_join) joins -> may m "joins_outer" flag false outer ->
    says_where m w -> says_sel (DMap m) (Sel cols from w lim joins outer)
with says_where : dict string data -> option wc -> Prop :=
| says_everything m : no_entry m "where" \/ entry m "where" DNull -> says_where m None
| says_condition m d w : entry m "where" d -> says_wc d w -> says_where m (Some w)
with says_stmt : data -> stmt -> Prop :=
| says_one d s : says_sel d s -> says_stmt d (SSelect s)
| says_union m ds l : type m "union" -> entry m "statements" (DList ds) -> Forall2 says_sel ds l -> says_stmt (DMap m) (SUnion l).
Definition says_query (d : data) (q : table_query) : Prop := exists m, d = DMap m /\
  maybe m "sql" text (q_sql q) /\ maybe m "sql_params" (table literal) (q_params q) /\ maybe m "statement" says_stmt (q_stmt q).
Definition says_plan (d : data) (p : plan) : Prop := exists m, d = DMap m /\
  has m "queries" (table says_query) (p_queries p) /\ may m "passthrough" (items text) [] (p_passthrough p).
