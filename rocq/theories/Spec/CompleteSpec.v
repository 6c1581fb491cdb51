(** Specification vocabulary for runs that stop after they have begun to change the destination. *)
From Verif Require Import Model.Base Model.Value Model.Names Model.PlanModel Model.Metadata Model.Planner Model.Filters Model.Multiply Model.Materialize Model.Dest Model.Output Model.Sampler.
From Verif Require Import Spec.GraphSpec Spec.SchemaSpec Spec.FilterSpec Spec.OutputSpec Spec.RunSpec Spec.SampleSpec Spec.WholeSpec Spec.CompactWholeSpec.
From Verif Require Spec.MultiplySpec.
Open Scope list_scope.

Section Complete.
Context {G : Type}.
Variables (E : env G) (cfg : sampler_config) (p : plan).

(** The destination [d] does not carry out the statement [e]: it refuses for reasons of its own, or a row to be inserted has a
    key that is taken. *)
Definition refused (d : dest) (e : event) : Prop :=
  en_accepts E d e = false \/
  exists n how rows t, e = EvInsert n how rows /\ table_of (ds_tables d) n t /\ insert_rows (en_dflt E) t how (rows_of d n) rows = None.

(** [e] is a statement that the run may issue when the destination has the tables [db]: it opens or extends the file of a
    planned table; or it empties a table that is truncated, inserts into the copy of a planned table, or advances its sequence. *)
Definition issued (db : list table) (truncate : bool) (e : event) : Prop :=
  let queries := dkeys (p_queries p) in
  match sc_output cfg with
  | ToDirectory dir =>
      exists t n f, In t queries /\ named t n /\ f = (dir ++ "/" ++ (fst n ++ "." ++ snd n) ++ ".json")%string /\ (e = EvOpen f \/ exists r, e = EvLine f r)
  | ToDatabase c =>
      let target := target (en_resub E) (oc_remap c) queries in
      (truncate = true /\ exists n, affected (en_resub E) (oc_remap c) db queries n /\ e = EvDelete n) \/
      (exists n how rows, target n /\ e = EvInsert n how rows /\ rows <> [] /\ length rows <= S (en_buffer E) /\
         forall tb, table_of db n tb -> tb_pk tb <> [] -> oc_strategy c = SSkip -> how = LeaveOut) \/
      (oc_dialect c = PostgreSQL /\ exists n v, target n /\ e = EvSetval n v)
  end.
(** Nothing but the destination ended the run: it refused a statement [e] of the run. *)
Definition stopped_by_destination (truncate : bool) (d : dest) (x : out_exn) : Prop :=
  x = OxDbError /\ exists e, issued (ds_tables d) truncate e /\ refused d e.

(** The filters configured for the planned table [t], in the source [tb], are [chain], and leave the columns [cols]. *)
Definition chain_of (t : string) (tb : table) (chain : list view) (cols : list string) : Prop :=
  In t (dkeys (p_queries p)) /\ (exists n, named t n /\ table_of (en_source_schema E) n tb) /\
  construct_chain (fe_load_plugin (en_filters E)) (filters_of cfg t) (tb_cols tb) = Ok (chain, cols).

(** No filter raises an exception when it is applied to a row. *)
Definition filters_work : Prop :=
  forall t tb chain cols r g, chain_of t tb chain cols -> length r = length (tb_cols tb) ->
    exists out, run_filters (en_filters E) chain r g = Ok out.
(** The columns of integer type of the source hold integers and NULLs. *)
Definition integers : Prop :=
  forall n k r, en_src_int E n k = true -> In r (en_source E n) -> rget r k = VNull \/ exists z, rget r k = VInt z.
(** No filter is configured for a column that is multiplied. *)
Definition multiplied_unfiltered (ms : meta) : Prop :=
  (1 < mc_multiplier (sc_multiplicity cfg))%Z -> forall t k f, MultiplySpec.multiplied ms (sc_multiplicity cfg) p t k -> In f (filters_of cfg t) -> ~ may_change f k.

(** The tables of the destination [d] have the columns that are copied to them; their primary keys are among those. *)
Definition columns_fit (c : db_config) (d : dest) : Prop :=
  forall t tb chain cols n' tb', chain_of t tb chain cols -> goes_to (en_resub E) (oc_remap c) (tb_name tb) n' -> table_of (ds_tables d) n' tb' ->
    incl cols (tb_cols tb') /\ NoDup (tb_pk tb') /\ forall k, In k (tb_pk tb') -> In k cols /\ en_computed E n' k = false.
(** PostgreSQL: the tables with a column whose values come from a sequence have names that need no quotation marks; such
    columns hold integers in the source; neither filters nor references to renumbered columns change them. *)
Definition sequences_fit (ms : meta) (compact : dict tname (list string)) (c : db_config) : Prop :=
  oc_dialect c = PostgreSQL ->
  forall t tb n' k, In t (dkeys (p_queries p)) -> named t (tb_name tb) -> In tb (en_source_schema E) -> goes_to (en_resub E) (oc_remap c) (tb_name tb) n' ->
    en_autoinc E n' = Some k ->
    plain_name n' /\
    (In k (tb_cols tb) ->
     (forall r, In r (en_source E (tb_name tb)) -> exists z, rget r k = VInt z) /\
     (forall f, In f (filters_of cfg t) -> ~ may_change f k) /\
     (forall d dc, ~ governs ms compact (tb_name tb) k d dc)).
(** The dialect can express the conflict strategies of the planned tables. *)
Definition strategy_supported (c : db_config) : Prop :=
  oc_dialect c = OtherDialect -> forall t, In t (dkeys (p_queries p)) -> strategy_of c p t = SError.
(** Column [k] of the source table [n], copied to [n'] in the schema [db], takes part in merging: it is the integer key of [n'],
    or refers to the primary key of a planned table that is not copied as it is. *)
Definition merge_column (db : list table) (n n' : tname) (k : string) : Prop :=
  int_key E db n' k \/
  exists fk s tb, source_fk E cfg p n fk /\ fk_cols fk = [k] /\ In s (dkeys (p_queries p)) /\ ~ In s (p_passthrough p) /\ named s (fk_dst fk) /\
    table_of (en_source_schema E) (fk_dst fk) tb /\ fk_dst_cols fk = tb_pk tb.
(** Merging, for the planned tables that are not passthrough tables: the destination [d] has the table; foreign keys of one column
    refer to planned tables; the columns that take part hold integers or NULL and are not filtered. *)
Definition merges_fit (c : db_config) (d : dest) : Prop :=
  oc_merge c = true ->
  forall t n, In t (dkeys (p_queries p)) -> ~ In t (p_passthrough p) -> named t n ->
    (exists n' tb, goes_to (en_resub E) (oc_remap c) n n' /\ table_of (ds_tables d) n' tb) /\
    (forall fk k, source_fk E cfg p n fk -> fk_cols fk = [k] -> exists s, In s (dkeys (p_queries p)) /\ named s (fk_dst fk)) /\
    (forall n' k, goes_to (en_resub E) (oc_remap c) n n' -> merge_column (ds_tables d) n n' k ->
       (forall f, In f (filters_of cfg t) -> ~ may_change f k) /\
       forall r, In r (en_source E n) -> rget r k = VNull \/ exists z, rget r k = VInt z).

(** A run that can be carried out, as far as the plan, the source and the sampler's configuration are concerned: the plan is
    the planner's for [pcfg], [ms] are the source tables and [compact] the columns renumbered. *)
Definition sound_run (pcfg : config) (ms : meta) (compact : dict tname (list string)) : Prop :=
  env_ok E /\ any_order (en_ord_str E) /\ numbers_rows E /\ planned_by E p pcfg /\ renumbers E cfg p ms compact /\
  filters_work /\ integers /\ multiplied_unfiltered ms.
(** A destination that can take the run, as far as its schema is concerned. *)
Definition fitting (ms : meta) (compact : dict tname (list string)) (c : db_config) (d d' : dest) : Prop :=
  run_ok E cfg c p d /\ merges_fit c d' /\ strategy_supported c /\
  (forall n, ~ on_cycle (references (ds_tables d')) n) /\ columns_fit c d' /\ sequences_fit ms compact c.

(** The filters and the multiplicity of the configuration pass the checks made before anything is written. *)
Definition accepted (ms : meta) : Prop :=
  (forall t fs, In (t, fs) (sc_filters cfg) -> fs <> [] -> (exists n, named t n) /\
     forall n m, named t n -> In (n, m) ms -> exists x, construct_chain (fe_load_plugin (en_filters E)) fs (tb_cols (tm_table m)) = Ok x) /\
  ((1 < mc_multiplier (sc_multiplicity cfg))%Z -> MultiplySpec.multiplicity_wf ms (sc_multiplicity cfg) p /\
     ~ MultiplySpec.excluded_needs_multiplying ms (sc_multiplicity cfg) p /\ ~ MultiplySpec.multiplied_non_integer ms (sc_multiplicity cfg) p (en_src_int E)).
End Complete.
