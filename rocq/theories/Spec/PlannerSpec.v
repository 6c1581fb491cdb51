(** Specification vocabulary for the planner: what the configuration says about a schema, and what it
    means to populate a plan.  Nothing here mentions how plans are computed. *)
From Verif Require Import Model.Base Model.Value Model.PlanModel Model.Metadata Model.Planner.
From Verif Require Import Spec.GraphSpec Spec.SchemaSpec Spec.SqlSem.
Open Scope list_scope.

Section Config.
Variables (fnm : string -> string -> bool) (cfg : config) (db : list table).

(** Every table name in the configuration has the form "schema.table". *)
Definition names_valid : Prop :=
  (forall s, In s (c_ignore cfg) \/ In s (c_passthrough cfg) -> exists n, named s n) /\
  (forall a b, In (a, b) (c_ignore_fks cfg) -> (exists n, named a n) /\ (exists n, named b n)) /\
  (forall x, In x (c_extra_fks cfg) -> (exists n, named (x_src x) n) /\ (exists n, named (x_dst x) n)).

Definition ignored (n : tname) : Prop := exists s, In s (c_ignore cfg) /\ named s n.
Definition passthrough_listed (n : tname) : Prop := exists s, In s (c_passthrough cfg) /\ named s n.
(** Selected by a pattern, or (with include_dependencies) referenced, directly or not, from such a table. *)
Definition chosen (n : tname) : Prop :=
  selected fnm db (c_select cfg ++ c_passthrough cfg) (c_include_deps cfg) false n.
Definition passed_through (n : tname) : Prop := chosen n /\ passthrough_listed n.
Definition active (n : tname) : Prop := chosen n /\ ~ ignored n /\ ~ passthrough_listed n.
Definition is_target (n : tname) (g : target) : Prop :=
  exists s, In (s, g) (c_targets cfg) /\ named s n.

(** ignore_fks names the pair of tables. *)
Definition ignored_fk (n d : tname) : Prop :=
  exists a b, In (a, b) (c_ignore_fks cfg) /\ named a n /\ named b d.

(** [d] is the only chosen table (of schema [s], in mode "schema") whose primary key is the column [c]. *)
Definition chosen_pk (s c : string) (d : tname) : Prop :=
  exists t, chosen d /\ table_of db d t /\ tb_pk t = [c] /\ (c_infer cfg = InferAll \/ fst d = s).
Definition inferable (n : tname) (fk : fkey) : Prop :=
  c_infer cfg <> InferNone /\
  exists c d t, fk = mkFK [c] d [c] /\ d <> n /\ table_of db n t /\ In c (tb_cols t) /\
    chosen_pk (fst n) c d /\ forall d', chosen_pk (fst n) c d' -> d' = d.

(** The extra_fks entry [x] is usable and describes the foreign key [fk] of [n]. *)
Definition extra_describes (n : tname) (x : extra_fk) (fk : fkey) : Prop :=
  named (x_src x) n /\ named (x_dst x) (fk_dst fk) /\ fk_cols fk = x_src_cols x /\ fk_dst_cols fk = x_dst_cols x /\
  chosen (fk_dst fk) /\
  (exists t, table_of db n t /\ incl (x_src_cols x) (tb_cols t)) /\
  (exists t, table_of db (fk_dst fk) t /\ incl (x_dst_cols x) (tb_cols t)).

(** The foreign keys the planner considers for a chosen table: those of the schema and the inferred ones,
    without the ignored ones; and the extra ones. *)
Definition considered (n : tname) (fk : fkey) : Prop :=
  chosen n /\
  (((exists t, table_of db n t /\ In fk (tb_fks t)) \/ inferable n fk) /\ ~ ignored_fk n (fk_dst fk)
   \/ exists x, In x (c_extra_fks cfg) /\ extra_describes n x fk).

(** A considered foreign key from [n] to [d] between tables that are neither ignored nor passed
    through. *)
Definition active_edge (n d : tname) : Prop :=
  active n /\ active d /\ exists fk, considered n fk /\ fk_dst fk = d.

(** Connected to a target by such foreign keys, in either direction. *)
Definition connected (n : tname) : Prop :=
  exists t g, is_target t g /\ active t /\ path0 (fun a b => active_edge a b \/ active_edge b a) t n.

(** What the planner is documented to reject. *)
Definition into_ignored : Prop :=
  exists n fk, considered n fk /\ ~ ignored n /\ ignored (fk_dst fk).
Definition out_of_passthrough : Prop :=
  exists n fk, passed_through n /\ considered n fk /\ ~ passthrough_listed (fk_dst fk).
Definition bad_target : Prop :=
  exists s, In s (dkeys (c_targets cfg)) /\ s <> ""%string /\ ~ exists n, named s n /\ active n.

(** extra_fks entries pass the configuration's validator (C76). *)
Definition extras_valid : Prop :=
  forall x, In x (c_extra_fks cfg) ->
    x_src_cols x <> [] /\ length (x_src_cols x) = length (x_dst_cols x).

(** The constraints configured for table [n]. *)
Definition constraints_of (n : tname) (l : list constr) : Prop :=
  exists s, named s n /\ (In (s, l) (c_constraints cfg) \/ (l = [] /\ ~ In s (dkeys (c_constraints cfg)))).
End Config.

(** * Populating a plan *)
Section Populate.
Variables (cmpf : cmpop -> value -> value -> bool)
          (textf : string -> option (dict string lit) -> row -> tv)
          (source sample : tname -> list row).

(** Plan statements read the source, or the rows sampled so far. *)
Definition plan_env : sqlenv :=
  mkEnv (fun id => if i_sampled id then sample (i_name id) else source (i_name id)) cmpf textf.

(** Every planned table holds the result of its query, for some outcome of the random choices. *)
Definition populated (p : plan) : Prop :=
  forall s q n, In (s, q) (p_queries p) -> named s n ->
    exists st z, q_stmt q = Some st /\ rnd_ok z /\ Permutation (sample n) (sem_stmt plan_env z st).

(** Row [r'] is one that row [r] refers to. *)
Definition refers (fk : fkey) (r r' : row) : Prop :=
  Forall2 (fun c d => rget r c <> VNull /\ rget r' d <> VNull /\ cmpf CEq (rget r c) (rget r' d) = true)
          (fk_cols fk) (fk_dst_cols fk).
(** The foreign key holds between the rows [l] of the referring and [l'] of the referenced table. *)
Definition fk_holds (fk : fkey) (l l' : list row) : Prop :=
  forall r, In r l -> (forall c, In c (fk_cols fk) -> rget r c <> VNull) -> exists r', In r' l' /\ refers fk r r'.

Definition constr_holds (r : row) (c : constr) : Prop :=
  exists v, cc_val c = inl v /\ op3 plan_env (cc_op c) (rget r (cc_col c)) (lit_value v) = T3.

(** The filters of a target, all of them; [u] is the random number drawn for the row. *)
Definition target_holds (g : target) (u : Q) (r : row) : Prop :=
  tg_all g = true \/
  ((forall p, tg_percent g = Some p -> Qlt u (p / 100)) /\
   (forall s, tg_sql g = Some s -> textf s None r = T3) /\
   (forall c ps p, In (c, ps) (tg_like g) -> In p ps -> rget r c <> VNull /\ cmpf CLike (rget r c) (VStr p) = true) /\
   (forall c vs, In (c, vs) (tg_in g) -> rget r c <> VNull /\ exists v, In v vs /\ cmpf CEq (rget r c) (lit_value v) = true)).

(** [l] is what the target's own settings select from the rows [all]: all rows satisfying the filters, or
    [amount] of them (all, if there are fewer). *)
Definition own_selection (g : target) (all l : list row) : Prop :=
  exists (u : nat -> Q) (ok : nat * row -> bool) rest,
    (forall i, Qle 0 (u i) /\ Qlt (u i) 1) /\
    (forall i r, ok (i, r) = true <-> target_holds g (u i) r) /\
    let sat := map snd (filter ok (indexed all)) in
    Permutation (l ++ rest) sat /\
    match tg_amount g with
    | None => rest = []
    | Some a => length l = Nat.min (Z.to_nat a) (length sat)
    end.
End Populate.

(** [a] is planned before [b]. *)
Definition earlier (p : plan) (a b : tname) : Prop :=
  exists sa sb, named sa a /\ named sb b /\ before (dkeys (p_queries p)) sa sb.
Definition planned (p : plan) (n : tname) : Prop := exists s, named s n /\ In s (dkeys (p_queries p)).

Section Positions.
Variables (fnm : string -> string -> bool) (cfg : config) (db : list table) (p : plan).
(** [d] is a table, planned before [n], that [n] refers to by [fk]. *)
Definition earlier_parent (n : tname) (fk : fkey) : Prop :=
  active fnm cfg db n /\ active fnm cfg db (fk_dst fk) /\ considered fnm cfg db n fk /\ earlier p (fk_dst fk) n.
(** [c] is a table, planned before [n], that refers to [n] by [fk]. *)
Definition earlier_child (n c : tname) (fk : fkey) : Prop :=
  active fnm cfg db n /\ active fnm cfg db c /\ considered fnm cfg db c fk /\ fk_dst fk = n /\ earlier p c n.
End Positions.

(** The plan reads the rows of a table from that table: all selects of the statement are on it. *)
Definition reads_only (n : tname) (st : stmt) : Prop :=
  let ok s := s_from s = mkIdent (fst n) (snd n) false /\ s_columns s = None in
  match st with SSelect s => ok s | SUnion l => forall s, In s l -> ok s end.

(** The configuration's dicts have distinct keys, as Python dicts do. *)
Definition config_ok (cfg : config) : Prop := NoDup (dkeys (c_targets cfg)) /\ NoDup (dkeys (c_constraints cfg)).
(** Some table connected to the targets lies on a cycle of foreign keys. *)
Definition cyclic (fnm : string -> string -> bool) (cfg : config) (db : list table) : Prop :=
  exists n, connected fnm cfg db n /\ on_cycle (active_edge fnm cfg db) n.
(** Equality in the database engine is symmetric. *)
Definition eq_symmetric (cmpf : cmpop -> value -> value -> bool) : Prop := forall a b, cmpf CEq a b = cmpf CEq b a.
(** The source database satisfies the considered foreign keys. *)
Definition source_consistent (fnm : string -> string -> bool) (cfg : config) (db : list table)
    (cmpf : cmpop -> value -> value -> bool) (source : tname -> list row) : Prop :=
  forall n fk, considered fnm cfg db n fk -> fk_holds cmpf fk (source n) (source (fk_dst fk)).

(** The configuration without its table_constraints. *)
Definition without_constraints (cfg : config) : config :=
  mkConfig [] (c_select cfg) (c_targets cfg) (c_ignore cfg) (c_passthrough cfg) (c_ignore_fks cfg) (c_extra_fks cfg)
           (c_infer cfg) (c_include_deps cfg).
(** Given the plan [p] without constraints: some constrained table (not a target with 'all') is sampled from
    references to it, or a constraint names an unknown column or has a list as value. *)
Definition constraints_misplaced (fnm : string -> string -> bool) (cfg : config) (db : list table) (p : plan) : Prop :=
  exists n l, connected fnm cfg db n /\ constraints_of cfg n l /\
    ((l <> [] /\ (exists c fk, earlier_child fnm cfg db p n c fk) /\ (forall g, is_target cfg n g -> tg_all g = false)) \/
     exists c, In c l /\ ~ exists t v, table_of db n t /\ In (cc_col c) (tb_cols t) /\ cc_val c = inl v).

(** The extra_fks entry [x] names table [n] and another table of [ms] and existing columns of both; [fk] is what
    it describes. *)
Definition extra_usable (ms : meta) (n : tname) (x : extra_fk) (fk : fkey) : Prop :=
  exists d m md, named (x_src x) n /\ named (x_dst x) d /\ In (n, m) ms /\ In (d, md) ms /\
    incl (x_src_cols x) (tb_cols (tm_table m)) /\ incl (x_dst_cols x) (tb_cols (tm_table md)) /\
    fk = mkFK (x_src_cols x) d (x_dst_cols x).
