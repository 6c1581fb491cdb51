(** Specification vocabulary for columns whose values must not matter: two sources that differ in these columns only, and plans and
    filters that do not look at them. *)
From Verif Require Import Model.Base Model.Value Model.Names Model.PlanModel Model.Metadata Model.Planner Model.Filters Model.Multiply Model.Materialize Model.Dest Model.Output Model.Sampler.
From Verif Require Import Spec.SchemaSpec Spec.SqlSem Spec.PlannerSpec Spec.SampleSpec Spec.FilterSpec Spec.OutputSpec Spec.RunSpec Spec.WholeSpec.
Open Scope list_scope.

Section Hidden.
(** The hidden columns of each table. *)
Variable hidden : tname -> string -> Prop.

(** The same columns with the same values, except in hidden columns of [n]. *)
Definition alike (n : tname) (r r' : row) : Prop :=
  Forall2 (fun x x' => fst x = fst x' /\ (snd x = snd x' \/ hidden n (fst x))) r r'.
Definition seen (n : tname) (cs : list string) : Prop := forall c, In c cs -> ~ hidden n c.

Section Plans.
Variable text : string -> option (dict string lit) -> row -> tv.
(** The conditions and joins of a plan statement do not look at hidden columns; [n] is the table whose rows a condition is about.
    Subqueries select columns that are not hidden. *)
Definition join_blind (n : tname) (j : join) : Prop := seen n (j_left_cols j) /\ seen (i_name (j_right j)) (j_right_cols j).
Definition shows (s : sel) : Prop :=
  match s_columns s with Some (c :: cs) => seen (i_name (s_from s)) (c :: cs) | _ => forall c, ~ hidden (i_name (s_from s)) c end.
Fixpoint wc_blind (n : tname) (c : wc) : Prop :=
  match c with
  | WOp _ c _ => ~ hidden n c
  | WInVals cs _ _ => seen n cs
  | WInStmt cs s _ => seen n cs /\ stmt_blind s
  | WAnd l | WOr l => fold_right and True (map (wc_blind n) l)
  | WSQL s ps => forall r r', alike n r r' -> text s ps r = text s ps r'
  | WFalse | WTrue | WRandom _ => True
  end
with sel_blind (s : sel) : Prop :=
  match s with
  | Sel _ from w _ js _ =>
      match js with Some l => Forall (join_blind (i_name from)) l | None => True end /\
      match w with Some w => wc_blind (i_name from) w | None => True end
  end
with stmt_blind (s : stmt) : Prop :=
  match s with
  | SSelect x => sel_blind x /\ shows x
  | SUnion l => fold_right and True (map (fun x => sel_blind x /\ shows x) l)
  end.
(** The query of a table may select its hidden columns, but does not look at hidden columns to choose rows. *)
Definition query_blind (q : table_query) : Prop :=
  forall st, q_stmt q = Some st -> match st with SSelect x => sel_blind x | SUnion l => Forall sel_blind l end.
End Plans.

(** The random choices of the database do not look at hidden columns. *)
Definition numbered_alike (n : tname) : nat * row -> nat * row -> Prop := fun x x' => fst x = fst x' /\ alike n (snd x) (snd x').
Definition oblivious (z : rnd) : Prop :=
  (forall n q i r r', alike n r r' -> draw z q i r = draw z q i r') /\
  (forall n l l', Forall2 (numbered_alike n) l l' -> Forall2 (numbered_alike n) (shuffle z l) (shuffle z l')).

(** Column [c] is overwritten or omitted by one of the filters, and no earlier filter looks at it. *)
Definition overwritten (fs : list filter_config) (c : string) : Prop :=
  exists pre s post, fs = pre ++ FcSimple s :: post /\ (forall f, In f pre -> ~ mentions f c) /\ hides s c.

Context {G : Type}.
(** The same run on other rows of the source. *)
Definition with_source (E : env G) (src : tname -> list row) : env G :=
  Sampler.mkEnv (en_filters E) (en_fnm E) (en_resub E) (en_ord_str E) (en_ord_name E) (en_source_schema E) src (en_src_int E) (en_src_autoinc E)
    (en_cmp E) (en_text E) (en_raw E) (en_raw_cols E) (en_rnd E) (en_rank E) (en_reopen E) (en_dflt E) (en_accepts E) (en_computed E)
    (en_autoinc E) (en_dst_int E) (en_currval E) (en_buffer E).

(** What it takes for a run not to depend on hidden columns: they are neither key nor foreign key columns (nor the internal
    id column), the plan does not look at them, the filters overwrite them. *)
Record blind (E : env G) (cfg : sampler_config) (p : plan) : Prop := {
  bl_schema : db_ok (en_source_schema E);
  bl_env : env_ok E;
  bl_random : forall ph n, oblivious (en_rnd E ph n);
  bl_key : forall t c, In t (en_source_schema E) -> hidden (tb_name t) c -> tb_pk t <> [] /\ seen (tb_name t) (tb_pk t);
  bl_id : forall n, ~ hidden n id_column;
  bl_fks : forall n fk, source_fk E cfg p n fk -> seen n (fk_cols fk) /\ seen (fk_dst fk) (fk_dst_cols fk);
  bl_names : queries_ok (p_queries p);
  bl_wf : plan_wf (p_queries p);
  bl_reads : plan_reads (p_queries p);
  bl_plan : forall s q, In (s, q) (p_queries p) -> query_blind (en_text E) q;
  bl_filters : forall t n c, named t n -> In t (dkeys (p_queries p)) -> hidden n c -> overwritten (filters_of cfg t) c }.
(** The rows of the sources are the same except in hidden columns; both have unique keys. *)
Definition same_visible (E : env G) (src : tname -> list row) : Prop :=
  source_ok id_column (en_source_schema E) (en_source E) /\ source_ok id_column (en_source_schema E) src /\
  forall n, Forall2 (alike n) (en_source E n) (src n).

(** The planner configuration does not look at hidden columns: not to follow foreign keys, nor in constraints or targets. *)
Definition config_blind (E : env G) (pcfg : config) : Prop :=
  (forall n fk, considered (en_fnm E) pcfg (en_source_schema E) n fk -> seen n (fk_cols fk) /\ seen (fk_dst fk) (fk_dst_cols fk)) /\
  (forall s n cs c, In (s, cs) (c_constraints pcfg) -> named s n -> In c cs -> ~ hidden n (cc_col c)) /\
  (forall n g, is_target pcfg n g ->
     (forall c x, In (c, x) (tg_like g) -> ~ hidden n c) /\ (forall c x, In (c, x) (tg_in g) -> ~ hidden n c) /\
     (forall s, tg_sql g = Some s -> forall r r', alike n r r' -> en_text E s None r = en_text E s None r')).
End Hidden.
