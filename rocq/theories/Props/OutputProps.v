(** Properties C44-C60: the outputs.  Every theorem quantifies over the environment [E] (source rows and schema, the destination's
    answers, patterns, orders of sets, random generator), the configuration, the plan and the destination [w_dest w] before the
    run.  [trace w'] lists the statements that were committed, in order: an initial part of it is what a crash leaves behind. *)
From Coq Require Import Lia.
From Verif Require Import Model.Base Model.Value Model.Names Model.PlanModel Model.SqlAlgebra Model.Metadata Model.Planner Model.Filters Model.Multiply Model.Materialize Model.Dest Model.Output Model.Sampler.
From Verif Require Import Spec.GraphSpec Spec.SchemaSpec Spec.SqlSem Spec.PlannerSpec Spec.FilterSpec Spec.OutputSpec Spec.RunSpec Spec.ConflictSpec.
From Verif Require Import Proofs.MetadataMain Proofs.PlannerExamples Proofs.SampleExamples.
From Verif Require Import Model.Dest.
From Verif Require Import Proofs.BaseFacts Proofs.NameFacts Proofs.OutputDb Proofs.OutputCreate Proofs.OutputMain Proofs.OutputKeys Proofs.OutputEvents Proofs.OutputMore Proofs.OutputDirectory Proofs.OutputPrepare Proofs.ConflictFacts Proofs.OutputExamples.
Open Scope string_scope.
Open Scope list_scope.

Section Props.
Context {G : Type}.
Variables (E : env G) (cfg : sampler_config) (c : db_config) (p : plan) (w : world).
Notation queries := (dkeys (p_queries p)).
Notation pass := (p_passthrough p).
Notation becomes := (goes_to (en_resub E) (oc_remap c)).
Notation schema w := (ds_tables (w_dest w)).
Notation to := (lands (en_resub E) (oc_remap c)).
Notation is_target := (target (en_resub E) (oc_remap c) queries).

(** C44.  The last hypothesis concerns keys that are references (one-to-one relationships): existing keys occur in the referenced
    table. *)
Theorem C44_merge_fresh : forall truncate create g w' r t n n' k,
  run_ok E cfg c p (w_dest w) -> trace w = [] -> NoDup queries -> oc_merge c = true -> sample E cfg p truncate create g w = (w', r) ->
  In t queries -> ~ In t pass -> named t n -> becomes n n' -> int_key E (schema w') n' k -> plain_column E cfg p t n' k -> proper_keys E cfg p t k ->
  (forall d fk nd' kd row y, copying_starts E w w' d -> source_fk E cfg p n fk -> fk_cols fk = [k] -> becomes (fk_dst fk) nd' ->
     int_key E (schema w') nd' kd -> In row (rows_of d n') -> rget row k = VInt y -> exists row', In row' (rows_of d nd') /\ rget row' kd = VInt y) ->
  exists d, copying_starts E w w' d /\
    (forall row, In row (written (trace w') n') -> exists z, rget row k = VInt z /\ forall old y, In old (rows_of d n') -> rget old k = VInt y -> (y < z)%Z) /\
    NoDup (map (fun r => rget r k) (written (trace w') n')).
Proof. intros until k. intros H1 H2 H3 H4 H5. intros. eapply (merge_fresh_consistent H1 H2 H3 H4 H5); eassumption. Qed.

(** C45, where neither the referring column is a primary key nor the referenced key a reference; and columns that stay as they are. *)
Theorem C45_references_shifted_partial : forall truncate create g w' r t n n' k fk td nd' pk,
  run_ok E cfg c p (w_dest w) -> trace w = [] -> NoDup queries -> oc_merge c = true -> sample E cfg p truncate create g w = (w', r) ->
  In t queries -> ~ In t pass -> named t n -> becomes n n' ->
  source_fk E cfg p n fk -> fk_cols fk = [k] -> (forall fk', source_fk E cfg p n fk' -> fk_cols fk' = [k] -> fk_dst fk' = fk_dst fk /\ fk_dst_cols fk' = fk_dst_cols fk) ->
  fk_dst_cols fk = [pk] -> (forall tb, table_of (en_source_schema E) (fk_dst fk) tb -> tb_pk tb = [pk]) ->
  In td queries -> ~ In td pass -> named td (fk_dst fk) -> becomes (fk_dst fk) nd' -> int_key E (schema w') nd' pk ->
  (exists tb, table_of (schema w') n' tb /\ tb_pk tb <> [k]) ->
  (forall fk', source_fk E cfg p (fk_dst fk) fk' -> fk_cols fk' <> [pk]) ->
  plain_column E cfg p t n' k -> plain_column E cfg p td nd' pk ->
  exists d o, copying_starts E w w' d /\ room d nd' pk o /\ carried E cfg p w' (succeeded r) t n' k o /\ carried E cfg p w' (succeeded r) td nd' pk o.
Proof. intros until pk. intros H1 H2 H3 H4 H5. intros. eapply (reference_carried H1 H2 H3 H4 H5); eassumption. Qed.
Theorem C45_others_unshifted : forall truncate create g w' r t n n' k,
  run_ok E cfg c p (w_dest w) -> trace w = [] -> NoDup queries -> oc_merge c = true -> sample E cfg p truncate create g w = (w', r) ->
  In t queries -> named t n -> becomes n n' -> plain_column E cfg p t n' k ->
  (exists tb, table_of (schema w') n' tb /\ (In t pass \/ tb_pk tb <> [k] /\
     forall fk, source_fk E cfg p n fk -> fk_cols fk = [k] ->
       (exists td, named td (fk_dst fk) /\ In td pass) \/ (forall tb, table_of (en_source_schema E) (fk_dst fk) tb -> tb_pk tb <> fk_dst_cols fk))) ->
  carried E cfg p w' (succeeded r) t n' k None.
Proof. intros until k. intros H1 H2 H3 H4 H5. intros. eapply (unshifted H1 H2 H3 H4 H5); eassumption. Qed.

(** C46, for tables whose largest existing key is not negative and whose key is not a reference. *)
Theorem C46_merge_formula_partial : forall truncate create g w' r t n n' k,
  run_ok E cfg c p (w_dest w) -> trace w = [] -> NoDup queries -> oc_merge c = true -> sample E cfg p truncate create g w = (w', r) ->
  In t queries -> ~ In t pass -> named t n -> becomes n n' -> int_key E (schema w') n' k ->
  (forall fk, source_fk E cfg p n fk -> fk_cols fk <> [k]) -> plain_column E cfg p t n' k ->
  exists d, copying_starts E w w' d /\ forall z, largest (rows_of d n') k z -> (0 <= z)%Z -> carried E cfg p w' (succeeded r) t n' k (Some (Z.max 0 z + 1)%Z).
Proof. intros until k. intros H1 H2 H3 H4 H5. intros. eapply (merge_formula H1 H2 H3 H4 H5); eassumption. Qed.

(** C47 is false whenever a single-column foreign key leaves the plan: the run fails, with --create before anything is done.
    What holds: the shifts can be computed, and the tables created, if no foreign key leaves the plan. *)
Theorem C47_merge_outside : forall truncate create g w' r t n fk k,
  run_ok E cfg c p (w_dest w) -> sample E cfg p truncate create g w = (w', r) -> trace w = [] -> oc_merge c = true ->
  In t queries -> ~ In t pass -> named t n -> source_fk E cfg p n fk -> fk_cols fk = [k] ->
  ~ matching (en_fnm E) (en_source_schema E) queries (fk_dst fk) ->
  (exists e, r = Err e) /\ (forall e, In e (trace w') -> preparing e).
Proof. intros until k. intros H1 H2. intros. eapply (merge_outside H1 H2); eassumption. Qed.
Theorem C47_create_outside : forall truncate g w' r t n n' tb fk,
  run_ok E cfg c p (w_dest w) -> sample E cfg p truncate true g w = (w', r) ->
  In t queries -> named t n -> becomes n n' -> (~ exists x, table_of (schema w) n' x) ->
  table_of (en_source_schema E) n tb -> In fk (tb_fks tb) -> ~ In (render (fk_dst fk)) queries ->
  (exists e, r = Err e) /\ w' = w.
Proof. intros until fk. intros H1 H2. intros. eapply (create_outside H1 H2); eassumption. Qed.

(** C48.  [sampling]: the samples are each result row, filtered, as many times as it is multiplied. *)
Theorem C48_rows_written : forall truncate create g w' g',
  run_ok E cfg c p (w_dest w) -> trace w = [] -> sample E cfg p truncate create g w = (w', Ok g') ->
  exists order samples, insertion E c p (schema w') order /\ sampling E cfg c p true g order samples /\ NoDup (map fst samples) /\
    (forall n rows, In (n, rows) samples -> concat (batches (trace w') n) = rows) /\
    (forall n, ~ In n (map fst samples) -> batches (trace w') n = []) /\
    (forall n, Forall (fun b => b <> [] /\ length b <= S (en_buffer E)) (batches (trace w') n)).
Proof. intros until g'. intros H1 H2 H3. exact (rows_written H1 H2 H3). Qed.

(** C49: every initial part of the statements, whether the run succeeds or not. *)
Theorem C49_crash_prefix : forall truncate create g w' r,
  run_ok E cfg c p (w_dest w) -> trace w = [] -> sample E cfg p truncate create g w = (w', r) ->
  exists samples, NoDup (map fst samples) /\
    (samples = [] \/ exists order, insertion E c p (schema w') order /\ sampling E cfg c p (succeeded r) g order samples) /\
    forall tr, initial_part tr (trace w') ->
      (forall n, ~ In n (map fst samples) -> batches tr n = []) /\
      (forall n, Forall (fun b => b <> [] /\ length b <= S (en_buffer E)) (batches tr n)) /\
      exists done_ rest, samples = done_ ++ rest /\ (forall n rows, In (n, rows) done_ -> written tr n = rows) /\
        match rest with
        | [] => True
        | (n, rows) :: later => initial_part (written tr n) rows /\ forall n', In n' (map fst later) -> written tr n' = []
        end.
Proof. intros until r. intros H1 H2 H3. exact (crash_prefix H1 H2 H3). Qed.

(** C50. *)
Theorem C50_parents_first : forall truncate create g w' r,
  run_ok E cfg c p (w_dest w) -> trace w = [] -> sample E cfg p truncate create g w = (w', r) ->
  exists order samples, (samples = [] \/ insertion E c p (schema w') order /\ sampling E cfg c p (succeeded r) g order samples) /\
    (forall n, ~ In n (map fst samples) -> written (trace w') n = []) /\
    forall tr, initial_part tr (trace w') -> forall na ra nb rb fk t,
      In (na, ra) samples -> In (nb, rb) samples -> table_of (schema w') na t -> In fk (tb_fks t) -> fk_dst fk = nb ->
      fk_holds (en_cmp E) fk ra rb -> fk_holds (en_cmp E) fk (written tr na) (written tr nb).
Proof. intros until r. intros H1 H2 H3. exact (crash_consistent H1 H2 H3). Qed.

(** C51. *)
Theorem C51_truncation : forall truncate create g w' r,
  run_ok E cfg c p (w_dest w) -> trace w = [] -> sample E cfg p truncate create g w = (w', r) ->
  exists created del after_ d, trace w' = created ++ map EvDelete del ++ after_ /\
    (forall e, In e created -> exists ts, e = EvCreate ts) /\ (forall e, In e after_ -> (forall ts, e <> EvCreate ts) /\ (forall n, e <> EvDelete n)) /\
    NoDup del /\ (truncate = false -> del = []) /\
    (forall n, In n del -> affected (en_resub E) (oc_remap c) (schema w') queries n) /\
    (truncate = true -> after_ <> [] \/ (exists g', r = Ok g') -> forall n, affected (en_resub E) (oc_remap c) (schema w') queries n -> In n del) /\
    (forall a b, references (schema w') a b -> In b del -> before del a b) /\
    replay (en_dflt E) (w_dest w) (created ++ map EvDelete del) d /\
    (forall n, In n del -> rows_of d n = []) /\ (forall n, ~ In n del -> rows_of d n = rows_of (w_dest w) n).
Proof. intros until r. intros H1 H2 H3. exact (truncation H1 H2 H3). Qed.
Theorem C51_others_untouched : forall truncate create g w' r n,
  run_ok E cfg c p (w_dest w) -> trace w = [] -> sample E cfg p truncate create g w = (w', r) ->
  (truncate = true -> ~ affected (en_resub E) (oc_remap c) (schema w') queries n) -> ~ is_target n ->
  rows_of (w_dest w') n = rows_of (w_dest w) n.
Proof. intros until n. intros H1 H2 H3. exact (untouched H1 H2 H3). Qed.

(** C52, where the tables that reference a sampled table are sampled themselves. *)
Theorem C52_only_sampled_partial : forall truncate create g w' r,
  run_ok E cfg c p (w_dest w) -> trace w = [] -> sample E cfg p truncate create g w = (w', r) ->
  (forall a b, references (schema w') a b -> is_target b -> is_target a) ->
  (forall n, In (EvDelete n) (trace w') -> is_target n) /\ (forall n, ~ is_target n -> rows_of (w_dest w') n = rows_of (w_dest w) n).
Proof. intros until r. intros H1 H2 H3. exact (only_sampled H1 H2 H3). Qed.

(** C53, with --create or if the tables exist. *)
Theorem C53_all_sampled_partial : forall truncate create g w' g',
  run_ok E cfg c p (w_dest w) -> trace w = [] -> sample E cfg p truncate create g w = (w', Ok g') ->
  create = true \/ (forall t n', In t queries -> to t n' -> exists tb, table_of (schema w) n' tb) ->
  exists order samples, (forall t, In t order <-> In t queries) /\ NoDup order /\ sampling E cfg c p true g order samples /\
    Forall2 (fun t x => to t (fst x)) order samples /\ NoDup (map fst samples) /\
    (forall n rows, In (n, rows) samples -> written (trace w') n = rows).
Proof. intros until g'. intros H1 H2 H3. exact (all_sampled H1 H2 H3). Qed.

(** C54: without distinct names the run fails before anything is done. *)
Theorem C54_remap_collision : forall truncate create g w' r,
  run_ok E cfg c p (w_dest w) -> trace w = [] -> sample E cfg p truncate create g w = (w', r) ->
  (exists t, In t queries /\ forall n', ~ to t n') \/ (exists t t' n', In t queries /\ In t' queries /\ t <> t' /\ to t n' /\ to t' n') ->
  trace w' = [] /\ w_dest w' = w_dest w /\ succeeded r = false.
Proof. intros until r. intros H1 H2 H3. exact (remap_collision H1 H2 H3). Qed.

(** C55, for tables without further unique keys; on SQLite, 'replace' only if all columns are given.  [d] is the destination when
    copying starts; for every key the rows that have it before, the rows written with it and the rows that have it after. *)
Theorem C55_conflicts_partial : forall truncate create g w' r t n tb,
  run_ok E cfg c p (w_dest w) -> trace w = [] -> sample E cfg p truncate create g w = (w', r) -> In t queries -> to t n ->
  table_of (schema w') n tb -> tb_pk tb <> [] -> tb_uniques tb = [] ->
  (oc_dialect c = SQLite -> strategy_of c p t = SReplace -> forall row, In row (written (trace w') n) -> incl (tb_cols tb) (dkeys row)) ->
  exists d, copying_starts E w w' d /\
    (keys_unique tb (rows_of d n) ->
     keys_unique tb (rows_of (w_dest w') n) /\
     forall key, proper key ->
       resolved tb (strategy_of c p t) (keyed tb key (rows_of d n)) (keyed tb key (written (trace w') n)) (keyed tb key (rows_of (w_dest w') n))).
Proof. intros until tb. intros H1 H2 H3. exact (conflicts H1 H2 H3). Qed.

(** C56: rows are never written without their primary key. *)
Theorem C56_keys_given : forall truncate create g w' r n tb row,
  run_ok E cfg c p (w_dest w) -> trace w = [] -> sample E cfg p truncate create g w = (w', r) -> table_of (schema w') n tb ->
  In row (written (trace w') n) -> forall k, In k (tb_pk tb) -> In k (dkeys row).
Proof. intros until row. intros H1 H2 H3. exact (keys_given H1 H2 H3). Qed.

(** C57. *)
Theorem C57_directory : forall dir truncate create g w' g', sc_output cfg = ToDirectory dir -> NoDup queries ->
  sample E cfg p truncate create g w = (w', Ok g') ->
  exists ms compact st mults files g1, computed_by E cfg p ms compact st mults /\ map fst files = queries /\
    exports E cfg p ms compact st mults true queries g files g1 /\
    (forall t rows, In (t, rows) files -> file_of (w_dest w') (json_file dir t) = rows) /\
    (forall q, (forall t, In t queries -> q <> json_file dir t) -> file_of (w_dest w') q = file_of (w_dest w) q) /\ same_db (w_dest w) (w_dest w').
Proof. intros until g'. exact (@directory_files _ E cfg p dir truncate create g w w' g'). Qed.
Theorem C57_directory_failure : forall dir truncate create g w' r, sc_output cfg = ToDirectory dir -> NoDup queries ->
  sample E cfg p truncate create g w = (w', r) ->
  same_db (w_dest w) (w_dest w') /\
  ((succeeded r = false /\ w' = w) \/
   exists ms compact st mults files g', computed_by E cfg p ms compact st mults /\
     exports E cfg p ms compact st mults (succeeded r) queries g files g' /\
     (forall t rows, In (t, rows) files -> file_of (w_dest w') (json_file dir t) = rows) /\
     (forall q, (forall t, In t (map fst files) -> q <> json_file dir t) -> file_of (w_dest w') q = file_of (w_dest w) q)).
Proof. intros until r. exact (@directory_run _ E cfg p dir truncate create g w w' r). Qed.

(** C58, if the tables whose sequences are set have plain names. *)
Theorem C58_sequence_past_partial : forall truncate create g w' g' t n' k s0,
  (forall t0 m, In t0 queries -> to t0 m -> en_autoinc E m <> None -> plain_name m) ->
  run_ok E cfg c p (w_dest w) -> trace w = [] -> sample E cfg p truncate create g w = (w', Ok g') -> oc_dialect c = PostgreSQL ->
  In t queries -> to t n' -> (exists tb, table_of (schema w') n' tb) -> en_autoinc E n' = Some k -> written_ints w' n' k ->
  dget (ds_seq (w_dest w)) n' = Some s0 -> (forall v, en_currval E n' = Some v -> (v <= s0)%Z) ->
  exists s, dget (ds_seq (w_dest w')) n' = Some s /\ forall row z, In row (written (trace w') n') -> rget row k = VInt z -> (z <= s)%Z.
Proof. intros until s0. intros H0 H1 H2 H3. exact (sequence_past H1 H2 H0 H3). Qed.

(** C59, if the session has used the sequence, or the written keys are beyond it; and for tables without generated keys. *)
Theorem C59_sequence_forward_partial : forall truncate create g w' g' t n' k s0,
  (forall t0 m, In t0 queries -> to t0 m -> en_autoinc E m <> None -> plain_name m) ->
  run_ok E cfg c p (w_dest w) -> trace w = [] -> sample E cfg p truncate create g w = (w', Ok g') -> oc_dialect c = PostgreSQL ->
  In t queries -> to t n' -> (exists tb, table_of (schema w') n' tb) -> en_autoinc E n' = Some k -> written_ints w' n' k ->
  dget (ds_seq (w_dest w)) n' = Some s0 ->
  (exists v, en_currval E n' = Some v /\ (s0 <= v)%Z) \/ (forall z, largest (written (trace w') n') k z -> (s0 <= z)%Z) ->
  exists s, dget (ds_seq (w_dest w')) n' = Some s /\ (s0 <= s)%Z.
Proof. intros until s0. intros H0 H1 H2 H3. exact (sequence_forward H1 H2 H0 H3). Qed.
Theorem C59_sequence_kept : forall truncate create g w' g' n,
  (forall t0 m, In t0 queries -> to t0 m -> en_autoinc E m <> None -> plain_name m) ->
  run_ok E cfg c p (w_dest w) -> trace w = [] -> sample E cfg p truncate create g w = (w', Ok g') ->
  (forall t, In t queries -> to t n -> (exists tb, table_of (schema w') n tb) -> written (trace w') n = [] \/ oc_dialect c <> PostgreSQL \/ en_autoinc E n = None) ->
  dget (ds_seq (w_dest w')) n = dget (ds_seq (w_dest w)) n.
Proof. intros until n. intros H0 H1 H2 H3. exact (sequence_kept H1 H2 H0 H3). Qed.

(** C60: as soon as anything but CREATE was executed, everything had been validated; CREATE destroys nothing. *)
Theorem C60_validation_first : forall truncate create g w' r,
  run_ok E cfg c p (w_dest w) -> trace w = [] -> sample E cfg p truncate create g w = (w', r) ->
  (exists e, In e (trace w') /\ forall ts, e <> EvCreate ts) \/ (exists g', r = Ok g') ->
  exists ms mults, sampler_meta (en_fnm E) (en_source_schema E) (p_queries p) (sc_infer cfg) = Ok ms /\
    (forall t fs, In (t, fs) (sc_filters cfg) -> fs <> [] -> exists n, named t n /\
       forall m, dget ms n = Some m -> exists chain out, construct_chain (fe_load_plugin (en_filters E)) fs (tb_cols (tm_table m)) = Ok (chain, out)) /\
    get_multiplied_columns (sc_multiplicity cfg) ms (en_src_int E) (en_ord_str E) p = Ok mults /\
    (forall t, In t queries -> exists n', to t n') /\
    (forall t t' n', In t queries -> In t' queries -> to t n' -> to t' n' -> t = t') /\
    (forall n, affected (en_resub E) (oc_remap c) (schema w') queries n -> ~ on_cycle (references (schema w')) n).
Proof. intros until r. intros H1 H2 H3. exact (validation_first H1 H2 H3). Qed.
Theorem C60_nothing_destroyed : forall truncate create g w' r,
  trace w = [] -> sample E cfg p truncate create g w = (w', r) ->
  (forall e, In e (trace w') -> exists ts, e = EvCreate ts) ->
  (forall n, rows_of (w_dest w') n = rows_of (w_dest w) n) /\ ds_seq (w_dest w') = ds_seq (w_dest w).
Proof. intros until r. intros H2 H3. exact (nothing_destroyed H2 H3). Qed.
End Props.

(** C47: the shifts can be computed, and the tables be created, if no foreign key leaves the plan. *)
Theorem C47_prepare_partial : forall resub is_int c d o passthrough queries smeta,
  (forall t, In t queries -> ~ In t passthrough -> exists n n', named t n /\ goes_to resub (oc_remap c) n n' /\ In n' (dkeys (ou_meta o))) ->
  (forall t n, In t queries -> ~ In t passthrough -> named t n -> exists m, dget smeta n = Some m /\
     forall fk k, In fk (tm_fks m) -> fk_cols fk = [k] -> In (fk_dst fk) (dkeys smeta)) ->
  exists o', db_prepare resub is_int c d o smeta passthrough queries = Ok o'.
Proof. exact prepare_total. Qed.
(** C54: the constructor of the database output. *)
Theorem C54_remap : forall resub c queries, let to := lands resub (oc_remap c) in
  let distinct := (forall t, In t queries -> exists n', to t n') /\ (forall t t' n', In t queries -> In t' queries -> to t n' -> to t' n' -> t = t') in
  match table_remap resub c queries with
  | Ok rm => distinct /\ forall k t, dget rm k = Some t <-> In t queries /\ exists n', to t n' /\ k = render n'
  | Err e => e = OxValueError /\ ~ distinct
  end.
Proof. exact remap_exact. Qed.

(** The runs of Proofs/OutputExamples.v: a destination that has users 1 and 7, order 5, profile 1 and photo 3. *)
Definition plain : db_config := mkDbConfig PostgreSQL [] SError false.
Definition merging : db_config := mkDbConfig PostgreSQL [] SError true.
Definition user (z : Z) (s : string) : row := [("id", VInt z); ("name", VStr s)].
Definition order (z y : Z) : row := [("id", VInt z); ("uid", VInt y)].
Definition prof (z : Z) : row := [("id", VInt z)].
Definition pict (z y : Z) : row := [("id", VInt z); ("pid", VInt y)].
Definition old_rows : dict tname (list row) :=
  [(("s", "users"), [user 1 "x"; user 7 "y"]); (("s", "orders"), [order 5 1]); (("s", "profile"), [prof 1]); (("s", "photo"), [pict 3 1])].
Definition old_dest : world := odest oschema old_rows [(("s", "users"), 50%Z)].
Definition four : list string := ["users"; "orders"; "profile"; "photo"].
Lemma old_ok c : c = plain \/ c = merging -> forall ts, ts = four \/ ts = ["users"; "orders"] -> run_ok (oenv yes none) (ocfg c) c (oplan ts) (w_dest old_dest).
Proof. intros [-> | ->] ts [-> | ->]; apply orun_ok; vm_compute; reflexivity. Qed.

(** Truncating, then copying; the statements of the whole run. *)
Example C48_C51_run : let '(w', r) := orun plain ["users"; "orders"] true false old_dest in r = Ok tt /\ trace w' =
  [ EvDelete ("s", "photo"); EvDelete ("s", "ulog"); EvDelete ("s", "profile"); EvDelete ("s", "orders"); EvDelete ("s", "users");
    EvInsert ("s", "users") Fail [user 1 "a"; user 2 "b"]; EvSetval ("s", "users") 2;
    EvInsert ("s", "orders") Fail [order 10 2; order 11 1]; EvInsert ("s", "orders") Fail [[("id", VInt 12); ("uid", VNull)]]; EvSetval ("s", "orders") 12 ].
Proof. vm_compute. split; reflexivity. Qed.
(** Creating a missing table first. *)
Example C53_C60_run : let '(w', r) := orun plain ["users"; "orders"] false true (odest [users] [] []) in r = Ok tt /\ trace w' =
  [ EvCreate [orders]; EvInsert ("s", "users") Fail [user 1 "a"; user 2 "b"]; EvSetval ("s", "users") 2;
    EvInsert ("s", "orders") Fail [order 10 2; order 11 1]; EvInsert ("s", "orders") Fail [[("id", VInt 12); ("uid", VNull)]]; EvSetval ("s", "orders") 12 ].
Proof. vm_compute. split; reflexivity. Qed.
(** Merging. *)
Example C44_C46_run : let '(w', r) := orun merging ["users"; "orders"] false false old_dest in r = Ok tt /\ trace w' =
  [ EvInsert ("s", "users") Fail [user 9 "a"; user 10 "b"]; EvSetval ("s", "users") 10;
    EvInsert ("s", "orders") Fail [order 16 10; order 17 9]; EvInsert ("s", "orders") Fail [[("id", VInt 18); ("uid", VNull)]]; EvSetval ("s", "orders") 18 ].
Proof. vm_compute. split; reflexivity. Qed.

(** The hypotheses of C44 are met by profiles, whose keys are references, and those of C45 and C46 by orders. *)
Ltac result_is H1 H2 := pose proof (results_spec _ _ _ _ _ _ _ _ _ H1 H2) as Hres; vm_compute in Hres; injection Hres as Em Ec; subst.
Example C44_hypotheses : let E := oenv yes none in let w' := fst (orun merging four false false old_dest) in
  sample E (ocfg merging) (oplan four) false false tt old_dest = (w', Ok tt) /\ named "s.profile" ("s", "profile") /\
  int_key E (ds_tables (w_dest w')) ("s", "profile") "id" /\ plain_column E (ocfg merging) (oplan four) "s.profile" ("s", "profile") "id" /\
  proper_keys E (ocfg merging) (oplan four) "s.profile" "id" /\
  (exists fk, source_fk E (ocfg merging) (oplan four) ("s", "profile") fk /\ fk_cols fk = ["id"]) /\
  consistentb (en_cmp E) oschema (rows_of (w_dest old_dest)) = true.
Proof.
  split; [vm_compute; reflexivity|]. split; [apply parse_named; reflexivity|]. split; [exists profile; split; [split; [vm_compute; auto 9|reflexivity]|split; reflexivity]|]. split; [|split; [|split]].
  - split; [|split; [intros f []|reflexivity]]. intros ms compact st mults co H1 H2. result_is H1 H2. left. reflexivity.
  - intros ms compact st mults co H1 H2. result_is H1 H2. split; [|split; [nd|left; reflexivity]].
    intros r [<-|[<-|[]]]; [exists 1%Z|exists 2%Z]; (split; [reflexivity|lia]).
  - eexists. split; [eexists; eexists; split; [vm_compute; reflexivity|split; [vm_compute; reflexivity|left; reflexivity]]|reflexivity].
  - vm_compute. reflexivity.
Qed.
Example C45_C46_hypotheses : let E := oenv yes none in let w' := fst (orun merging four false false old_dest) in
  sample E (ocfg merging) (oplan four) false false tt old_dest = (w', Ok tt) /\
  plain_column E (ocfg merging) (oplan four) "s.orders" ("s", "orders") "uid" /\ plain_column E (ocfg merging) (oplan four) "s.users" ("s", "users") "id" /\
  source_fk E (ocfg merging) (oplan four) ("s", "orders") (mkFK ["uid"] ("s", "users") ["id"]) /\
  (forall fk', source_fk E (ocfg merging) (oplan four) ("s", "users") fk' -> fk_cols fk' <> ["id"]) /\
  (forall fk', source_fk E (ocfg merging) (oplan four) ("s", "orders") fk' -> fk_cols fk' = ["uid"] -> fk_dst fk' = ("s", "users") /\ fk_dst_cols fk' = ["id"]) /\
  largest (rows_of (w_dest old_dest) ("s", "users")) "id" 7.
Proof.
  split; [vm_compute; reflexivity|]. split; [|split; [|split; [|split; [|split]]]].
  - split; [|split; [intros f []|reflexivity]]. intros ms compact st mults co H1 H2. result_is H1 H2. right. left. reflexivity.
  - split; [|split; [intros f []|reflexivity]]. intros ms compact st mults co H1 H2. result_is H1 H2. left. reflexivity.
  - eexists; eexists; split; [vm_compute; reflexivity|split; [vm_compute; reflexivity|left; reflexivity]].
  - intros fk (ms & m & H1 & H2 & H3). vm_compute in H1. injection H1 as <-. vm_compute in H2. injection H2 as <-. destruct H3.
  - intros fk (ms & m & H1 & H2 & H3) _. vm_compute in H1. injection H1 as <-. vm_compute in H2. injection H2 as <-. destruct H3 as [<-|[]]. split; reflexivity.
  - split; [exists (user 7 "y"); split; [right; left; reflexivity|reflexivity]|]. intros r y [<-|[<-|[]]] E; injection E as <-; lia.
Qed.

(** C45 is false of keys that are references: photos refer to profiles, the keys of profiles are those of users.  All references
    resolve at the source and at the destination, the run succeeds, and the new photo refers to a profile that does not exist. *)
Theorem C45_references_shifted_refuted : exists E cfg c p w w', run_ok E cfg c p (w_dest w) /\ trace w = [] /\ NoDup (dkeys (p_queries p)) /\ oc_merge c = true /\
  sample E cfg p false false tt w = (w', Ok tt) /\
  (forall t fk, In t (en_source_schema E) -> In fk (tb_fks t) -> fk_holds (en_cmp E) fk (en_source E (tb_name t)) (en_source E (fk_dst fk))) /\
  (forall t fk, In t (ds_tables (w_dest w)) -> In fk (tb_fks t) -> fk_holds (en_cmp E) fk (rows_of (w_dest w) (tb_name t)) (rows_of (w_dest w) (fk_dst fk))) /\
  exists t fk, In t (ds_tables (w_dest w)) /\ In fk (tb_fks t) /\ ~ fk_holds (en_cmp E) fk (rows_of (w_dest w') (tb_name t)) (rows_of (w_dest w') (fk_dst fk)).
Proof.
  exists (oenv yes none), (ocfg merging), merging, (oplan four), old_dest, (fst (orun merging four false false old_dest)).
  split; [apply old_ok; auto|]. split; [reflexivity|]. split; [nd|]. split; [reflexivity|]. split; [vm_compute; reflexivity|].
  split; [intros t fk; apply (@consistentb_true (en_cmp (oenv yes none)) oschema (en_source (oenv yes none))); vm_compute; reflexivity|].
  split; [intros t fk; apply (@consistentb_true (en_cmp (oenv yes none)) oschema (rows_of (w_dest old_dest))); vm_compute; reflexivity|].
  exists photo, (mkFK ["pid"] ("s", "profile") ["id"]). split; [cbn; auto 9|]. split; [left; reflexivity|]. intros H. apply (proj2 (fk_holdsb_iff _ _ _ _)) in H. vm_compute in H. discriminate.
Qed.

(** C46 is false of empty tables: the keys are not shifted at all. *)
Definition documented_id (existing : list Z) (z : Z) : Z := (z + fold_right Z.max 0 existing + 1)%Z.
Theorem C46_merge_formula_refuted : exists E cfg c p w w', run_ok E cfg c p (w_dest w) /\ trace w = [] /\ NoDup (dkeys (p_queries p)) /\ oc_merge c = true /\
  sample E cfg p false false tt w = (w', Ok tt) /\ rows_of (w_dest w) ("s", "users") = [] /\
  map (fun r => rget r "id") (en_source E ("s", "users")) = map VInt [1; 2]%Z /\
  map (fun r => rget r "id") (written (trace w') ("s", "users")) <> map (fun z => VInt (documented_id [] z)) [1; 2]%Z.
Proof.
  exists (oenv yes none), (ocfg merging), merging, (oplan four), (odest oschema [] []), (fst (orun merging four false false (odest oschema [] []))).
  split; [apply orun_ok; vm_compute; reflexivity|]. split; [reflexivity|]. split; [nd|]. split; [reflexivity|]. split; [vm_compute; reflexivity|].
  split; [reflexivity|]. split; [reflexivity|]. vm_compute. discriminate.
Qed.

(** C47 is false: orders refer to users, who are not part of the plan. *)
Theorem C47_outside_refuted : exists E p, forall c, c = merging -> run_ok E (ocfg c) c p (w_dest old_dest) /\
  sample E (ocfg c) p false false tt old_dest = (old_dest, Err OxKeyError).
Proof. exists (oenv yes none), (oplan ["orders"]). intros c ->. split; [apply orun_ok|]; vm_compute; reflexivity. Qed.
Theorem C47_create_refuted : exists E p w, run_ok E (ocfg plain) plain p (w_dest w) /\ sample E (ocfg plain) p false true tt w = (w, Err OxKeyError).
Proof. exists (oenv yes none), (oplan ["orders"]), (odest [] [] []). split; [apply orun_ok|]; vm_compute; reflexivity. Qed.
Example C47_hypotheses : exists fk, source_fk (oenv yes none) (ocfg merging) (oplan ["orders"]) ("s", "orders") fk /\ fk_cols fk = ["uid"] /\
  ~ In (render (fk_dst fk)) (dkeys (p_queries (oplan ["orders"]))).
Proof.
  eexists. split; [eexists; eexists; split; [vm_compute; reflexivity|split; [vm_compute; reflexivity|left; reflexivity]]|]. split; [reflexivity|]. vm_compute. intros [E|[]]. discriminate.
Qed.

(** C52 is false: the profiles and photos of the destination are deleted, though only users and orders are sampled. *)
Theorem C52_only_sampled_refuted : exists E cfg c p w w', run_ok E cfg c p (w_dest w) /\ trace w = [] /\
  sample E cfg p true false tt w = (w', Ok tt) /\
  exists n, ~ target (en_resub E) (oc_remap c) (dkeys (p_queries p)) n /\ rows_of (w_dest w) n <> [] /\ rows_of (w_dest w') n = [].
Proof.
  exists (oenv yes none), (ocfg plain), plain, (oplan ["users"; "orders"]), old_dest, (fst (orun plain ["users"; "orders"] true false old_dest)).
  split; [apply old_ok; auto|]. split; [reflexivity|]. split; [vm_compute; reflexivity|]. exists ("s", "photo"). split; [|split; [discriminate|vm_compute; reflexivity]].
  intros (s & n & Hs & Hn & Hg). apply (proj2 (parse_named _ _)) in Hn. apply (proj2 (parse_named _ _)) in Hg.
  destruct Hs as [<-|[<-|[]]]; vm_compute in Hn; injection Hn as <-; vm_compute in Hg; discriminate.
Qed.
(** The hypothesis of C52's theorem is met when all five tables are sampled. *)
Example C52_hypotheses : forall a b, references oschema a b -> target osub [] (dkeys (p_queries (oplan ["users"; "orders"; "profile"; "photo"; "ulog"]))) b ->
  target osub [] (dkeys (p_queries (oplan ["users"; "orders"; "profile"; "photo"; "ulog"]))) a.
Proof.
  intros a b (t & fk & Ht & Hfk & _) _. destruct Ht as [Ht <-]. unfold target.
  assert (X : forall x, In x ["users"; "orders"; "profile"; "photo"; "ulog"] -> exists s n, In s (dkeys (p_queries (oplan ["users"; "orders"; "profile"; "photo"; "ulog"]))) /\ named s n /\ goes_to osub [] n ("s", x)).
  { intros x Hx. exists ("s." ++ x)%string, ("s", x). destruct Hx as [<-|[<-|[<-|[<-|[<-|[]]]]]]; (split; [cbn; auto 9|split; apply parse_named; reflexivity]). }
  destruct Ht as [<-|[<-|[<-|[<-|[<-|[]]]]]]; apply X; cbn; auto 9.
Qed.

(** C53 is false without --create: there is no table for the photos, the run succeeds without them. *)
Theorem C53_all_sampled_refuted : exists E cfg c p w w', run_ok E cfg c p (w_dest w) /\ trace w = [] /\
  sample E cfg p false false tt w = (w', Ok tt) /\
  exists t n, In t (dkeys (p_queries p)) /\ lands (en_resub E) (oc_remap c) t n /\ en_source E n <> [] /\ written (trace w') n = [].
Proof.
  exists (oenv yes none), (ocfg plain), plain, (oplan four), (odest [users; orders; profile] [] []), (fst (orun plain four false false (odest [users; orders; profile] [] []))).
  split; [apply orun_ok; vm_compute; reflexivity|]. split; [reflexivity|]. split; [vm_compute; reflexivity|]. exists "s.photo", ("s", "photo").
  split; [cbn; auto 9|]. split; [exists ("s", "photo"); split; apply parse_named; reflexivity|]. split; [discriminate|vm_compute; reflexivity].
Qed.

(** C54: two tables get one name. *)
Example C54_case : let c := mkDbConfig PostgreSQL [("s.users", "s.orders")] SError false in
  orun c four true true old_dest = (old_dest, Err OxValueError) /\
  lands osub (oc_remap c) "s.users" ("s", "orders") /\ lands osub (oc_remap c) "s.orders" ("s", "orders").
Proof. split; [vm_compute; reflexivity|]. split; [exists ("s", "users")|exists ("s", "orders")]; split; apply parse_named; reflexivity. Qed.

(** C55 is false of 'replace' on MySQL for tables with a further unique key: the row is not written, another row with that name is
    updated instead; and on SQLite for tables that have further columns: they are overwritten in existing rows. *)
Definition users_named : table := mkTable ("s", "users") ["id"; "name"] ["id"] [] [["name"]].
Definition replacing (dl : dialect) : db_config := mkDbConfig dl [] SReplace false.
Theorem C55_conflicts_refuted : exists E cfg c p w w' t n tb key, run_ok E cfg c p (w_dest w) /\ trace w = [] /\
  sample E cfg p false false tt w = (w', Ok tt) /\ In t (dkeys (p_queries p)) /\ lands (en_resub E) (oc_remap c) t n /\ table_of (ds_tables (w_dest w')) n tb /\
  keys_unique tb (rows_of (w_dest w) n) /\ proper key /\
  ~ resolved tb (strategy_of c p t) (keyed tb key (rows_of (w_dest w) n)) (keyed tb key (written (trace w') n)) (keyed tb key (rows_of (w_dest w') n)).
Proof.
  set (w := odest [users_named] [(("s", "users"), [user 5 "a"])] []).
  exists (oenv yes none), (ocfg (replacing MySQL)), (replacing MySQL), (oplan ["users"]), w, (fst (orun (replacing MySQL) ["users"] false false w)), "s.users", ("s", "users"), users_named, [VInt 1].
  split; [apply orun_ok; vm_compute; reflexivity|]. split; [reflexivity|]. split; [vm_compute; reflexivity|]. split; [left; reflexivity|].
  split; [exists ("s", "users"); split; apply parse_named; reflexivity|]. split; [vm_compute; auto|]. split.
  - intros key _. cbn. destruct (eqb _ key); cbn; lia.
  - split; [intros [E|[]]; discriminate|]. vm_compute. intros (r0 & r & H & _). discriminate.
Qed.
Definition users_aged : table := mkTable ("s", "users") ["id"; "name"; "age"] ["id"] [] [].
Theorem C55_sqlite_refuted : exists E cfg c p w w' t n tb key, run_ok E cfg c p (w_dest w) /\ trace w = [] /\
  sample E cfg p false false tt w = (w', Ok tt) /\ In t (dkeys (p_queries p)) /\ lands (en_resub E) (oc_remap c) t n /\ table_of (ds_tables (w_dest w')) n tb /\
  tb_uniques tb = [] /\ keys_unique tb (rows_of (w_dest w) n) /\ proper key /\
  ~ resolved tb (strategy_of c p t) (keyed tb key (rows_of (w_dest w) n)) (keyed tb key (written (trace w') n)) (keyed tb key (rows_of (w_dest w') n)).
Proof.
  set (w := odest [users_aged] [(("s", "users"), [user 2 "z" ++ [("age", VInt 30)]])] []).
  exists (oenv yes none), (ocfg (replacing SQLite)), (replacing SQLite), (oplan ["users"]), w, (fst (orun (replacing SQLite) ["users"] false false w)), "s.users", ("s", "users"), users_aged, [VInt 2].
  split; [apply orun_ok; vm_compute; reflexivity|]. split; [reflexivity|]. split; [vm_compute; reflexivity|]. split; [left; reflexivity|].
  split; [exists ("s", "users"); split; apply parse_named; reflexivity|]. split; [vm_compute; auto|]. split; [reflexivity|]. split.
  - intros key _. cbn. destruct (eqb _ key); cbn; lia.
  - split; [intros [E|[]]; discriminate|]. intros H.
    assert (X : exists r, keyed users_aged [VInt 2] (rows_of (w_dest (fst (orun (replacing SQLite) ["users"] false false w))) ("s", "users")) = [r] /\
                overwritten users_aged (user 2 "b") (user 2 "z" ++ [("age", VInt 30)]) r) by exact H.
    clear H. destruct X as (r & Hr & _ & Hk). vm_compute in Hr. injection Hr as <-. specialize (Hk "age"). vm_compute in Hk.
    assert (Y : VNull = VInt 30); [|discriminate]. apply Hk. left. intros [E|[E|[]]]; discriminate.
Qed.
(** The hypotheses of C55's theorem: 'replace' on PostgreSQL, an existing and a new key. *)
Example C55_case : let w := odest oschema [(("s", "users"), [user 2 "z"; user 3 "z"])] [] in
  run_ok (oenv yes none) (ocfg (replacing PostgreSQL)) (replacing PostgreSQL) (oplan ["users"]) (w_dest w) /\
  keys_unique users (rows_of (w_dest w) ("s", "users")) /\
  rows_of (w_dest (fst (orun (replacing PostgreSQL) ["users"] false false w))) ("s", "users") = [user 2 "b"; user 3 "z"; user 1 "a"].
Proof.
  split; [apply orun_ok; vm_compute; reflexivity|]. split; [|vm_compute; reflexivity].
  intros key _. cbn. destruct (eqb [VInt 2] key) eqn:E1; destruct (eqb [VInt 3] key) eqn:E2; cbn; try lia.
  apply (proj1 (eqb_true _ _)) in E1. apply (proj1 (eqb_true _ _)) in E2. congruence.
Qed.

(** C56 is false: omitting the generated primary key raises KeyError.  Other columns can be omitted. *)
Definition without (t : string) (cs : list string) (c : db_config) : sampler_config :=
  mkSampler (ToDatabase c) [(t, [FcSimple (SfOmit cs)])] (mkMult 1 [] [] []) InferNone (mkCompact false false 1 []).
Lemma without_ok t cs c ts w : distinctb (oenv yes none) (without t cs c) (oplan ts) = true -> db_okb (ds_tables (w_dest w)) = true ->
  run_ok (oenv yes none) (without t cs c) c (oplan ts) (w_dest w).
Proof.
  intros H Hd. constructor; [reflexivity|apply db_okb_true; vm_compute; reflexivity|apply db_okb_true; exact Hd|intros l; apply Permutation_refl|apply osub_plain|apply distinctb_true; exact H].
Qed.
Theorem C56_omit_key_refuted : exists E cfg c p w, run_ok E cfg c p (w_dest w) /\ trace w = [] /\
  (exists n k tb, table_of (ds_tables (w_dest w)) n tb /\ en_autoinc E n = Some k /\ tb_pk tb = [k] /\ sc_filters cfg = [(render n, [FcSimple (SfOmit [k])])]) /\
  sample E cfg p false false tt w = (w, Err OxKeyError).
Proof.
  exists (oenv yes none), (without "s.users" ["id"] plain), plain, (oplan ["users"]), (odest oschema [] []).
  split; [apply without_ok; vm_compute; reflexivity|]. split; [reflexivity|]. split; [|vm_compute; reflexivity].
  exists ("s", "users"), "id", users. split; [vm_compute; auto|]. split; [reflexivity|]. split; reflexivity.
Qed.
Example C56_omit_other : let '(w', r) := sample (oenv yes none) (without "s.users" ["name"] plain) (oplan ["users"]) false false tt (odest oschema [] []) in
  r = Ok tt /\ rows_of (w_dest w') ("s", "users") = [ [("id", VInt 1); ("name", VNull)]; [("id", VInt 2); ("name", VNull)] ].
Proof. vm_compute. split; reflexivity. Qed.

(** C57: two copies of each order, with the user's name left out. *)
Example C57_case : let cfg := mkSampler (ToDirectory "out") [("s.users", [FcSimple (SfOmit ["name"])])] (mkMult 2 [] [] []) InferNone (mkCompact false false 1 []) in
  let '(w', r) := sample (oenv yes none) cfg (oplan ["orders"; "users"]) false false tt (odest [] [] []) in
  r = Ok tt /\ file_of (w_dest w') "out/s.users.json" = [ [("id", VInt 2)]; [("id", VInt 3)]; [("id", VInt 4)]; [("id", VInt 5)] ].
Proof. vm_compute. split; reflexivity. Qed.

(** C59 is false: the sequence of users, at 50, is set back to the largest key written, 2 (nobody used it in this session). *)
Theorem C59_sequence_forward_refuted : exists E cfg c p w w' n s0 s, run_ok E cfg c p (w_dest w) /\ trace w = [] /\ oc_dialect c = PostgreSQL /\
  sample E cfg p true false tt w = (w', Ok tt) /\ dget (ds_seq (w_dest w)) n = Some s0 /\ dget (ds_seq (w_dest w')) n = Some s /\ (s < s0)%Z.
Proof.
  exists (oenv yes none), (ocfg plain), plain, (oplan ["users"; "orders"]), old_dest, (fst (orun plain ["users"; "orders"] true false old_dest)), ("s", "users"), 50%Z, 2%Z.
  split; [apply old_ok; auto|]. split; [reflexivity|]. split; [reflexivity|]. split; [vm_compute; reflexivity|]. split; [reflexivity|]. split; [vm_compute; reflexivity|lia].
Qed.
(** C58 is false of the table Users: the statement means the table users, whose sequence is set instead. *)
Definition capital : db_config := mkDbConfig PostgreSQL [("s.users", "s.Users")] SError false.
Definition Users : table := mkTable ("s", "Users") ["id"; "name"] ["id"] [] [].
Definition capital_dest : world := odest [users; Users] [(("s", "users"), [user 70 "x"])] [(("s", "users"), 70%Z); (("s", "Users"), 0%Z)].
Theorem C58_sequence_past_refuted : exists E cfg c p w w' t n k s0 s row z, run_ok E cfg c p (w_dest w) /\ trace w = [] /\ oc_dialect c = PostgreSQL /\
  sample E cfg p true false tt w = (w', Ok tt) /\ In t (dkeys (p_queries p)) /\ lands (en_resub E) (oc_remap c) t n /\ en_autoinc E n = Some k /\ en_currval E n = None /\
  dget (ds_seq (w_dest w)) n = Some s0 /\ dget (ds_seq (w_dest w')) n = Some s /\ In row (written (trace w') n) /\ rget row k = VInt z /\ (s < z)%Z.
Proof.
  exists (oenv yes none), (ocfg capital), capital, (oplan ["users"]), capital_dest, (fst (orun capital ["users"] true false capital_dest)), "s.users", ("s", "Users"), "id", 0%Z, 0%Z, (user 2 "b"), 2%Z.
  split; [apply orun_ok; vm_compute; reflexivity|]. split; [reflexivity|]. split; [reflexivity|]. split; [vm_compute; reflexivity|]. split; [left; reflexivity|].
  split; [exists ("s", "users"); split; [apply parse_named; reflexivity|apply parse_named; vm_compute; reflexivity]|].
  split; [reflexivity|]. split; [reflexivity|]. split; [reflexivity|]. split; [vm_compute; reflexivity|]. split; [vm_compute; auto|]. split; [reflexivity|lia].
Qed.
(** The sequence of users is behind its row 70 afterwards.  Without the table users the run fails after the rows have been written. *)
Example C58_other : dget (ds_seq (w_dest (fst (orun capital ["users"] true false capital_dest)))) ("s", "users") = Some 2%Z /\
  let '(w', r) := orun capital ["users"] true false (odest [Users] [] [(("s", "Users"), 0%Z)]) in
  r = Err OxDbError /\ rows_of (w_dest w') ("s", "Users") = [user 1 "a"; user 2 "b"].
Proof. vm_compute. repeat split. Qed.
(** The hypotheses of C58: the same run; of C59: merging, the written keys are beyond a sequence at 8. *)
Example C58_C59_hypotheses :
  (forall t m, In t (dkeys (p_queries (oplan ["users"; "orders"]))) -> lands osub [] t m -> plain_name m) /\
  written_ints (fst (orun plain ["users"; "orders"] true false old_dest)) ("s", "users") "id" /\
  let w := odest oschema old_rows [(("s", "users"), 8%Z)] in
  let w' := fst (orun merging ["users"; "orders"] false false w) in
  largest (written (trace w') ("s", "users")) "id" 10 /\ dget (ds_seq (w_dest w')) ("s", "users") = Some 10%Z.
Proof.
  split; [|split; [|split; [|vm_compute; reflexivity]]].
  - intros t m Ht (n & Hn & Hm). assert (En : n = ("s", "users") \/ n = ("s", "orders")).
    { destruct Ht as [<-|[<-|[]]]; [left|right]; (eapply named_fun; [exact Hn|apply parse_named; reflexivity]). }
    assert (Em : m = n). { destruct En as [-> | ->]; (eapply named_fun; [exact Hm|apply parse_named; vm_compute; reflexivity]). } rewrite Em.
    destruct En as [-> | ->]; vm_compute; repeat split; try discriminate; intros [A B]; try (now apply A); now apply B.
  - intros row Hrow. vm_compute in Hrow. destruct Hrow as [<-|[<-|[]]]; [exists 1%Z|exists 2%Z]; reflexivity.
  - split; [exists (user 10 "b"); split; [vm_compute; auto|reflexivity]|]. intros r y Hr. vm_compute in Hr. destruct Hr as [<-|[<-|[]]]; intros E; injection E as <-; lia.
Qed.

(** C60: an unknown column in a filter; a table that refers to itself at the destination: the missing tables are created, nothing else. *)
Example C60_case :
  sample (oenv yes none) (mkSampler (ToDatabase plain) [("s.users", [FcSimple (SfNull ["nosuch"])])] (mkMult 1 [] [] []) InferNone (mkCompact false false 1 []))
    (oplan four) true true tt old_dest = (old_dest, Err (OxFilter FxValueError)) /\
  let '(w', r) := orun plain ["users"; "orders"] true true (odest [mkTable ("s", "users") ["id"; "name"] ["id"] [mkFK ["id"] ("s", "users") ["id"]] []] old_rows []) in
  trace w' = [EvCreate [orders]] /\ r = Err OxValueError.
Proof. vm_compute. repeat split. Qed.

Print Assumptions C44_merge_fresh.
Print Assumptions C45_references_shifted_partial.
Print Assumptions C45_others_unshifted.
Print Assumptions C46_merge_formula_partial.
Print Assumptions C47_merge_outside.
Print Assumptions C47_create_outside.
Print Assumptions C48_rows_written.
Print Assumptions C49_crash_prefix.
Print Assumptions C50_parents_first.
Print Assumptions C51_truncation.
Print Assumptions C51_others_untouched.
Print Assumptions C52_only_sampled_partial.
Print Assumptions C53_all_sampled_partial.
Print Assumptions C54_remap_collision.
Print Assumptions C55_conflicts_partial.
Print Assumptions C56_keys_given.
Print Assumptions C57_directory.
Print Assumptions C57_directory_failure.
Print Assumptions C58_sequence_past_partial.
Print Assumptions C58_sequence_past_refuted.
Print Assumptions C59_sequence_forward_partial.
Print Assumptions C59_sequence_kept.
Print Assumptions C60_validation_first.
Print Assumptions C60_nothing_destroyed.
Print Assumptions C47_prepare_partial.
Print Assumptions C54_remap.
Print Assumptions C45_references_shifted_refuted.
Print Assumptions C46_merge_formula_refuted.
Print Assumptions C47_outside_refuted.
Print Assumptions C47_create_refuted.
Print Assumptions C52_only_sampled_refuted.
Print Assumptions C53_all_sampled_refuted.
Print Assumptions C55_conflicts_refuted.
Print Assumptions C55_sqlite_refuted.
Print Assumptions C56_omit_key_refuted.
Print Assumptions C59_sequence_forward_refuted.
