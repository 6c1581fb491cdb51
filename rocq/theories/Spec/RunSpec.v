(** Specification vocabulary for a run of the sampler: the rows a planned table gives rise to. *)
From Verif Require Import Model.Base Model.Value Model.Names Model.PlanModel Model.Metadata Model.Filters Model.Multiply Model.Materialize Model.Dest Model.Output Model.Sampler.
From Verif Require Import Spec.GraphSpec Spec.SchemaSpec Spec.FilterSpec Spec.OutputSpec.
Open Scope list_scope.

Definition succeeded {X A} (r : res X A) : bool := match r with Ok _ => true | Err _ => false end.

Section RunSpec.
Context {G : Type}.
Variable E : env G.
Variable cfg : sampler_config.
Variable p : plan.
(** Computed by the run before copying: source metadata, compacted columns, temporary tables, multiplied columns. *)
Variables (ms : meta) (compact : dict tname (list string)) (st : tstate) (mults : dict string (list string)).

(** What the statement of a planned table returns. *)
Definition result_of (t : string) (co : copied) : Prop :=
  copy_table (en_source E) (en_cmp E) (en_text E) (en_raw E) (en_raw_cols E) (en_rnd E) (en_rank E) (en_reopen E)
    ms compact (cp_start (sc_compact cfg)) st (p_queries p) t = Ok (Some co).
Definition result_rows (co : copied) : list (list value) := map (fun r => map (rget r) (co_cols co)) (co_rows co).
Definition times (t : string) : Z := match dget mults t with None => 1%Z | Some _ => mc_multiplier (sc_multiplicity cfg) end.
Definition mult_cols (t : string) : list string := dget_or mults t [].
(** The filters of a table, dropping in the end the columns [computed] at the destination. *)
Definition filters_of (t : string) : list filter_config := dget_or (sc_filters cfg) t [].
Definition filter_kept (computed : string -> bool) (chain : list view) (cols : list string) (r : list value) (g : G)
  : res filter_exn (list value * G) :=
  let* (f, g) := run_filters (en_filters E) chain r g in Ok (kept computed cols f, g).

(** The planned table [t] goes to [n'] as [rows]: each row of its result, filtered, as many times as it is multiplied, the copies
    numbered, shifted by the offsets [offs]; if not [whole], the first of these.  [g], [g']: states of the random generator. *)
Definition transfer (c : db_config) (offs : dict tname (dict string Z)) (whole : bool) (t : string) (g : G) (n' : tname)
    (rows : list row) (g' : G) : Prop :=
  exists co chain cols l1 l2 outs, result_of t co /\
    construct_chain (fe_load_plugin (en_filters E)) (filters_of t) (co_cols co) = Ok (chain, cols) /\
    goes_to (en_resub E) (oc_remap c) (co_name co) n' /\
    each_copy (times t) (result_rows co) = l1 ++ l2 /\ (whole = true -> l2 = []) /\
    let plain := filter (fun x => negb (en_computed E n' x)) cols in
    copies (filter_kept (en_computed E n') chain cols) (copy_of plain (mult_cols t) (dget_or offs n' []) (times t)) l1 g outs g' /\
    rows = map (fun o => dict_of (combine plain o)) outs.

(** The tables in turn; the last one may be incomplete if not [whole]. *)
Inductive transfers (c : db_config) (offs : dict tname (dict string Z)) : bool -> list string -> G -> list (tname * list row) -> G -> Prop :=
| transfers_end g : transfers c offs true [] g [] g
| transfers_stop ts g : transfers c offs false ts g [] g
| transfers_last t ts g n' rows g' : transfer c offs false t g n' rows g' -> transfers c offs false (t :: ts) g [(n', rows)] g'
| transfers_next whole t ts g n' rows g1 l g2 : transfer c offs true t g n' rows g1 -> transfers c offs whole ts g1 l g2 ->
    transfers c offs whole (t :: ts) g ((n', rows) :: l) g2.

(** The planned table [t] gives rise to the lines [rows]: each row of its result, filtered, as many times as it is multiplied, the
    copies numbered; if not [whole], the first of these. *)
Definition export (whole : bool) (t : string) (g : G) (rows : list row) (g' : G) : Prop :=
  exists co chain cols l1 l2 outs, result_of t co /\
    construct_chain (fe_load_plugin (en_filters E)) (filters_of t) (co_cols co) = Ok (chain, cols) /\
    each_copy (times t) (result_rows co) = l1 ++ l2 /\ (whole = true -> l2 = []) /\
    copies (run_filters (en_filters E) chain) (copy_of cols (mult_cols t) [] (times t)) l1 g outs g' /\
    rows = map (fun o => dict_of (combine cols o)) outs.
Inductive exports : bool -> list string -> G -> list (string * list row) -> G -> Prop :=
| exports_end g : exports true [] g [] g
| exports_stop ts g : exports false ts g [] g
| exports_last t ts g rows g' : export false t g rows g' -> exports false (t :: ts) g [(t, rows)] g'
| exports_next whole t ts g rows g1 l g2 : export true t g rows g1 -> exports whole ts g1 l g2 -> exports whole (t :: ts) g ((t, rows) :: l) g2.
End RunSpec.

(** What a run has computed when it starts copying. *)
Definition computed_by {G} (E : env G) (cfg : sampler_config) (p : plan) (ms : meta) (compact : dict tname (list string)) (st : tstate)
    (mults : dict string (list string)) : Prop :=
  sampler_meta (en_fnm E) (en_source_schema E) (p_queries p) (sc_infer cfg) = Ok ms /\
  get_multiplied_columns (sc_multiplicity cfg) ms (en_src_int E) (en_ord_str E) p = Ok mults /\
  get_compact_columns (sc_compact cfg) (p_passthrough p) ms (en_src_int E) (en_src_autoinc E) = Ok compact /\
  materialize_tables (en_source E) (en_cmp E) (en_text E) (en_raw E) (en_rnd E) (en_rank E) (en_reopen E)
    ms compact (cp_start (sc_compact cfg)) (en_ord_name E) (p_queries p) = Ok st.

(** The statements of the plan return differently named columns. *)
Definition distinct_columns {G} (E : env G) (cfg : sampler_config) (p : plan) : Prop :=
  forall ms compact st mults t co, computed_by E cfg p ms compact st mults -> result_of E cfg p ms compact st t co -> NoDup (co_cols co).

(** The assumptions on a run that copies to the database [c]: the schemas of source and destination [d] are what reflection can
    return, sets are iterated in some order, names of destination tables are not patterns for other tables. *)
Record run_ok {G} (E : env G) (cfg : sampler_config) (c : db_config) (p : plan) (d : dest) : Prop := mkRunOk {
  ro_output : sc_output cfg = ToDatabase c;
  ro_source : db_ok (en_source_schema E);
  ro_dest : db_ok (ds_tables d);
  ro_order : any_order (en_ord_str E);
  ro_plain : plain_names (en_fnm E) (target (en_resub E) (oc_remap c) (dkeys (p_queries p)));
  ro_columns : distinct_columns E cfg p }.
Arguments mkRunOk {G E cfg c p d}.
Arguments ro_output {G E cfg c p d} _. Arguments ro_source {G E cfg c p d} _. Arguments ro_dest {G E cfg c p d} _.
Arguments ro_order {G E cfg c p d} _. Arguments ro_plain {G E cfg c p d} _. Arguments ro_columns {G E cfg c p d} _.

(** The planned tables [ts] are those existing in the schema [db] of the destination, each once, referenced tables first. *)
Definition insertion {G} (E : env G) (c : db_config) (p : plan) (db : list table) (ts : list string) : Prop :=
  let to := lands (en_resub E) (oc_remap c) in
  NoDup ts /\
  (forall t, In t ts <-> In t (dkeys (p_queries p)) /\ exists n' tb, to t n' /\ table_of db n' tb) /\
  (forall a b na nb, In a ts -> In b ts -> to a na -> to b nb -> references db na nb -> before ts b a).
(** [samples] are what the planned tables [ts] give rise to, in this order, shifted by the offsets [offs]; all of it if [whole]. *)
Definition sampling_at {G} (E : env G) (cfg : sampler_config) (c : db_config) (p : plan) (ms : meta) (compact : dict tname (list string)) (st : tstate)
    (mults : dict string (list string)) (offs : dict tname (dict string Z)) (whole : bool) (g : G) (ts : list string)
    (samples : list (tname * list row)) : Prop :=
  computed_by E cfg p ms compact st mults /\ exists g', transfers E cfg p ms compact st mults c offs whole ts g samples g'.
Definition sampling {G} (E : env G) (cfg : sampler_config) (c : db_config) (p : plan) (whole : bool) (g : G) (ts : list string)
    (samples : list (tname * list row)) : Prop :=
  exists ms compact st mults offs, (oc_merge c = false -> offs = []) /\ sampling_at E cfg c p ms compact st mults offs whole g ts samples.

(** [d] is the destination when copying starts: after the last CREATE or DELETE, before the first INSERT. *)
Definition preparing (e : event) : Prop := match e with EvCreate _ | EvDelete _ => True | _ => False end.
Definition copying_starts {G} (E : env G) (w w' : world) (d : dest) : Prop :=
  exists pre post, trace w' = pre ++ post /\ (forall e, In e pre -> preparing e) /\ (forall e, In e post -> ~ preparing e) /\
    replay (en_dflt E) (w_dest w) pre d.

(** Column [k] of the planned table [t], copied to [n'], is part of the result, changed by no filter and not computed. *)
Definition plain_column {G} (E : env G) (cfg : sampler_config) (p : plan) (t : string) (n' : tname) (k : string) : Prop :=
  (forall ms compact st mults co, computed_by E cfg p ms compact st mults -> result_of E cfg p ms compact st t co -> In k (co_cols co)) /\
  (forall f, In f (filters_of cfg t) -> ~ may_change f k) /\ en_computed E n' k = false.

(** [rows] carry in column [k] the values of the result [co] of [t] (the first of them if not [whole]), multiplied if [k] is one
    of the multiplied columns, then shifted by [o]. *)
Definition carries (cfg : sampler_config) (mults : dict string (list string)) (t : string) (co : copied) (k : string) (o : option Z)
    (whole : bool) (rows : list row) : Prop :=
  exists l1 l2, each_copy (times cfg mults t) (co_rows co) = l1 ++ l2 /\ (whole = true -> l2 = []) /\
    Forall2 (fun ri row => copy_value (mult_cols mults t) (match o with Some z => [(k, z)] | None => [] end) (times cfg mults t) (snd ri) k
                             (rget (fst ri) k) = Some (rget row k)) l1 rows.
(** The rows written to [n'] carry in column [k] the values of the planned table [t], shifted by [o]; all of them after success. *)
Definition carried {G} (E : env G) (cfg : sampler_config) (p : plan) (w' : world) (ok : bool) (t : string) (n' : tname) (k : string) (o : option Z) : Prop :=
  (ok = false /\ written (trace w') n' = []) \/
  exists ms compact st mults co rows, computed_by E cfg p ms compact st mults /\ result_of E cfg p ms compact st t co /\
    carries cfg mults t co k o ok rows /\ initial_part (written (trace w') n') rows /\ (ok = true -> written (trace w') n' = rows).

(** [z] is the largest integer in column [k] of the rows. *)
Definition largest (rows : list row) (k : string) (z : Z) : Prop :=
  (exists r, In r rows /\ rget r k = VInt z) /\ forall r y, In r rows -> rget r k = VInt y -> (y <= z)%Z.

(** In the metadata of the run, inferred foreign keys included, [fk] is a foreign key of table [n]. *)
Definition source_fk {G} (E : env G) (cfg : sampler_config) (p : plan) (n : tname) (fk : fkey) : Prop :=
  exists ms m, sampler_meta (en_fnm E) (en_source_schema E) (p_queries p) (sc_infer cfg) = Ok ms /\ dget ms n = Some m /\ In fk (tm_fks m).

(** The shift that makes room for new keys in column [k] of the table [n']: one more than the largest key present, none if there is
    no key. *)
Definition room (d : dest) (n' : tname) (k : string) (o : option Z) : Prop :=
  match o with
  | Some z => largest (rows_of d n') k (z - 1)%Z
  | None => forall r y, In r (rows_of d n') -> rget r k <> VInt y
  end.
(** [k] is the key of the table [n'] of the destination schema [db]: its only primary key column, of integer type. *)
Definition int_key {G} (E : env G) (db : list table) (n' : tname) (k : string) : Prop :=
  exists tb, table_of db n' tb /\ tb_pk tb = [k] /\ en_dst_int E n' k = true.

(** The keys the run reads for [t] in column [k] are pairwise different non-negative integers, told apart in the copies of a row. *)
Definition proper_keys {G} (E : env G) (cfg : sampler_config) (p : plan) (t : string) (k : string) : Prop :=
  forall ms compact st mults co, computed_by E cfg p ms compact st mults -> result_of E cfg p ms compact st t co ->
    (forall r, In r (co_rows co) -> exists z, rget r k = VInt z /\ (0 <= z)%Z) /\ NoDup (map (fun r => rget r k) (co_rows co)) /\
    (times cfg mults t = 1%Z \/ In k (mult_cols mults t)).

(** Names that PostgreSQL reads as they are when they are not quoted: no capital letters (A-Z), white space, quotation marks or dots. *)
Definition plain_letter (c : Ascii.ascii) : Prop :=
  let n := Ascii.N_of_ascii c in ~ (65 <= n <= 90)%N /\ ~ (9 <= n <= 13)%N /\ n <> 32%N /\ n <> 34%N /\ n <> 46%N.
Fixpoint all_letters (P : Ascii.ascii -> Prop) (s : string) : Prop :=
  match s with EmptyString => True | String c s' => P c /\ all_letters P s' end.
Definition plain_name (n : tname) : Prop := all_letters plain_letter (fst n) /\ all_letters plain_letter (snd n).

(** The values the statements set the sequence of [n] to. *)
Definition setvals (tr : list event) (n : tname) : list Z :=
  flat_map (fun e => match e with EvSetval n' z => if eq_dec n' n then [z] else [] | _ => [] end) tr.

(** The strategy documented for a planned table: in merge mode rows of passthrough tables that exist are left alone. *)
Definition strategy_of (c : db_config) (p : plan) (t : string) : strategy :=
  if in_dec string_dec t (p_passthrough p) then if oc_merge c then SSkip else oc_strategy c else oc_strategy c.

(** The file a planned table is written to. *)
Definition json_file (dir t : string) : string := (dir ++ "/" ++ t ++ ".json")%string.
