(** What "multiplied column" means (docstring of Sampler._get_multiplied_columns and README), stated
    without the sampler's algorithm. *)
From Verif Require Import Model.Base Model.Value Model.Names Model.PlanModel Model.Metadata Model.Multiply.

Section Multiplied.
Variables (ms : meta) (cfg : mult_config) (p : plan).

Definition planned (t : string) : Prop := In t (dkeys (p_queries p)).
(** Passthrough tables and tables listed in ignore_tables are copied once, unchanged. *)
Definition excluded (t : string) : Prop := In t (p_passthrough p) \/ In t (mc_ignore_tables cfg).
(** The reflected source table of a planned name. *)
Definition source_table (t : string) (m : tmeta) : Prop :=
  exists n, parse_table_name t = Some n /\ dget ms n = Some m.

(** The least set of (table, column) containing the configured extra columns and the primary key
    columns, and containing a foreign key column whenever the same-named column of the referenced
    table is in it. *)
Inductive multiplied : string -> string -> Prop :=
| mul_extra t c : planned t -> ~ excluded t -> In c (dget_or (mc_extra cfg) t []) -> multiplied t c
| mul_pk t m c : planned t -> ~ excluded t -> source_table t m ->
    In c (tb_pk (tm_table m)) -> ~ In c (dget_or (mc_ignore_pk cfg) t []) -> multiplied t c
| mul_fk t m fk c : planned t -> ~ excluded t -> source_table t m ->
    In fk (tm_fks m) -> In c (fk_cols fk) -> multiplied (render (fk_dst fk)) c -> multiplied t c.

(** An excluded table has a foreign key column that would have to be multiplied. *)
Definition excluded_needs_multiplying : Prop :=
  exists t m fk c, planned t /\ excluded t /\ source_table t m /\ In fk (tm_fks m) /\
    In c (fk_cols fk) /\ multiplied (render (fk_dst fk)) c.

(** A multiplied column is not integral. *)
Definition multiplied_non_integer (is_int : tname -> string -> bool) : Prop :=
  exists t m c, multiplied t c /\ source_table t m /\ is_int (tm_name m) c = false.

(** Every planned table was reflected, and every multiplied column exists. *)
Definition multiplicity_wf : Prop :=
  (forall t, planned t -> exists m, source_table t m) /\
  (forall t m c, multiplied t c -> source_table t m -> In c (tb_cols (tm_table m))).
End Multiplied.

(** Copy [i] of [m] of a row in which the columns [cols] are multiplied: README, "value * multiplier + i". *)
Definition copy_value (m i : Z) (v : value) : value :=
  match v with VInt x => VInt (x * m + i)%Z | _ => v end.
Definition copy_row (m i : Z) (cols : list string) (r : row) : row :=
  map (fun cv => (fst cv, if memb (fst cv) cols then copy_value m i (snd cv) else snd cv)) r.

(** Row [rc] refers to row [rp] by the foreign key. *)
Definition refers_to (fk : fkey) (rc rp : row) : Prop :=
  forall c d, In (c, d) (combine (fk_cols fk) (fk_dst_cols fk)) -> rget rc c = rget rp d.
