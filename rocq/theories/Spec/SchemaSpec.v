(** Specification vocabulary for schemas: names, foreign keys, selection, inference. *)
From Verif Require Import Model.Base Model.Value Model.Metadata Spec.GraphSpec.
Open Scope string_scope.
Open Scope list_scope.

Definition no_dot (s : string) : Prop := forall a b, s <> (a ++ "." ++ b)%string.
(** The string [s] is the full name of table [n] (schema up to the first dot). *)
Definition named (s : string) (n : tname) : Prop :=
  s = (fst n ++ "." ++ snd n)%string /\ no_dot (fst n).

Definition table_of (db : list table) (n : tname) (t : table) : Prop := In t db /\ tb_name t = n.

(** A foreign key relates equally many existing columns, at least one, of two existing tables. *)
Definition fk_wf (db : list table) (t : table) (fk : fkey) : Prop :=
  fk_cols fk <> [] /\ length (fk_cols fk) = length (fk_dst_cols fk) /\ incl (fk_cols fk) (tb_cols t) /\
  exists d, table_of db (fk_dst fk) d /\ incl (fk_dst_cols fk) (tb_cols d).

(** What reflecting a database can return: distinct table names, no dot in schema names, distinct
    columns, keys over existing columns, well-formed foreign keys. *)
Definition db_ok (db : list table) : Prop :=
  NoDup (map tb_name db) /\
  forall t, In t db ->
    no_dot (fst (tb_name t)) /\ NoDup (tb_cols t) /\ incl (tb_pk t) (tb_cols t) /\
    forall fk, In fk (tb_fks t) -> fk_wf db t fk.

(** Table [a] has a foreign key to table [b]. *)
Definition references (db : list table) (a b : tname) : Prop :=
  exists t fk, table_of db a t /\ In fk (tb_fks t) /\ fk_dst fk = b.

(** Table [n] of the database matches one of the patterns. *)
Definition matching (fnm : string -> string -> bool) (db : list table) (patterns : list string) (n : tname) : Prop :=
  exists t s p, table_of db n t /\ named s n /\ In p patterns /\ fnm s p = true.

Definition follow (db : list table) (fwd bwd : bool) (a b : tname) : Prop :=
  (fwd = true /\ references db a b) \/ (bwd = true /\ references db b a).

(** Matching, or reachable from a matching table along (against) foreign keys. *)
Definition selected (fnm : string -> string -> bool) (db : list table) (patterns : list string)
    (fwd bwd : bool) (n : tname) : Prop :=
  exists m, matching fnm db patterns m /\ path0 (follow db fwd bwd) m n.

(** [d] is the one and only table among [ms] (in schema [s], or anywhere if [infer_all]) whose primary
    key is exactly the column [c]. *)
Definition has_pk (infer_all : bool) (ms : meta) (s c : string) (d : tname) : Prop :=
  exists m, In (d, m) ms /\ tb_pk (tm_table m) = [c] /\ (infer_all = true \/ fst d = s).
Definition sole_pk (infer_all : bool) (ms : meta) (s c : string) (d : tname) : Prop :=
  has_pk infer_all ms s c d /\ forall d', has_pk infer_all ms s c d' -> d' = d.

(** The metadata dict: each table once, under its own name. *)
Definition meta_ok (ms : meta) : Prop :=
  NoDup (dkeys ms) /\ forall n m, In (n, m) ms -> tm_name m = n.
