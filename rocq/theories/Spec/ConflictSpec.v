(** Specification of the conflict strategies: what happens to the row with a given primary key. *)
From Verif Require Import Model.Base Model.Value Model.Metadata Model.Dest Model.Output.
Open Scope list_scope.

(** The rows whose primary key is [key], in order. *)
Definition keyed (t : table) (key : list value) (l : list row) : list row :=
  filter (fun r => eqb (map (rget r) (tb_pk t)) key) l.
(** A key has a value in each column. *)
Definition proper (key : list value) : Prop := ~ In VNull key.
(** The primary key is one: no key twice. *)
Definition keys_unique (t : table) (l : list row) : Prop := forall key, proper key -> length (keyed t key l) <= 1.

(** [r] is the row of the table made of the given row: the given columns have the given values. *)
Definition made_of (t : table) (given r : row) : Prop :=
  dkeys r = tb_cols t /\ forall c, In c (dkeys given) -> In c (tb_cols t) -> rget r c = rget given c.
(** [r] is [old] with the columns of [given] outside the primary key replaced. *)
Definition overwritten (t : table) (given old r : row) : Prop :=
  (forall c, In c (dkeys given) -> ~ In c (tb_pk t) -> rget r c = rget given c) /\
  (forall c, ~ In c (dkeys given) \/ In c (tb_pk t) -> rget r c = rget old c).

(** The rows with one key before and after rows [given], of that key, were inserted with a strategy. *)
Definition resolved (t : table) (cs : strategy) (before given after : list row) : Prop :=
  match cs, before, given with
  | _, _, [] => after = before
  | SError, [], [g] => exists r, after = [r] /\ made_of t g r
  | SError, _, _ => False
  | SSkip, [], g :: _ => exists r, after = [r] /\ made_of t g r
  | SSkip, _, _ => after = before
  | SReplace, [], g :: gs => exists r0 r, after = [r] /\ made_of t g r0 /\ overwritten t (last gs g) r0 r
  | SReplace, old :: _, g :: gs => exists r, after = [r] /\ overwritten t (last gs g) old r
  end.
