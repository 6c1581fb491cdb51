(** Specification vocabulary for the outputs: what the statements of a run write, how a copy of a row differs from the row. *)
From Verif Require Import Model.Base Model.Value Model.Metadata Model.Filters Model.Dest.
From Verif Require Import Spec.GraphSpec Spec.SchemaSpec.
Open Scope string_scope.
Open Scope list_scope.

(** The batches of rows inserted into table [n] by the statements of a trace; all its rows. *)
Definition batches (tr : list event) (n : tname) : list (list row) :=
  flat_map (fun e => match e with EvInsert n' _ rs => if eq_dec n' n then [rs] else [] | _ => [] end) tr.
Definition written (tr : list event) (n : tname) : list row := concat (batches tr n).

(** The state of the destination after a list of committed statements. *)
Section Replay.
Variable dflt : tname -> string -> list row -> row -> value.
Inductive replay : dest -> list event -> dest -> Prop :=
| replay_nil d : replay d [] d
| replay_cons d e d1 tr d2 : exec dflt d e = Some d1 -> replay d1 tr d2 -> replay d (e :: tr) d2.
End Replay.

(** NULL stays NULL, a number [x] becomes [x * a + b]. *)
Definition times_plus (a b : Z) (v : value) : option value :=
  match v with
  | VNull => Some VNull
  | VInt z => Some (VInt (z * a + b))
  | VBool x => Some (VInt ((if x then 1 else 0) * a + b))
  | VFloat q => Some (VFloat (q * inject_Z a + inject_Z b))
  | _ => None
  end.
(** The value of column [c] in copy [i] of [m]: multiplied if it is one of the columns [mult], then shifted by its offset. *)
Definition copy_value (mult : list string) (offs : dict string Z) (m i : Z) (c : string) (v : value) : option value :=
  match (if in_dec string_dec c mult then times_plus m i v else Some v) with
  | None => None
  | Some v => match dget offs c with Some o => times_plus 1 o v | None => Some v end
  end.
Definition copy_of (cols mult : list string) (offs : dict string Z) (m i : Z) (r out : list value) : Prop :=
  length r = length cols /\
  Forall2 (fun cv v => copy_value mult offs m i (fst cv) (snd cv) = Some v) (combine cols r) out.

(** The values of the columns that are not computed by the destination. *)
Definition kept (computed : string -> bool) (cols : list string) (r : list value) : list value :=
  map snd (filter (fun cv => negb (computed (fst cv))) (combine cols r)).

(** Every row with the numbers 0 .. m-1. *)
Definition each_copy {A} (m : Z) (rows : list A) : list (A * Z) :=
  flat_map (fun r => map (fun i => (r, Z.of_nat i)) (seq 0 (Z.to_nat m))) rows.

(** [outs] are copies of the rows [l], in order, after filtering; [g] is the state of the filters' random generator. *)
Section Copies.
Context {G : Type}.
Variable filt : list value -> G -> res filter_exn (list value * G).
Variable copy : Z -> list value -> list value -> Prop.
Inductive copies : list (list value * Z) -> G -> list (list value) -> G -> Prop :=
| copies_nil g : copies [] g [] g
| copies_cons r i l g f g1 out outs g2 :
    filt r g = Ok (f, g1) -> copy i f out -> copies l g1 outs g2 -> copies ((r, i) :: l) g (out :: outs) g2.
End Copies.

(** [l] is an initial part of [l']. *)
Definition initial_part {A} (l l' : list A) : Prop := exists l2, l' = l ++ l2.

(** The name a table has at the destination: the rules applied in turn to its full name. *)
Fixpoint renamed (sub : string -> string -> string -> string) (rules : list (string * string)) (s : string) : string :=
  match rules with
  | [] => s
  | (pattern, by_) :: rules' => renamed sub rules' (sub pattern by_ s)
  end.
Definition goes_to sub rules (n n' : tname) : Prop := named (renamed sub rules (fst n ++ "." ++ snd n)) n'.

(** The planned table [t] goes to [n']. *)
Definition lands sub rules (t : string) (n' : tname) : Prop := exists n, named t n /\ goes_to sub rules n n'.
(** [n'] is the destination of a planned table. *)
Definition target sub rules (planned : list string) (n' : tname) : Prop :=
  exists s n, In s planned /\ named s n /\ goes_to sub rules n n'.
(** Names of destinations are not patterns for anything but themselves. *)
Definition plain_names (fnm : string -> string -> bool) (P : tname -> Prop) : Prop :=
  forall n s, P n -> (fnm s (fst n ++ "." ++ snd n)%string = true <-> s = (fst n ++ "." ++ snd n)%string).
(** A target existing in [db], or a table that references one, directly or not. *)
Definition affected sub rules (db : list table) (planned : list string) (n : tname) : Prop :=
  exists n', target sub rules planned n' /\ (exists t, table_of db n' t) /\ path0 (fun a b => references db b a) n' n.

(** The table [t] is a copy of [st], its foreign keys leading to the copies of the tables referenced. *)
Definition duplicates sub rules (st t : table) : Prop :=
  goes_to sub rules (tb_name st) (tb_name t) /\ tb_cols t = tb_cols st /\ tb_pk t = tb_pk st /\ tb_uniques t = tb_uniques st /\
  Forall2 (fun fk fk' => fk_cols fk' = fk_cols fk /\ fk_dst_cols fk' = fk_dst_cols fk /\ goes_to sub rules (fk_dst fk) (fk_dst fk'))
    (tb_fks st) (tb_fks t).

(** The statements [tr] insert an initial part of [rows] into [n], in batches of at most [size] rows; if all of them, the sequence
    of [n] may then be set. *)
Definition writes (size : nat) (n : tname) (rows : list row) (tr : list event) : Prop :=
  exists how bs tail, tr = map (EvInsert n how) bs ++ tail /\ initial_part (concat bs) rows /\
    Forall (fun b => b <> [] /\ length b <= size) bs /\ (tail = [] \/ exists z, tail = [EvSetval n z] /\ concat bs = rows).
Definition writes_all (size : nat) (n : tname) (rows : list row) (tr : list event) : Prop :=
  exists how bs tail, tr = map (EvInsert n how) bs ++ tail /\ concat bs = rows /\
    Forall (fun b => b <> [] /\ length b <= size) bs /\ (tail = [] \/ exists z, tail = [EvSetval n z]).
(** One table after the other. *)
Inductive progress (size : nat) : list (tname * list row) -> list event -> Prop :=
| progress_none l : progress size l []
| progress_part n rows l tr : writes size n rows tr -> progress size ((n, rows) :: l) tr
| progress_next n rows l tr tr' : writes_all size n rows tr -> progress size l tr' -> progress size ((n, rows) :: l) (tr ++ tr').
