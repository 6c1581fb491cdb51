(** Values stored in database cells and in rows handled by the sampler, and rows themselves. *)
From Verif Require Import Model.Base.

(** A cell value as the Python DB drivers deliver it.  Floats are exact rationals (simplification:
    no rounding, NaN or infinity); [VDate t tz] is a datetime with the given timezone; [VOther k]
    stands for a value of any other type (bytes, Decimal, UUID ...).  (Values as read by sampler.py:1040-1069 and written by sampler.py:603-710) *)
Inductive value :=
| VNull
| VBool (b : bool)
| VInt (z : Z)
| VFloat (q : Q)
| VStr (s : string)
| VDate (t : Z) (tz : option string)
| VOther (k : nat).

#[export] Instance EqDec_Q : EqDec Q.
Proof. intros [a b] [c d]. destruct (Z.eq_dec a c), (Pos.eq_dec b d); (left; congruence) || (right; congruence). Defined.
#[export] Instance EqDec_value : EqDec value.
Proof.
  intros x y. pose proof (@eq_dec bool _). pose proof (@eq_dec Z _). pose proof (@eq_dec Q _).
  pose proof (@eq_dec string _). pose proof (@eq_dec (option string) _). pose proof (@eq_dec nat _).
  decide equality.
Defined.

(** A table name [(schema, table)]; metadata.py keys its tables by such pairs.  (metadata.py:58-70) *)
Definition tname := (string * string)%type.

(** A row: column name to value, in column order.  (As in sampler.py:603-710) *)
Definition row := dict string value.

(** [row[c]]; a missing column reads as NULL (the SQL built from a plan never reads a missing column:
    [table_obj.columns[c]] raises KeyError when it is built).  (plan_model.py:59-118) *)
Definition rget (r : row) (c : string) : value := dget_or r c VNull.

(** common.py:18  [SQLLiteralType = Union[str, int, float]] *)
Inductive lit := LStr (s : string) | LInt (z : Z) | LFloat (q : Q).
Definition lit_value (l : lit) : value :=
  match l with LStr s => VStr s | LInt z => VInt z | LFloat q => VFloat q end.
#[export] Instance EqDec_lit : EqDec lit.
Proof.
  intros x y. pose proof (@eq_dec Z _). pose proof (@eq_dec Q _). pose proof (@eq_dec string _).
  decide equality.
Defined.
