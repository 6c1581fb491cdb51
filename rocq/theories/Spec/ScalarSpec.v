(** The ways to write flags and numbers in a YAML file. *)
From Coq Require Import Ascii Decimal DecimalString.
From Verif Require Import Model.Base Model.Value Model.Config.
Open Scope string_scope.
Open Scope list_scope.

(** [s] is the word [w], which is written in small letters, up to the case of letters. *)
Inductive up_to_case : string -> string -> Prop :=
| case_end : up_to_case "" ""
| case_same c s w : up_to_case s w -> up_to_case (String c s) (String c w)
| case_capital c s w : (97 <= nat_of_ascii c <= 122)%nat -> up_to_case s w -> up_to_case (String (ascii_of_nat (nat_of_ascii c - 32)) s) (String c w).

Definition words (b : bool) : list string := if b then ["true"; "yes"; "on"; "t"; "y"; "1"] else ["false"; "no"; "off"; "f"; "n"; "0"].
Definition one_or_zero (b : bool) : Z := if b then 1%Z else 0%Z.

(** [F d a]: the data [d] is a way to write [a]. *)
Definition spells_flag (d : data) (b : bool) : Prop :=
  d = DBool b \/ d = DInt (one_or_zero b) \/ (exists q, d = DFloat q /\ (q == inject_Z (one_or_zero b))%Q) \/
  exists s w, d = DStr s /\ In w (words b) /\ up_to_case s w.
(** In quotation marks: a sign or none, and decimal digits. *)
Definition spells_number (d : data) (z : Z) : Prop :=
  d = DInt z \/ (exists b, d = DBool b /\ z = one_or_zero b) \/ (exists q, d = DFloat q /\ (q == inject_Z z)%Q) \/
  exists i, d = DStr (NilZero.string_of_int i) /\ i <> Pos Nil /\ i <> Neg Nil /\ z = Z.of_int i.
(** In quotation marks also with digits after a point: the digits as one number, divided by ten for each digit after the point. *)
Definition spells_decimal (d : data) (q : Q) : Prop :=
  d = DFloat q \/ (exists z, d = DInt z /\ q = inject_Z z) \/
  (exists i, d = DStr (NilZero.string_of_int i) /\ i <> Pos Nil /\ i <> Neg Nil /\ q = inject_Z (Z.of_int i)) \/
  exists i u, d = DStr (NilZero.string_of_int i ++ "." ++ NilZero.string_of_uint u) /\ i <> Pos Nil /\ i <> Neg Nil /\ u <> Nil /\
    q = Qred (Z.of_int (app_int i u) # Pos.pow 10 (Pos.of_nat (nb_digits u))).
