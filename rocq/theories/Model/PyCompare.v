(** Python's operators as /repo/subsetter/filters.py:563-587 applies them to the value of a column and the value of a condition: the
    oracles [fe_is], [fe_in], [fe_eq], [fe_lt], ... of Model/Filters.v, given by definitions.  NaN is left out (Model/Value.v). *)
From Verif Require Import Model.Base Model.Value Model.Filters Model.Fnmatch Model.Output.
Open Scope string_scope.
Open Scope list_scope.

Section Compare.
(** Whether two equal objects, neither of them None, are one object: strings, floats and large integers read from a database are not,
    small integers are.  (filters.py:565-568) *)
Variable same_object : value -> value -> bool.
(** Values of other types (Decimal, bytes, UUID ...) bring their own operators.  (filters.py:569-584) *)
Variable other_eq : value -> value -> bool.
Variable other_cmp : value -> value -> res filter_exn comparison.

(** filters.py:569-584 *)
Definition is_other (v : value) : bool := match v with VOther _ => true | _ => false end.
(** The number that a bool, an int or a float is; True is 1.  (filters.py:573-584) *)
Definition as_number (v : value) : option Q :=
  match v with VInt z => Some (inject_Z z) | VBool b => Some (inject_Z (if b then 1 else 0)) | VFloat q => Some q | _ => None end.
(** [x == y].  (filters.py:574) *)
Definition eq1 (x y : value) : bool :=
  if is_other x || is_other y then other_eq x y
  else match as_number x, as_number y with
       | Some a, Some b => Qeq_bool a b
       | None, None => eqb x y
       | _, _ => false
       end.
(** [x < y] and the like; a datetime is compared with a configured value, which is none.  (filters.py:577-584) *)
Definition cmp1 (x y : value) : res filter_exn comparison :=
  if is_other x || is_other y then other_cmp x y
  else match as_number x, as_number y with
       | Some a, Some b => Ok (Qcompare a b)
       | _, _ => match x, y with VStr a, VStr b => Ok (String.compare a b) | _, _ => Err FxTypeError end
       end.
(** [a in b] for strings.  (filters.py:570) *)
Fixpoint contains (a b : string) : bool :=
  prefix a b || match b with EmptyString => false | String _ b' => contains a b' end.

(** filters.py:566, 568 *)
Definition c_is (x : value) (w : mvalue) : bool :=
  match x, w with
  | _, MvList _ => false
  | VNull, MvOne VNull => true
  | VNull, _ | _, MvOne VNull => false
  | _, MvOne y => same_object x y
  end.
(** filters.py:570, 572 *)
Definition c_in (x : value) (w : mvalue) : res filter_exn bool :=
  match w with
  | MvList l => Ok (existsb (eq1 x) l)
  | MvOne (VStr b) => match x with VStr a => Ok (contains a b) | _ => Err FxTypeError end
  | MvOne _ => Err FxTypeError
  end.
(** filters.py:574, 576 *)
Definition c_eq (x : value) (w : mvalue) : bool := match w with MvOne y => eq1 x y | MvList _ => false end.
(** filters.py:577-584 *)
Definition c_cmp (test : comparison -> bool) (x : value) (w : mvalue) : res filter_exn bool :=
  match w with MvOne y => let* c := cmp1 x y in Ok (test c) | MvList _ => Err FxTypeError end.
(** filters.py:578 *)
Definition c_lt : value -> mvalue -> res filter_exn bool := c_cmp (fun c => match c with Lt => true | _ => false end).
(** filters.py:580 *)
Definition c_gt : value -> mvalue -> res filter_exn bool := c_cmp (fun c => match c with Gt => true | _ => false end).
(** filters.py:582 *)
Definition c_le : value -> mvalue -> res filter_exn bool := c_cmp (fun c => match c with Gt => false | _ => true end).
(** filters.py:584 *)
Definition c_ge : value -> mvalue -> res filter_exn bool := c_cmp (fun c => match c with Lt => false | _ => true end).
(** [os.path.normcase] raises for anything but text; for bytes the pattern, a text, does not fit.  (filters.py:586) *)
Definition c_matches (x : value) (w : mvalue) : res filter_exn bool :=
  match x, w with VStr s, MvOne (VStr p) => Ok (fnmatch s p) | _, _ => Err FxTypeError end.

(** filters.py:563-587, with these operators *)
Definition match_condition : mcond -> value -> res filter_exn bool := cond_match c_is c_in c_eq c_lt c_gt c_le c_ge c_matches.
(** The filters of a run, with these operators.  (filters.py:590-640) *)
Definition python_env {G} (F : filter_env G) : filter_env G :=
  mkFilterEnv (fe_randint F) (fe_uniform F) (fe_index F) (fe_uuid4 F) (fe_fake F) (fe_load_plugin F) (fe_plugin F)
    c_is c_in c_eq c_lt c_gt c_le c_ge c_matches.
End Compare.
