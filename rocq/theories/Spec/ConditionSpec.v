(** What the conditions of a multiplex filter say about the value of a column. *)
From Verif Require Import Model.Value Model.Filters Spec.PatternSpec.
From Coq Require Import String Ascii List NArith ZArith QArith.

(** Numbers of any kind; True and False are 1 and 0. *)
Inductive number : value -> Q -> Prop :=
| number_int : forall z, number (VInt z) (inject_Z z)
| number_true : number (VBool true) 1%Q
| number_false : number (VBool false) 0%Q
| number_float : forall q, number (VFloat q) q.
(** The same number, or the same value. *)
Definition equal (x y : value) : Prop := (exists a b, number x a /\ number y b /\ (a == b)%Q) \/ x = y.

(** The order of the dictionary. *)
Definition text_less (s t : string) : Prop :=
  (exists c r, t = (s ++ String c r)%string) \/
  exists u c d r r', s = (u ++ String c r)%string /\ t = (u ++ String d r')%string /\ (N_of_ascii c < N_of_ascii d)%N.
Definition less (x y : value) : Prop :=
  (exists a b, number x a /\ number y b /\ (a < b)%Q) \/ (exists s t, x = VStr s /\ y = VStr t /\ text_less s t).
Definition comparable (x y : value) : Prop :=
  ((exists a, number x a) /\ (exists b, number y b)) \/ ((exists s, x = VStr s) /\ (exists t, y = VStr t)).
Definition part_of (s t : string) : Prop := exists a b, t = (a ++ s ++ b)%string.

(** The question a condition asks makes sense for the value. *)
Definition sensible (op : mop) (x : value) (w : mvalue) : Prop :=
  match op with
  | MIs | MIsNot | MEq | MNe => True
  | MIn | MNotIn => (exists l, w = MvList l) \/ (exists s t, x = VStr s /\ w = MvOne (VStr t))
  | MLt | MGt | MLe | MGe => exists y, w = MvOne y /\ comparable x y
  | MMatches => exists s p, x = VStr s /\ w = MvOne (VStr p)
  end.
(** What it says. *)
Definition among (x : value) (w : mvalue) : Prop :=
  (exists l y, w = MvList l /\ In y l /\ equal x y) \/ (exists s t, x = VStr s /\ w = MvOne (VStr t) /\ part_of s t).
Definition said (op : mop) (x : value) (w : mvalue) : Prop :=
  match op with
  | MIs | MEq => exists y, w = MvOne y /\ equal x y
  | MIsNot | MNe => ~ exists y, w = MvOne y /\ equal x y
  | MIn => among x w
  | MNotIn => ~ among x w
  | MLt => exists y, w = MvOne y /\ less x y
  | MGt => exists y, w = MvOne y /\ less y x
  | MLe => exists y, w = MvOne y /\ ~ less y x
  | MGe => exists y, w = MvOne y /\ ~ less x y
  | MMatches => exists s p, x = VStr s /\ w = MvOne (VStr p) /\ stands_for p s
  end.

(** Values of types that a configuration can also name, and dates. *)
Definition ordinary (v : value) : Prop := forall k, v <> VOther k.
Definition ordinary_values (w : mvalue) : Prop := match w with MvOne y => ordinary y | MvList l => forall y, In y l -> ordinary y end.
(** Conditions that are about NULL, or do not ask for identity; patterns without sets that begin with a backward range. *)
Definition plain_condition (op : mop) (w : mvalue) : Prop :=
  match op with
  | MIs | MIsNot => w = MvOne VNull
  | MMatches => forall p, w = MvOne (VStr p) -> forward p
  | _ => True
  end.

(** A condition that can be answered for any value. *)
Definition total_condition (k : mcond) : Prop :=
  match mc_op k with
  | MIs | MIsNot | MEq | MNe => True
  | MIn | MNotIn => exists l, mc_value k = MvList l
  | _ => False
  end.
(** Filters whose outcome depends neither on code of others (plugins, Faker) nor on an empty range. *)
Definition safe_simple (s : simple_filter) : Prop :=
  match s with
  | SfConstant _ vals => forall v, In v vals -> ordinary v
  | SfRandomInt _ low high => (low <= high)%Z
  | SfFake _ _ _ | SfPlugin _ _ _ => False
  | _ => True
  end.
Definition safe_filter (f : filter_config) : Prop :=
  match f with
  | FcSimple s => safe_simple s
  | FcMultiplex _ conds => forall k, In k conds -> total_condition k /\ safe_simple (mc_apply k)
  end.
Definition zeroes (s : simple_filter) : Prop := exists cs, s = SfZero cs.
(** The filter sets columns to zero, which is only possible for values of the types it knows. *)
Definition may_zero (f : filter_config) : Prop :=
  match f with
  | FcSimple s => zeroes s
  | FcMultiplex _ conds => exists k, In k conds /\ zeroes (mc_apply k)
  end.
