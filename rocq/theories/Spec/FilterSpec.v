(** Vocabulary for the filter properties. *)
From Verif Require Import Model.Base Model.Value Model.Filters.

(** The value a row has in the column named [c]. *)
Definition value_of (cols : list string) (r : list value) (c : string) : option value :=
  dget (combine cols r) c.

(** The columns a filter names ("columns:" in its configuration). *)
Definition named_columns (s : simple_filter) : list string :=
  match s with
  | SfZero cs | SfOmit cs | SfNull cs | SfConstant cs _ | SfRandomInt cs _ _ | SfRandomFloat cs _ _
  | SfRandomString cs _ _ _ | SfUuid cs | SfFake _ cs _ | SfPlugin cs _ _ => cs
  end.

(** The columns a filter may change. *)
Definition may_change (f : filter_config) (c : string) : Prop :=
  match f with
  | FcSimple s => In c (named_columns s)
  | FcMultiplex _ conds => exists k, In k conds /\ In c (named_columns (mc_apply k))
  end.

(** The columns a filter may change or read. *)
Definition mentions (f : filter_config) (c : string) : Prop :=
  may_change f c \/ match f with FcMultiplex col _ => c = col | _ => False end.

(** The filters that hide the columns they name: the built-in overwriting ones, and omit. *)
Definition hides (s : simple_filter) (c : string) : Prop :=
  match s with
  | SfNull cs | SfConstant cs _ | SfRandomInt cs _ _ | SfRandomFloat cs _ _
  | SfRandomString cs _ _ _ | SfUuid cs | SfFake _ cs _ | SfOmit cs => In c cs
  | SfZero _ | SfPlugin _ _ _ => False
  end.

(** Two rows that differ at most in column [c]. *)
Definition differ_only (cols : list string) (r r' : list value) (c : string) : Prop :=
  forall c', c' <> c -> value_of cols r c' = value_of cols r' c'.

(** The characters of a string. *)
Fixpoint chars (s : string) : list ascii :=
  match s with EmptyString => [] | String c s' => c :: chars s' end.

(** The Python type of a value, with the timezone of a datetime. *)
Inductive vtype := TyNone | TyStr | TyInt | TyFloat | TyDate (tz : option string) | TyOther.
Definition type_of (v : value) : vtype :=
  match v with
  | VNull => TyNone | VStr _ => TyStr | VBool _ | VInt _ => TyInt | VFloat _ => TyFloat
  | VDate _ tz => TyDate tz | VOther _ => TyOther
  end.

(** The zero of a type, if it has one. *)
Definition zero_of (t : vtype) : option value :=
  match t with
  | TyNone => Some VNull | TyStr => Some (VStr EmptyString) | TyInt => Some (VInt 0)
  | TyFloat => Some (VFloat (Qmake 0 1)) | TyDate tz => Some (VDate 0 tz) | TyOther => None
  end.

(** The column list of a column filter is bad: empty, repeating, or naming an absent column. *)
Definition bad_columns (cs cols : list string) : Prop :=
  cs = [] \/ ~ NoDup cs \/ exists c, In c cs /\ ~ In c cols.

(** The characters an alphabet setting allows. *)
Definition code_between (a b : nat) (c : ascii) : Prop := a <= nat_of_ascii c <= b.
Definition digit := code_between 48 57.
Definition upper_case := code_between 65 90.
Definition lower_case := code_between 97 122.
Definition in_alphabet (alphabet : string) (custom : option string) (c : ascii) : Prop :=
  if eqb alphabet "alnum"%string then digit c \/ upper_case c \/ lower_case c
  else if eqb alphabet "hex"%string then digit c \/ code_between 97 102 c
  else if eqb alphabet "hex_lower"%string then digit c \/ code_between 97 102 c
  else if eqb alphabet "hex_upper"%string then digit c \/ code_between 65 70 c
  else if eqb alphabet "digit"%string then digit c
  else if eqb alphabet "alpha"%string then upper_case c \/ lower_case c
  else if eqb alphabet "alpha_lower"%string then lower_case c
  else if eqb alphabet "alpha_upper"%string then upper_case c
  else exists s, custom = Some s /\ In c (chars s).
Definition named_alphabets : list string :=
  ["alnum"; "hex"; "hex_lower"; "hex_upper"; "digit"; "alpha"; "alpha_lower"; "alpha_upper"]%string.

(** What else is wrong with a filter: a list of constants of another length, an unnamed alphabet without
    characters, a plugin that does not load. *)
Definition bad_parameters (load : string -> string -> bool) (s : simple_filter) : Prop :=
  match s with
  | SfConstant cs vals => length vals <> length cs
  | SfRandomString _ _ al custom => ~ In al named_alphabets /\ (custom = None \/ custom = Some EmptyString)
  | SfPlugin _ m c => load m c = false
  | _ => False
  end.

(** When a multiplex condition holds of a value, in terms of Python's operators. *)
Definition holds (py_is py_eq : value -> mvalue -> bool)
    (py_in py_lt py_gt py_le py_ge py_fnmatch : value -> mvalue -> res filter_exn bool)
    (k : mcond) (v : value) (b : bool) : Prop :=
  let w := mc_value k in
  match mc_op k with
  | MIs => b = py_is v w | MIsNot => b = negb (py_is v w)
  | MIn => py_in v w = Ok b | MNotIn => py_in v w = Ok (negb b)
  | MEq => b = py_eq v w | MNe => b = negb (py_eq v w)
  | MLt => py_lt v w = Ok b | MGt => py_gt v w = Ok b
  | MLe => py_le v w = Ok b | MGe => py_ge v w = Ok b
  | MMatches => py_fnmatch v w = Ok b
  end.
