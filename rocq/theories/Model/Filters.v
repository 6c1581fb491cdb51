(** Model of /repo/subsetter/filters.py. *)
From Verif Require Import Model.Base Model.Value.
Open Scope string_scope.
Open Scope list_scope.

(** ValueError; TypeError; IndexError (a row shorter than the columns); anything a plugin, Faker or the
    random generator raises.  (filters.py:58, 160, 355 and others) *)
Inductive filter_exn := FxValueError | FxTypeError | FxIndexError | FxOther (k : nat).

(** The filter configurations 137-553: op, columns and parameters.  The nineteen Faker classes (392-463)
    differ only in the Faker method, named by [op].  (filters.py:137-553) *)
Inductive simple_filter :=
| SfZero (cols : list string)
| SfOmit (cols : list string)
| SfNull (cols : list string)
| SfConstant (cols : list string) (vals : list value)
| SfRandomInt (cols : list string) (low high : Z)
| SfRandomFloat (cols : list string) (low high : Q)
| SfRandomString (cols : list string) (len : Z) (alphabet : string) (custom : option string)
| SfUuid (cols : list string)
| SfFake (op : string) (cols : list string) (unique : bool)
| SfPlugin (cols : list string) (module clazz : string).

(** filters.py:556-561  MultiplexCondition: [value] is a scalar or a list *)
Inductive mop := MIs | MIsNot | MIn | MNotIn | MEq | MNe | MLt | MGt | MLe | MGe | MMatches.
Inductive mvalue := MvOne (v : value) | MvList (l : list value).
Record mcond := mkCond { mc_op : mop; mc_value : mvalue; mc_apply : simple_filter }.

(** filters.py:643-649  FilterConfig *)
Inductive filter_config :=
| FcSimple (s : simple_filter)
| FcMultiplex (column : string) (conds : list mcond).

(** What a column filter does to the values of its columns ([filter_values] of each class).  (filters.py:137-518) *)
Inductive action :=
| AZero | ANull
| AConstant (vals : list value)
| ARandomInt (low high : Z)
| ARandomFloat (low high : Q)
| ARandomString (len : Z) (alphabet : string)
| AUuid
| AFake (op : string) (unique : bool)
| APlugin (module clazz : string).

(** Constructed filters.  A column filter keeps the columns (39-42); omit has its own output columns.  (filters.py:35-46, 72-92) *)
Inductive sview :=
| SvColumns (cols_in cols_act : list string) (indices : list nat) (a : action)
| SvOmit (cols_in cols_out : list string) (indices : list nat).
(** filters.py:590-632 *)
Inductive view :=
| VwSimple (v : sview)
| VwMultiplex (cols_in : list string) (index : nat) (conds : list (mcond * sview)).

(** filters.py:36-42  columns_in, columns_out *)
Definition sv_in (v : sview) : list string := match v with SvColumns c _ _ _ | SvOmit c _ _ => c end.
Definition sv_out (v : sview) : list string := match v with SvColumns c _ _ _ => c | SvOmit _ c _ => c end.
Definition vw_in (v : view) : list string := match v with VwSimple s => sv_in s | VwMultiplex c _ _ => c end.
Definition vw_out (v : view) : list string := match v with VwSimple s => sv_out s | VwMultiplex c _ _ => c end.

(** [{column: index for index, column in enumerate(columns)}]: later columns overwrite earlier ones.  (filters.py:54) *)
Definition column_index_map (cols : list string) : dict string nat :=
  dict_of (combine cols (seq 0 (length cols))).

(** filters.py:55-58  [cols_seen.setdefault(column, index) != index] for some column *)
Fixpoint has_dup (seen cols : list string) : bool :=
  match cols with
  | [] => false
  | c :: cs => memb c seen || has_dup (c :: seen) cs
  end.

(** filters.py:49-69  _validate_and_index *)
Definition validate_and_index (cols_in cols_act : list string) : res filter_exn (list nat) :=
  if is_nil cols_act then Err FxValueError
  else if has_dup [] cols_act then Err FxValueError
  else mapM (fun c => match dget (column_index_map cols_in) c with
                      | Some i => Ok i
                      | None => Err FxValueError
                      end) cols_act.

(** filters.py:73-79  FilterColumns.__init__ *)
Definition filter_columns (cols_in cols_act : list string) (a : action) : res filter_exn sview :=
  let* idx := validate_and_index cols_in cols_act in
  Ok (SvColumns cols_in cols_act idx a).

(** filters.py:173-182  FilterOmit.__init__; the lookup 182 cannot fail *)
Definition filter_omit (cols_in cols_act : list string) : res filter_exn sview :=
  let cols_out := filter (fun c => negb (memb c (set_of cols_act))) cols_in in
  let* idx := mapM (fun c => match dget (column_index_map cols_in) c with
                             | Some i => Ok i
                             | None => Err (FxOther 0)
                             end) cols_out in
  Ok (SvOmit cols_in cols_out idx).

(** filters.py:267-276  _ALPHABET_MAP *)
Definition digits : string := "0123456789".
Definition lower_letters : string := "abcdefghijklmnopqrstuvwxyz".
Definition upper_letters : string := "ABCDEFGHIJKLMNOPQRSTUVWXYZ".
Definition alphabet_map : dict string string :=
  [ ("alnum", lower_letters ++ upper_letters ++ digits);
    ("hex", digits ++ "abcdef"); ("hex_lower", digits ++ "abcdef"); ("hex_upper", digits ++ "ABCDEF");
    ("digit", digits); ("alpha", lower_letters ++ upper_letters);
    ("alpha_lower", lower_letters); ("alpha_upper", upper_letters) ]%string.

Section Filters.
(** Randomness, Faker and plugins: state [G] and the operations on it. *)
Context {G : Type}.
(** filters.py:29-32, 231 and the lines given beside them *)
Variable randint : Z -> Z -> G -> res filter_exn (Z * G).           (* Random.randint, filters.py:231 *)
Variable uniform : Q -> Q -> G -> Q * G.                            (* Random.uniform, filters.py:263 *)
Variable rand_index : nat -> G -> nat * G.                          (* one draw of Random.choices: an index, filters.py:327 *)
Variable uuid4 : G -> string * G.                                   (* filters.py:371 *)
Variable fake : string -> bool -> G -> res filter_exn (value * G).  (* faker_op(self.faker), filters.py:409-410 *)
Variable load_plugin : string -> string -> bool.                    (* filters.py:484-504 succeeds *)
Variable plugin : string -> string -> list value -> G -> res filter_exn (list value * G).
(** Python comparisons between a value and a configured value.  (filters.py:563-587) *)
Variable py_is : value -> mvalue -> bool.
Variable py_in : value -> mvalue -> res filter_exn bool.
Variable py_eq : value -> mvalue -> bool.
Variable py_lt py_gt py_le py_ge : value -> mvalue -> res filter_exn bool.
Variable py_fnmatch : value -> mvalue -> res filter_exn bool.

(** filters.py:147-160  FilterZero.filter_values for one value; [bool] is an [int] in Python *)
Definition zero_value (v : value) : res filter_exn value :=
  match v with
  | VNull => Ok VNull
  | VStr _ => Ok (VStr "")
  | VBool _ | VInt _ => Ok (VInt 0)
  | VFloat _ => Ok (VFloat (Qmake 0 1))
  | VDate _ tz => Ok (VDate 0 tz)
  | VOther _ => Err FxValueError
  end.

(** [(f() for _ in values)], consumed by [zip].  (filters.py:231-372) *)
Fixpoint draws {A} (f : G -> res filter_exn (A * G)) (n : nat) (g : G) : res filter_exn (list A * G) :=
  match n with
  | O => Ok ([], g)
  | S n' => let* (a, g) := f g in let* (l, g) := draws f n' g in Ok (a :: l, g)
  end.

(** filters.py:327  ["".join(self.rng.choices(self.alphabet, k=self.length))] *)
Fixpoint random_chars (alphabet : string) (k : nat) (g : G) : string * G :=
  match k with
  | O => (EmptyString, g)
  | S k' =>
      let '(i, g) := rand_index (String.length alphabet) g in
      let '(s, g) := random_chars alphabet k' g in
      (match String.get i alphabet with Some c => String c s | None => s end, g)
  end.

(** The [filter_values] methods.  (filters.py:91-92) *)
Definition filter_values (a : action) (vs : list value) (g : G) : res filter_exn (list value * G) :=
  let n := length vs in
  match a with
  | AZero => let* l := mapM zero_value vs in Ok (l, g)                                     (* filters.py:147-160 *)
  | ANull => Ok (repeat VNull n, g)                                                        (* filters.py:199-200 *)
  | AConstant cs => Ok (cs, g)                                                             (* filters.py:357-358 *)
  | ARandomInt lo hi => draws (fun g => let* (z, g) := randint lo hi g in Ok (VInt z, g)) n g   (* filters.py:231-232 *)
  | ARandomFloat lo hi => draws (fun g => let '(q, g) := uniform lo hi g in Ok (VFloat q, g)) n g  (* filters.py:263-264 *)
  | ARandomString len al => draws (fun g => let '(s, g) := random_chars al (Z.to_nat len) g in Ok (VStr s, g)) n g  (* filters.py:326-327 *)
  | AUuid => draws (fun g => let '(s, g) := uuid4 g in Ok (VStr s, g)) n g                 (* filters.py:371-372 *)
  | AFake op u => draws (fake op u) n g                                                    (* filters.py:409-410 *)
  | APlugin m c => plugin m c vs g                                                         (* filters.py:517-518 *)
  end.

(** [l[i] = x] for an index in range.  (filters.py:84-87) *)
Fixpoint list_set {A} (l : list A) (i : nat) (x : A) : list A :=
  match l, i with
  | [], _ => []
  | _ :: l', O => x :: l'
  | y :: l', S i' => y :: list_set l' i' x
  end.

(** [l[i]].  (filters.py:84-87) *)
Definition list_get {A} (l : list A) (i : nat) : res filter_exn A :=
  match nth_error l i with Some x => Ok x | None => Err FxIndexError end.

(** filters.py:81-88  FilterColumns.filter_view; 184-186  FilterOmit.filter_view *)
Definition apply_sview (v : sview) (values : list value) (g : G) : res filter_exn (list value * G) :=
  match v with
  | SvColumns _ _ idx a =>
      let* vs := mapM (list_get values) idx in
      let* (fs, g) := filter_values a vs g in
      Ok (fold_left (fun out iv => list_set out (fst iv) (snd iv)) (combine idx fs) values, g)
  | SvOmit _ _ idx => let* vs := mapM (list_get values) idx in Ok (vs, g)
  end.

(** filters.py:563-587  MultiplexCondition.match *)
Definition cond_match (c : mcond) (v : value) : res filter_exn bool :=
  let w := mc_value c in
  match mc_op c with
  | MIs => Ok (py_is v w)
  | MIsNot => Ok (negb (py_is v w))
  | MIn => py_in v w
  | MNotIn => let* b := py_in v w in Ok (negb b)
  | MEq => Ok (py_eq v w)
  | MNe => Ok (negb (py_eq v w))
  | MLt => py_lt v w
  | MGt => py_gt v w
  | MLe => py_le v w
  | MGe => py_ge v w
  | MMatches => py_fnmatch v w
  end.

(** filters.py:634-640  the loop of FilterMultiplex.filter_view *)
Fixpoint multiplex (conds : list (mcond * sview)) (v : value) (values : list value) (g : G)
  : res filter_exn (list value * G) :=
  match conds with
  | [] => Ok (values, g)
  | (c, f) :: conds' =>
      let* b := cond_match c v in
      if b then apply_sview f values g else multiplex conds' v values g
  end.

(** filters.py:81-88, 184-186, 634-640 *)
Definition apply_view (v : view) (values : list value) (g : G) : res filter_exn (list value * G) :=
  match v with
  | VwSimple s => apply_sview s values g
  | VwMultiplex _ idx conds => let* x := list_get values idx in multiplex conds x values g
  end.

(** filters.py:105-109  FilterViewChain.filter_view *)
Fixpoint apply_chain (vs : list view) (values : list value) (g : G) : res filter_exn (list value * G) :=
  match vs with
  | [] => Ok (values, g)
  | v :: vs' => let* (values, g) := apply_view v values g in apply_chain vs' values g
  end.

(** The [construct_filter] methods of the configuration classes.  (filters.py:142-504) *)
Definition construct_simple (s : simple_filter) (cols_in : list string) : res filter_exn sview :=
  match s with
  | SfZero cs => filter_columns cols_in cs AZero
  | SfOmit cs => filter_omit cols_in cs
  | SfNull cs => filter_columns cols_in cs ANull
  | SfConstant cs vals =>                                                                  (* filters.py:344-355 *)
      let* v := filter_columns cols_in cs (AConstant vals) in
      if Nat.eqb (length vals) (length cs) then Ok v else Err FxValueError
  | SfRandomInt cs lo hi => filter_columns cols_in cs (ARandomInt lo hi)
  | SfRandomFloat cs lo hi => filter_columns cols_in cs (ARandomFloat lo hi)
  | SfRandomString cs len al custom =>                                                     (* filters.py:298-310 *)
      match (match dget alphabet_map al with Some s => Some s | None => custom end) with
      | None | Some EmptyString => Err FxValueError
      | Some alphabet => filter_columns cols_in cs (ARandomString len alphabet)
      end
  | SfUuid cs => filter_columns cols_in cs AUuid
  | SfFake op cs u => filter_columns cols_in cs (AFake op u)
  | SfPlugin cs m c => if load_plugin m c then filter_columns cols_in cs (APlugin m c) else Err FxValueError
  end.

(** [tuple.index].  (filters.py:614) *)
Fixpoint index_of (c : string) (cols : list string) (i : nat) : option nat :=
  match cols with
  | [] => None
  | d :: cols' => if eqb c d then Some i else index_of c cols' (S i)
  end.

(** filters.py:607-632  FilterMultiplex.__init__ and the others *)
Definition construct_view (f : filter_config) (cols_in : list string) : res filter_exn view :=
  match f with
  | FcSimple s => let* v := construct_simple s cols_in in Ok (VwSimple v)
  | FcMultiplex column conds =>
      match index_of column cols_in 0 with
      | None => Err FxValueError
      | Some i =>
          let* vs := mapM (fun c => construct_simple (mc_apply c) cols_in) conds in
          let* _ := mapM (fun v => if eqb (sv_out v) cols_in then Ok tt else Err FxValueError) vs in
          Ok (VwMultiplex cols_in i (combine conds vs))
      end
  end.

(** filters.py:112-126  FilterViewChain.construct_filter: the filters and the final columns *)
Fixpoint construct_chain (fs : list filter_config) (cols : list string)
  : res filter_exn (list view * list string) :=
  match fs with
  | [] => Ok ([], cols)
  | f :: fs' =>
      let* v := construct_view f cols in
      let* (vs, out) := construct_chain fs' (vw_out v) in
      Ok (v :: vs, out)
  end.
End Filters.
