(** Shared vocabulary of the models: results with exceptions, Python [dict] and [set].

    No definition here models a specific line of /repo; they model the Python built-ins the
    code uses.  Each is cited where it is used. *)
From Coq Require Export Ascii String Bool Arith ZArith QArith List.
Export ListNotations.
#[global] Close Scope Q_scope.
#[global] Open Scope list_scope.

(** A computation that returns [a] or raises exception [e].  (A function that returns or raises, e.g. solver.py:23-49 raising CycleException) *)
Inductive res (E A : Type) : Type :=
| Ok (a : A)
| Err (e : E).
Arguments Ok {E A} a.
Arguments Err {E A} e.

(** Statements one after another, an exception ending them, as everywhere, e.g. planner.py:65-107. *)
Definition bind {E A B} (m : res E A) (k : A -> res E B) : res E B :=
  match m with Ok a => k a | Err e => Err e end.
Notation "'let*' x := m 'in' k" := (bind m (fun x => k))
  (at level 200, x pattern, m at level 100, k at level 200, right associativity).

(** Run [f] over a list left to right, stopping at the first exception (a Python [for] loop whose
    body updates the accumulator [s]).  (e.g. planner.py:141-203) *)
Fixpoint forM {E S A} (f : S -> A -> res E S) (l : list A) (s : S) : res E S :=
  match l with
  | [] => Ok s
  | a :: l' => let* s' := f s a in forM f l' s'
  end.

(** Collect the results of [f] over a list, stopping at the first exception (list comprehension).  (e.g. planner.py:92-101) *)
Fixpoint mapM {E A B} (f : A -> res E B) (l : list A) : res E (list B) :=
  match l with
  | [] => Ok []
  | a :: l' => let* b := f a in let* bs := mapM f l' in Ok (b :: bs)
  end.

(** Decidable equality, for dict keys and set members. *)
Class EqDec (A : Type) := eq_dec : forall x y : A, {x = y} + {x <> y}.
#[export] Instance EqDec_string : EqDec string := string_dec.
#[export] Instance EqDec_nat : EqDec nat := Nat.eq_dec.
#[export] Instance EqDec_Z : EqDec Z := Z.eq_dec.
#[export] Instance EqDec_bool : EqDec bool := bool_dec.
#[export] Instance EqDec_prod {A B} `{EqDec A} `{EqDec B} : EqDec (A * B).
Proof. intros [a b] [c d]. unfold EqDec in *. decide equality. Defined.
#[export] Instance EqDec_list {A} `{EqDec A} : EqDec (list A).
Proof. intros x y. apply list_eq_dec. exact eq_dec. Defined.
#[export] Instance EqDec_option {A} `{EqDec A} : EqDec (option A).
Proof. intros x y. unfold EqDec in *. decide equality. Defined.

(** [==] on names, tuples and values, e.g. solver.py:60-75. *)
Definition eqb {A} `{EqDec A} (x y : A) : bool := if eq_dec x y then true else false.

(** [x in l] for a list, tuple or set.  (e.g. metadata.py:100-110) *)
Definition memb {A} `{EqDec A} (x : A) (l : list A) : bool := existsb (eqb x) l.

(** Python sets as duplicate-free lists (oldest element first).  ([s.add(x)], e.g. solver.py:60-70) *)
Definition set_add {A} `{EqDec A} (x : A) (s : list A) : list A :=
  if memb x s then s else s ++ [x].
(** [s.remove(x)], e.g. planner.py:205-223. *)
Definition set_remove {A} `{EqDec A} (x : A) (s : list A) : list A :=
  filter (fun y => negb (eqb x y)) s.
(** [s.update(l)], e.g. metadata.py:100-125. *)
Definition set_update {A} `{EqDec A} (s l : list A) : list A :=
  fold_left (fun acc x => set_add x acc) l s.
(** [set(l)]  (e.g. planner.py:239-264) *)
Definition set_of {A} `{EqDec A} (l : list A) : list A := set_update [] l.
(** [s & t]  (e.g. solver.py:125-230) *)
Definition set_inter {A} `{EqDec A} (s t : list A) : list A := filter (fun x => memb x t) s.
(** [s - t]  (e.g. metadata.py:95-131) *)
Definition set_diff {A} `{EqDec A} (s t : list A) : list A := filter (fun x => negb (memb x t)) s.
(** [s | t]  (e.g. solver.py:110-122) *)
Definition set_union {A} `{EqDec A} (s t : list A) : list A := set_update s t.
(** [s <= t]  (e.g. planner.py:314-325) *)
Definition subsetb {A} `{EqDec A} (s t : list A) : bool := forallb (fun x => memb x t) s.

(** Python dicts as association lists in insertion order.  (e.g. metadata.py:58-70) *)
Definition dict (K V : Type) := list (K * V).
(** e.g. metadata.py:213-220. *)
Fixpoint dget {K V} `{EqDec K} (d : dict K V) (k : K) : option V :=
  match d with
  | [] => None
  | (k', v) :: d' => if eq_dec k k' then Some v else dget d' k
  end.
(** [d[k] = v]: overwrite in place, or append.  (e.g. metadata.py:133-136) *)
Fixpoint dset {K V} `{EqDec K} (d : dict K V) (k : K) (v : V) : dict K V :=
  match d with
  | [] => [(k, v)]
  | (k', v') :: d' => if eq_dec k k' then (k', v) :: d' else (k', v') :: dset d' k v
  end.
(** [k in d], e.g. metadata.py:182-192. *)
Definition dmem {K V} `{EqDec K} (d : dict K V) (k : K) : bool :=
  match dget d k with Some _ => true | None => false end.
(** [d.keys()] or [list(d)], e.g. solver.py:23-49. *)
Definition dkeys {K V} (d : dict K V) : list K := map fst d.
(** [d.values()], e.g. metadata.py:182-192. *)
Definition dvals {K V} (d : dict K V) : list V := map snd d.
(** [d.get(k, v)]  (e.g. planner.py:266-312) *)
Definition dget_or {K V} `{EqDec K} (d : dict K V) (k : K) (v : V) : V :=
  match dget d k with Some x => x | None => v end.
(** [d[k]] raising [KeyError]  (e.g. metadata.py:182-192) *)
Definition dfind {E K V} `{EqDec K} (e : E) (d : dict K V) (k : K) : res E V :=
  match dget d k with Some x => Ok x | None => Err e end.
(** dict comprehension / [dict(pairs)]: later pairs overwrite earlier ones.  (e.g. metadata.py:194-208) *)
Definition dict_of {K V} `{EqDec K} (l : list (K * V)) : dict K V :=
  fold_left (fun d kv => dset d (fst kv) (snd kv)) l [].

(** [not l], e.g. plan_model.py:120-145. *)
Definition is_nil {A} (l : list A) : bool := match l with [] => true | _ => false end.
(** [x is not None], e.g. planner.py:266-312. *)
Definition is_some {A} (o : option A) : bool := match o with Some _ => true | None => false end.
