(** Model of TempTableCreator._generate_name, /repo/subsetter/sampler.py:43-64. *)
From Coq Require Import DecimalString Decimal.
From Verif Require Import Model.Base.
Open Scope string_scope.
Open Scope list_scope.

(** [f"{cnt}"] for a non-negative integer.  (sampler.py:63) *)
Definition dec (n : nat) : string := NilEmpty.string_of_uint (Nat.to_uint n).

(** sampler.py:57  ["".join(ch for ch in name if ch.isalnum())].  Simplification: characters are bytes, not code
    points; [alnum] stands for [str.isalnum] and is a parameter. *)
Fixpoint keep_chars (alnum : ascii -> bool) (s : string) : string :=
  match s with
  | EmptyString => EmptyString
  | String c s' => if alnum c then String c (keep_chars alnum s') else keep_chars alnum s'
  end.

(** sampler.py:51  NAME_PREFIX *)
Definition name_prefix : string := "_sbsttr_".

(** sampler.py:57-59  the friendly part of the name *)
Definition base_name (alnum : ascii -> bool) (name : string) : string :=
  match substring 0 40 (keep_chars alnum name) with
  | EmptyString => "anon"
  | s => s
  end.

(** sampler.py:56-64  _generate_name; the state is [self.name_counts]. *)
Definition generate_name (alnum : ascii -> bool) (name_counts : dict string nat) (name : string)
  : string * dict string nat :=
  let name := base_name alnum name in
  let cnt := dget_or name_counts name 0 in
  let name_counts' := dset name_counts name (cnt + 1) in
  match cnt with
  | O => (name_prefix ++ name, name_counts')
  | _ => (name_prefix ++ name ++ "_" ++ dec cnt, name_counts')
  end%string.

(** The names one creator (53: [name_counts = {}]) hands out for a sequence of requests.  (sampler.py:53-64) *)
Fixpoint generate_names (alnum : ascii -> bool) (name_counts : dict string nat) (requests : list string)
  : list string :=
  match requests with
  | [] => []
  | r :: rs => let '(n, c) := generate_name alnum name_counts r in n :: generate_names alnum c rs
  end.
