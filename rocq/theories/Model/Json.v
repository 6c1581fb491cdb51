(** Model of the text DirectoryOutput writes: [json.dump(dict(zip(columns_out, out_row)), fdump, default=str)] and a newline for
    every row (/repo/subsetter/sampler.py:377-386), with json's defaults ([ensure_ascii], separators [", "] and [": "]).

    Simplifications: characters are U+0000 to U+00FF; floats are finite; integers have fewer digits than Python's limit. *)
From Coq Require Import DecimalString.
From Verif Require Import Model.Base Model.Value.
Open Scope string_scope.
Open Scope list_scope.
Open Scope nat_scope.

Section Json.
(** [float.__repr__] and, for [default=str] (sampler.py:385), [str] of the values json does not know. *)
Variable repr : Q -> string.
Variable str : value -> string.

Definition quote : ascii := "034"%char.
Definition newline : string := String "010"%char "".
(** Lower case hexadecimal digit.  (sampler.py:385: json's [\\u{0:04x}]) *)
Definition hex (n : nat) : ascii := ascii_of_nat (if n <? 10 then 48 + n else 87 + n).
(** sampler.py:385  json's [ESCAPE_DCT] and [ESCAPE_ASCII] for one character *)
Definition escape (c : ascii) : string :=
  let n := nat_of_ascii c in
  if n =? 34 then "\""" else if n =? 92 then "\\" else if n =? 10 then "\n" else if n =? 13 then "\r" else if n =? 9 then "\t"
  else if n =? 12 then "\f" else if n =? 8 then "\b"
  else if (32 <=? n) && (n <=? 126) then String c ""
  else String "\"%char (String "u"%char (String "0"%char (String "0"%char (String (hex (n / 16)) (String (hex (n mod 16)) ""))))).
Fixpoint escapes (s : string) : string := match s with "" => "" | String c s => (escape c ++ escapes s)%string end.
(** sampler.py:385  a string *)
Definition string_json (s : string) : string := String quote (escapes s ++ String quote "").
(** sampler.py:385  a value *)
Definition value_json (v : value) : string :=
  match v with
  | VNull => "null"
  | VBool b => if b then "true" else "false"
  | VInt z => NilZero.string_of_int (Z.to_int z)
  | VFloat q => repr q
  | VStr s => string_json s
  | VDate _ _ | VOther _ => string_json (str v)
  end.
(** sampler.py:385  the items of the dict *)
Fixpoint items_json (l : row) : string :=
  match l with
  | [] => ""
  | [(k, v)] => string_json k ++ ": " ++ value_json v
  | (k, v) :: l => string_json k ++ ": " ++ value_json v ++ ", " ++ items_json l
  end%string.
Definition line (r : row) : string := ("{" ++ items_json r ++ "}")%string.
(** sampler.py:377-386  the contents of a file *)
Fixpoint text (rows : list row) : string := match rows with [] => "" | r :: rows => line r ++ newline ++ text rows end%string.
End Json.
