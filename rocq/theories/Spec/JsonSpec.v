(** What a reader of JSON (RFC 8259) finds in a text.  [reads s j r]: the text [s] begins with the value [j], followed by [r]. *)
From Coq Require Import DecimalString.
From Verif Require Import Model.Base Model.Value.
Open Scope string_scope.
Open Scope list_scope.
Open Scope nat_scope.

Inductive json := JNull | JBool (b : bool) | JNum (t : string) | JStr (s : string) | JArr (l : list json) | JObj (l : list (string * json)).

Definition code (c : ascii) : nat := nat_of_ascii c.
Definition is_blank (c : ascii) : bool := (code c =? 32) || (code c =? 9) || (code c =? 10) || (code c =? 13).
(** Without the blanks at the beginning. *)
Fixpoint skip (s : string) : string := match s with String c s' => if is_blank c then skip s' else s | "" => "" end.
Definition is_digit (c : ascii) : bool := (48 <=? code c) && (code c <=? 57).
(** Digits, plus, minus, point, e, E. *)
Definition in_number (c : ascii) : bool := is_digit c || existsb (Nat.eqb (code c)) [43; 45; 46; 101; 69].
Fixpoint all_chars (p : ascii -> bool) (s : string) : Prop := match s with "" => True | String c s => p c = true /\ all_chars p s end.
Definition begins (p : ascii -> bool) (s : string) : Prop := match s with "" => False | String c _ => p c = true end.
(** Numbers are kept as they are written; all that matters here is where they end. *)
Definition number (t : string) : Prop := begins (fun c => is_digit c || (code c =? 45)) t /\ all_chars in_number t.

(** The character a backslash and this character stand for. *)
Definition short (e : ascii) : option ascii :=
  match code e with
  | 34 => Some "034"%char | 92 => Some "\"%char | 47 => Some "/"%char
  | 98 => Some "008"%char | 102 => Some "012"%char | 110 => Some "010"%char | 114 => Some "013"%char | 116 => Some "009"%char
  | _ => None
  end.
Definition digit (c : ascii) : option nat :=
  let n := code c in
  if (48 <=? n) && (n <=? 57) then Some (n - 48) else if (97 <=? n) && (n <=? 102) then Some (n - 87) else if (65 <=? n) && (n <=? 70) then Some (n - 55) else None.

(** [chars s t r]: after the opening quote, [s] is the string [t], its closing quote, and [r]. *)
Inductive chars : string -> string -> string -> Prop :=
| chars_end r : chars (String "034"%char r) "" r
| chars_plain c s t r : code c <> 34 -> code c <> 92 -> 32 <= code c -> chars s t r -> chars (String c s) (String c t) r
| chars_short e c s t r : short e = Some c -> chars s t r -> chars (String "\"%char (String e s)) (String c t) r
| chars_hex a b x y s t r : digit a = Some x -> digit b = Some y -> chars s t r ->
    chars ("\u00" ++ String a (String b s))%string (String (ascii_of_nat (16 * x + y)) t) r.

Inductive reads : string -> json -> string -> Prop :=
| reads_null r : reads ("null" ++ r) JNull r
| reads_true r : reads ("true" ++ r) (JBool true) r
| reads_false r : reads ("false" ++ r) (JBool false) r
| reads_num t r : number t -> ~ begins in_number r -> reads (t ++ r) (JNum t) r
| reads_str s t r : chars s t r -> reads (String "034"%char s) (JStr t) r
| reads_arr0 s r : skip s = String "]"%char r -> reads (String "["%char s) (JArr []) r
| reads_arr s l r : elements s l r -> reads (String "["%char s) (JArr l) r
| reads_obj0 s r : skip s = String "}"%char r -> reads (String "{"%char s) (JObj []) r
| reads_obj s l r : members s l r -> reads (String "{"%char s) (JObj l) r
with elements : string -> list json -> string -> Prop :=
| elements_last s j s1 r : reads (skip s) j s1 -> skip s1 = String "]"%char r -> elements s [j] r
| elements_more s j s1 s2 l r : reads (skip s) j s1 -> skip s1 = String ","%char s2 -> elements s2 l r -> elements s (j :: l) r
with members : string -> list (string * json) -> string -> Prop :=
| members_last s s1 k s2 s3 j s4 r : skip s = String "034"%char s1 -> chars s1 k s2 -> skip s2 = String ":"%char s3 ->
    reads (skip s3) j s4 -> skip s4 = String "}"%char r -> members s [(k, j)] r
| members_more s s1 k s2 s3 j s4 s5 l r : skip s = String "034"%char s1 -> chars s1 k s2 -> skip s2 = String ":"%char s3 ->
    reads (skip s3) j s4 -> skip s4 = String ","%char s5 -> members s5 l r -> members s ((k, j) :: l) r.

(** The document [s]. *)
Definition document (s : string) (j : json) : Prop := reads (skip s) j "".
Fixpoint one_line (s : string) : Prop := match s with "" => True | String c s => code c <> 10 /\ code c <> 13 /\ one_line s end.

(** What a cell is in JSON: integers in decimal; floats as [repr] writes them; values JSON does not have as strings. *)
Section Cell.
Variable repr : Q -> string.
Variable str : value -> string.
Definition cell (v : value) (j : json) : Prop :=
  match v with
  | VNull => j = JNull
  | VBool b => j = JBool b
  | VInt z => exists t d, j = JNum t /\ NilZero.int_of_string t = Some d /\ Z.of_int d = z
  | VFloat q => j = JNum (repr q)
  | VStr s => j = JStr s
  | VDate _ _ | VOther _ => j = JStr (str v)
  end.
(** [float.__repr__] writes numbers that are not integers and that differ for different floats. *)
Definition writes_floats : Prop :=
  (forall q, number (repr q) /\ NilZero.int_of_string (repr q) = None) /\ forall q q', repr q = repr q' -> (q == q')%Q.
(** The columns of a row in order, and what is in them. *)
Definition record (r : row) (j : json) : Prop := exists l, j = JObj l /\ Forall2 (fun kv kj => fst kj = fst kv /\ cell (snd kv) (snd kj)) r l.
(** Values that JSON has. *)
Definition own (v : value) : Prop := match v with VDate _ _ | VOther _ => False | _ => True end.
Definition same_value (v v' : value) : Prop := match v, v' with VFloat q, VFloat q' => (q == q')%Q | _, _ => v = v' end.
End Cell.
