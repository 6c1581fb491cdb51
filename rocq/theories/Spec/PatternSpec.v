(** Shell patterns: "*" stands for any text, "?" for any character, "[...]" for one of some characters, anything else for itself. *)
From Coq Require Import String Ascii List NArith Bool.
Open Scope string_scope.

Definition at_most (a b : ascii) : Prop := (N_of_ascii a <= N_of_ascii b)%N.
(** The character [x] is among those that stand between the brackets, read from the left: "c-e" is a range, any other character stands for itself. *)
Inductive listed (x : ascii) : string -> Prop :=
| listed_range : forall c e r, at_most c x -> at_most x e -> listed x (String c (String "-" (String e r)))
| after_range : forall c e r, listed x r -> listed x (String c (String "-" (String e r)))
| listed_one : forall r, ~ (exists e r', r = String "-" (String e r')) -> listed x (String x r)
| after_one : forall c r, ~ (exists e r', r = String "-" (String e r')) -> listed x r -> listed x (String c r).

Definition no_bracket (s : string) : Prop := forall a b, s <> a ++ "]" ++ b.
(** [s] is [inner], a "]" and [rest]; a "]" that comes first belongs to [inner]. *)
Definition bracketed (s inner rest : string) : Prop :=
  s = inner ++ "]" ++ rest /\ exists c r, inner = String c r /\ no_bracket r.
(** After a "[": the set of characters [P] and what follows it.  The sets that begin with "!" are the complements. *)
Definition set_read (s : string) (P : ascii -> Prop) (rest : string) : Prop :=
  exists inner, (bracketed s inner rest /\ (forall r, s <> String "!" r) /\ (forall x, P x <-> listed x inner)) \/
    (exists s', s = String "!" s' /\ bracketed s' inner rest /\ (forall x, P x <-> ~ listed x inner)).

(** The pattern [p] stands for the text [s]. *)
Inductive stands_for : string -> string -> Prop :=
| sf_end : stands_for "" ""
| sf_star : forall p s t, stands_for p s -> stands_for (String "*" p) (t ++ s)
| sf_any : forall p s x, stands_for p s -> stands_for (String "?" p) (String x s)
| sf_set : forall q p s x (P : ascii -> Prop), set_read q P p -> P x -> stands_for p s -> stands_for (String "[" q) (String x s)
| sf_open : forall p s, (forall P rest, ~ set_read p P rest) -> stands_for p s -> stands_for (String "[" p) (String "[" s)
| sf_char : forall p s c, c <> "*"%char -> c <> "?"%char -> c <> "["%char -> stands_for p s -> stands_for (String c p) (String c s).

(** Characters with a meaning. *)
Definition special (c : ascii) : Prop := c = "*"%char \/ c = "?"%char \/ c = "["%char.
Definition plain (s : string) : Prop := forall a c b, s = a ++ String c b -> ~ special c.
(** No set of the pattern begins with a range that runs backwards, like the one of "[z-a!]". *)
Definition forward (p : string) : Prop := forall a c e b, p = a ++ String "[" (String c (String "-" (String e b))) -> at_most c e.
Definition unbracketed (s : string) : Prop := forall a b, s <> a ++ String "[" b.
