(** Table names: [f"{schema}.{table}"] and common.py parse_table_name. *)
From Verif Require Import Model.Base Model.Value.
Open Scope string_scope.
Open Scope list_scope.

(** [s.split(".", 1)] as (part before the first dot, part after it), if there is a dot.  (common.py:24) *)
Fixpoint split_dot (s : string) : option (string * string) :=
  match s with
  | EmptyString => None
  | String c s' =>
      if Ascii.eqb c "."%char then Some (EmptyString, s')
      else match split_dot s' with Some (a, b) => Some (String c a, b) | None => None end
  end.

(** common.py:23-27  parse_table_name; [None] is the ValueError. *)
Definition parse_table_name (s : string) : option tname := split_dot s.

(** [f"{schema}.{table}"] (metadata.py:193, planner.py:81 ...) *)
Definition render (n : tname) : string := (fst n ++ "." ++ snd n)%string.
