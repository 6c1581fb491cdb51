(** When two plans are the same, and when two plan files say the same. *)
From Coq Require Import Permutation.
From Verif Require Import Model.Base Model.Value Model.PlanModel Model.Config.

(** ** Plans.  Python compares dicts without regard to order: so are the query parameters and the queries of a plan. *)
Definition same_params (p p' : option (dict string lit)) : Prop :=
  match p, p' with Some m, Some m' => Permutation m m' | None, None => True | _, _ => False end.
Inductive same_wc : wc -> wc -> Prop :=
| same_leaf : forall c, same_wc c c
| same_in : forall cols s s' neg, same_stmt s s' -> same_wc (WInStmt cols s neg) (WInStmt cols s' neg)
| same_and : forall l l', Forall2 same_wc l l' -> same_wc (WAnd l) (WAnd l')
| same_or : forall l l', Forall2 same_wc l l' -> same_wc (WOr l) (WOr l')
| same_sql : forall sql p p', same_params p p' -> same_wc (WSQL sql p) (WSQL sql p')
with same_sel : sel -> sel -> Prop :=
| same_no_where : forall cols from lim joins outer, same_sel (Sel cols from None lim joins outer) (Sel cols from None lim joins outer)
| same_where : forall cols from w w' lim joins outer, same_wc w w' -> same_sel (Sel cols from (Some w) lim joins outer) (Sel cols from (Some w') lim joins outer)
with same_stmt : stmt -> stmt -> Prop :=
| same_select : forall s s', same_sel s s' -> same_stmt (SSelect s) (SSelect s')
| same_union : forall l l', Forall2 same_sel l l' -> same_stmt (SUnion l) (SUnion l').
Definition same_query (q q' : table_query) : Prop :=
  q_sql q = q_sql q' /\ same_params (q_params q) (q_params q') /\
  match q_stmt q, q_stmt q' with Some s, Some s' => same_stmt s s' | None, None => True | _, _ => False end.
Definition same_plan (p p' : plan) : Prop :=
  p_passthrough p = p_passthrough p' /\
  exists qs, Permutation (p_queries p) qs /\ Forall2 (fun a b => fst a = fst b /\ same_query (snd a) (snd b)) qs (p_queries p').

(** ** Files: the same up to the order of the keys of mappings. *)
Inductive like : data -> data -> Prop :=
| like_refl : forall d, like d d
| like_list : forall l l', Forall2 like l l' -> like (DList l) (DList l')
| like_map : forall m m1 m', Permutation m m1 -> Forall2 (fun a b => fst a = fst b /\ like (snd a) (snd b)) m1 m' -> like (DMap m) (DMap m').

(** ** Plans without query parameters, as the planner makes them. *)
Inductive plain_wc : wc -> Prop :=
| plain_leaf : forall c, match c with WAnd _ | WOr _ | WInStmt _ _ _ | WSQL _ _ => False | _ => True end -> plain_wc c
| plain_in : forall cols s neg, plain_stmt s -> plain_wc (WInStmt cols s neg)
| plain_and : forall l, Forall plain_wc l -> plain_wc (WAnd l)
| plain_or : forall l, Forall plain_wc l -> plain_wc (WOr l)
| plain_sql : forall sql, plain_wc (WSQL sql None)
with plain_sel : sel -> Prop :=
| plain_no_where : forall cols from lim joins outer, plain_sel (Sel cols from None lim joins outer)
| plain_where : forall cols from w lim joins outer, plain_wc w -> plain_sel (Sel cols from (Some w) lim joins outer)
with plain_stmt : stmt -> Prop :=
| plain_select : forall s, plain_sel s -> plain_stmt (SSelect s)
| plain_union : forall l, Forall plain_sel l -> plain_stmt (SUnion l).
Definition plain_query (q : table_query) : Prop := q_params q = None /\ forall s, q_stmt q = Some s -> plain_stmt s.
