(** Specification vocabulary for graphs: edges, paths, cycles, positions in a list.
    Independent of the algorithms in Model/Solver.v. *)
From Coq Require Export Relations.Relation_Operators Sorting.Permutation.
From Verif Require Import Model.Base.

Section GraphSpec.
Context {N : Type} `{EqDec N}.

(** [u -> v] is an edge of the graph [G] (a dict from node to set of successors). *)
Definition edge (G : dict N (list N)) (u v : N) : Prop := exists es, In (u, es) G /\ In v es.

Definition node (G : dict N (list N)) (u : N) : Prop := In u (dkeys G).

(** A Python dict of sets: keys distinct, members of a set distinct; and every edge ends in a node. *)
Definition graph_ok (G : dict N (list N)) : Prop :=
  NoDup (dkeys G) /\ (forall u es, In (u, es) G -> NoDup es) /\
  (forall u v, edge G u v -> node G v).

(** A non-empty path along [R]. *)
Definition path (R : N -> N -> Prop) : N -> N -> Prop := clos_trans N R.
(** A possibly empty path. *)
Definition path0 (R : N -> N -> Prop) : N -> N -> Prop := clos_refl_trans N R.

Definition on_cycle (R : N -> N -> Prop) (x : N) : Prop := path R x x.

(** [x] occurs at an earlier position than [y] in [l]. *)
Definition before (l : list N) (x y : N) : Prop :=
  exists l1 l2 l3, l = l1 ++ x :: l2 ++ y :: l3.

(** Edges of [G] that do not enter [ignore]. *)
Definition edge_avoiding (G : dict N (list N)) (ignore : list N) (u v : N) : Prop :=
  edge G u v /\ ~ In v ignore.

(** Reachable from one of [sources] by a non-empty path that avoids [ignore] after its start. *)
Definition reachable_avoiding (G : dict N (list N)) (sources ignore : list N) (x : N) : Prop :=
  exists s, In s sources /\ path (edge_avoiding G ignore) s x.

(** Connected when edge directions are forgotten. *)
Definition weak_edge (G : dict N (list N)) (u v : N) : Prop := edge G u v \/ edge G v u.
Definition weakly_connected (G : dict N (list N)) (u v : N) : Prop := path0 (weak_edge G) u v.

(** The list [c] is a directed cycle of [R]: distinct nodes, each with an edge to the next, the last
    with an edge to the first. *)
Fixpoint chain (R : N -> N -> Prop) (x : N) (l : list N) : Prop :=
  match l with
  | [] => True
  | y :: l' => R x y /\ chain R y l'
  end.
Definition is_cycle (R : N -> N -> Prop) (c : list N) : Prop :=
  match c with
  | [] => False
  | x :: l => NoDup c /\ chain R x (l ++ [x])
  end.

(** Same graph up to representation of dicts and sets. *)
Definition same_graph (G G' : dict N (list N)) : Prop :=
  (forall u, node G u <-> node G' u) /\ (forall u v, edge G u v <-> edge G' u v).

(** A strict total order (Python's [<] on str or tuples of str). *)
Definition strict_total (lt : N -> N -> bool) : Prop :=
  (forall x, lt x x = false) /\
  (forall x y z, lt x y = true -> lt y z = true -> lt x z = true) /\
  (forall x y, x <> y -> lt x y = true \/ lt y x = true).

(** Every set may be iterated in any order. *)
Definition any_order (ord : list N -> list N) : Prop := forall l, Permutation (ord l) l.
End GraphSpec.

Section OrderSpec.
Context {N : Type} `{EqDec N}.

(** Some in-neighbour (resp. out-neighbour) of [u] comes before [u] in [l]. *)
Definition has_parent_side (G : dict N (list N)) (l : list N) (u : N) : Prop :=
  exists v, edge G v u /\ before l v u.
Definition has_child_side (G : dict N (list N)) (l : list N) (u : N) : Prop :=
  exists v, edge G u v /\ before l v u.

(** Every node but [s] has an earlier in-neighbour or an earlier out-neighbour, never both. *)
Definition exactly_one_direction (G : dict N (list N)) (s : N) (l : list N) : Prop :=
  forall u, In u l -> u <> s ->
    (has_parent_side G l u /\ ~ has_child_side G l u) \/
    (~ has_parent_side G l u /\ has_child_side G l u).

(** [s] has no incoming edge (but possibly a self-loop), or no outgoing edge. *)
Definition one_sided (G : dict N (list N)) (s : N) : Prop :=
  (forall v, edge G v s -> v = s) \/ (forall v, ~ edge G s v).
End OrderSpec.

(** Two runs succeed with equal results, or both raise. *)
Definition same_outcome {E A} (r r' : res E A) : Prop :=
  match r, r' with
  | Ok l, Ok l' => l = l'
  | Err _, Err _ => True
  | _, _ => False
  end.
