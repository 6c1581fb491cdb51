(** Properties C01-C10: /repo/subsetter/solver.py. *)
From Verif Require Import Model.Base Model.Solver Spec.GraphSpec.
From Verif Require Import Proofs.BaseFacts Proofs.GraphFacts Proofs.SolverTopo Proofs.SolverOrder Proofs.SolverMain Proofs.StrOrder Proofs.SolverExamples.

Open Scope string_scope.
Open Scope list_scope.

(** A graph used for the examples: "" -> a -> b -> d, c -> b, c -> d (c references b and d). *)
Definition ex_graph : dict string (list string) :=
  [("", ["a"]); ("a", ["b"]); ("b", ["d"]); ("c", ["b"; "d"]); ("d", [])].
(** The same with an edge d -> c, closing the cycle c -> d -> c. *)
Definition ex_cyclic : dict string (list string) :=
  [("", ["a"]); ("a", ["b"]); ("b", ["d"]); ("c", ["b"; "d"]); ("d", ["c"])].

Example ex_graph_ok : graph_ok ex_graph.
Proof. exact (@graph_okb_ok string _ ex_graph eq_refl). Qed.
Example ex_cyclic_ok : graph_ok ex_cyclic.
Proof. exact (@graph_okb_ok string _ ex_cyclic eq_refl). Qed.
Example ex_one_sided : one_sided ex_graph "".
Proof. exact (@one_sidedb_ok string _ ex_graph "" eq_refl). Qed.
Example ex_cyclic_one_sided : one_sided ex_cyclic "".
Proof. exact (@one_sidedb_ok string _ ex_cyclic "" eq_refl). Qed.
Example any_order_rev : any_order (@rev string).
Proof. exact (fun l => Permutation_sym (Permutation_rev l)). Qed.

Section Props.
Context {N : Type} `{EqDec N}.

(** C01 *)
Theorem C01_toposort_order : forall (ord : list N -> list N) (G : graph N) q,
  any_order ord -> graph_ok G -> toposort ord G = Ok q ->
  Permutation q (dkeys G) /\ NoDup q /\ (forall u v, edge G u v -> before q v u).
Proof. exact (fun ord G q Ho => toposort_order ord Ho G q). Qed.

(** C02 *)
Theorem C02_toposort_cycle : forall (ord : list N -> list N) (G : graph N),
  any_order ord -> graph_ok G ->
  ((exists q, toposort ord G = Ok q) \/ toposort ord G = Err SValueError) /\
  (toposort ord G = Err SValueError <-> exists x, on_cycle (edge G) x).
Proof. exact (fun ord G Ho Hg => conj (toposort_fails ord Ho G Hg) (toposort_cycle ord Ho G Hg)). Qed.

(** C03 *)
Theorem C03_reverse_graph : forall (ord : list N -> list N) (G : graph N) union,
  any_order ord -> graph_ok G ->
  exists RG, reverse_graph ord G union = Ok RG /\ dkeys RG = dkeys G /\ graph_ok RG /\
    (forall u v, edge RG v u <-> edge G u v \/ (union = true /\ edge G v u)).
Proof. exact (fun ord G union Ho => reverse_ok ord Ho G union). Qed.

Theorem C03_reverse_graph_keyerror : forall (ord : list N -> list N) (G : graph N) union,
  any_order ord -> NoDup (dkeys G) -> (forall u es, In (u, es) G -> NoDup es) ->
  (reverse_graph ord G union = Err SKeyError <-> exists u v, edge G u v /\ ~ node G v).
Proof. exact (fun ord G union Ho => reverse_keyerror ord Ho G union). Qed.

(** C04 *)
Theorem C04_toposort_reachable : forall (ord : list N -> list N) nlt (G : graph N) sources ignore l,
  any_order ord -> graph_ok G ->
  (forall s, In s sources -> node G s) -> (forall s, In s sources -> In s ignore) ->
  toposort_reachable ord nlt G sources ignore = Ok l ->
  NoDup l /\ (forall x, In x l <-> reachable_avoiding G sources ignore x) /\
  (forall x y, In x l -> In y l -> edge G x y -> before l x y).
Proof. exact (fun ord nlt G sources ignore l Ho => reachable_ok ord Ho nlt G sources ignore l). Qed.

(** C05 *)
Theorem C05_toposort_reachable_cycle : forall (ord : list N -> list N) nlt (G : graph N) sources ignore,
  any_order ord -> graph_ok G ->
  (forall s, In s sources -> node G s) -> (forall s, In s sources -> In s ignore) ->
  (forall e, toposort_reachable ord nlt G sources ignore = Err e ->
     exists c, e = CycleExn c /\ is_cycle (edge_avoiding G ignore) c /\
       forall x, In x c -> reachable_avoiding G sources ignore x) /\
  ((exists e, toposort_reachable ord nlt G sources ignore = Err e) <->
   (exists x, reachable_avoiding G sources ignore x /\ on_cycle (edge_avoiding G ignore) x)).
Proof. exact (fun ord nlt G sources ignore Ho => reachable_err ord Ho nlt G sources ignore). Qed.

(** C06 *)
Theorem C06_order_graph_direction : forall (ord : list N -> list N) nlt (G : graph N) s l,
  any_order ord -> graph_ok G -> node G s -> one_sided G s -> order_graph ord nlt G s = Ok l ->
  (exists l', l = s :: l') /\ NoDup l /\ exactly_one_direction G s l.
Proof.
  exact (fun ord nlt G s l Ho Hg Hs H1 E => match order_ok ord Ho nlt G s l Hg Hs H1 E with
    conj a (conj b (conj c _)) => conj a (conj b c) end).
Qed.

(** C07 *)
Theorem C07_order_graph_component : forall (ord : list N -> list N) nlt (G : graph N) s l,
  any_order ord -> graph_ok G -> node G s -> one_sided G s -> order_graph ord nlt G s = Ok l ->
  forall x, In x l <-> weakly_connected G s x.
Proof.
  exact (fun ord nlt G s l Ho Hg Hs H1 E => match order_ok ord Ho nlt G s l Hg Hs H1 E with
    conj _ (conj _ (conj _ d)) => d end).
Qed.

(** C08.  ("lies on a directed cycle": other than a self-loop of the source itself.) *)
Theorem C08_order_graph_cycle : forall (ord : list N -> list N) nlt (G : graph N) s,
  any_order ord -> graph_ok G -> node G s -> one_sided G s ->
  (forall e, order_graph ord nlt G s = Err e ->
     exists c, e = CycleExn c /\ (is_cycle (edge G) c \/ is_cycle (edge G) (rev c)) /\
       forall x, In x c -> x <> s /\ weakly_connected G s x) /\
  ((exists e, order_graph ord nlt G s = Err e) <->
   (exists x, x <> s /\ weakly_connected G s x /\ on_cycle (edge G) x)).
Proof. exact (fun ord nlt G s Ho => order_err ord Ho nlt G s). Qed.

(** C09 *)
Theorem C09_order_graph_deterministic : forall (ord ord' : list N -> list N) nlt (G G' : graph N) s,
  any_order ord -> any_order ord' -> strict_total nlt ->
  graph_ok G -> graph_ok G' -> same_graph G G' -> node G s ->
  same_outcome (order_graph ord nlt G s) (order_graph ord' nlt G' s).
Proof. exact (fun ord ord' nlt G G' s Ho Ho' Hl => @order_graph_det N _ ord ord' Ho Ho' nlt Hl G G' s). Qed.

(** C10, what holds for every source: it terminates, starts with the source, repeats nothing, lists only
    connected nodes, or raises on a real cycle.  Missing: completeness and exactly one direction. *)
Theorem C10_order_graph_any_source_partial : forall (ord : list N -> list N) nlt (G : graph N) s,
  any_order ord -> graph_ok G -> node G s ->
  (exists l, order_graph ord nlt G s = Ok (s :: l) /\ NoDup (s :: l) /\
     (forall x, In x (s :: l) -> weakly_connected G s x))
  \/ (exists c, order_graph ord nlt G s = Err (CycleExn c) /\
       (is_cycle (edge G) c \/ is_cycle (edge G) (rev c)) /\
       forall x, In x c -> x <> s /\ weakly_connected G s x).
Proof. exact (fun ord nlt G s Ho => order_any ord Ho nlt G s). Qed.
End Props.

(** C10 refuted: c -> a -> b ordered from a loses c, although it is weakly connected. *)
Theorem C10_order_graph_component_refuted : exists (G : graph string) (s x : string) l,
  graph_ok G /\ node G s /\ order_graph (fun l => l) String.ltb G s = Ok l /\
  weakly_connected G s x /\ ~ In x l.
Proof. exact c10_component_witness. Qed.
(** C10 refuted: in a <-> b ordered from a, b has both an earlier parent and an earlier child. *)
Theorem C10_order_graph_direction_refuted : exists (G : graph string) (s : string) l,
  graph_ok G /\ node G s /\ order_graph (fun l => l) String.ltb G s = Ok l /\
  ~ exactly_one_direction G s l.
Proof. exact c10_direction_witness. Qed.

Print Assumptions C01_toposort_order.
Print Assumptions C02_toposort_cycle.
Print Assumptions C03_reverse_graph.
Print Assumptions C03_reverse_graph_keyerror.
Print Assumptions C04_toposort_reachable.
Print Assumptions C05_toposort_reachable_cycle.
Print Assumptions C06_order_graph_direction.
Print Assumptions C07_order_graph_component.
Print Assumptions C08_order_graph_cycle.
Print Assumptions C09_order_graph_deterministic.
Print Assumptions C10_order_graph_any_source_partial.
Print Assumptions C10_order_graph_component_refuted.
Print Assumptions C10_order_graph_direction_refuted.

(** Concrete cases meeting the hypotheses. *)
Example C01_example : toposort (@rev string) ex_graph = Ok ["d"; "b"; "c"; "a"; ""].
Proof. reflexivity. Qed.
Example C02_example : toposort (fun l => l) ex_cyclic = Err SValueError.
Proof. reflexivity. Qed.
Example C02_example_cycle : on_cycle (edge ex_cyclic) "c".
Proof. exact (path2 ex_cyclic "c" "d" eq_refl eq_refl). Qed.
Example C03_example :
  reverse_graph (fun l => l) ex_graph false
  = Ok [("", []); ("a", [""]); ("b", ["a"; "c"]); ("c", []); ("d", ["b"; "c"])].
Proof. reflexivity. Qed.
Example C03_example_keyerror : reverse_graph (fun l => l) [("a", ["z"])] false = Err SKeyError.
Proof. reflexivity. Qed.
Example C04_example : toposort_reachable (fun l => l) String.ltb ex_graph [""] [""] = Ok ["a"; "b"; "d"].
Proof. reflexivity. Qed.
Example C05_example :
  toposort_reachable (fun l => l) String.ltb ex_cyclic [""] [""] = Err (CycleExn ["b"; "d"; "c"]).
Proof. reflexivity. Qed.
Example C06_example : order_graph (fun l => l) String.ltb ex_graph "" = Ok [""; "a"; "b"; "d"; "c"].
Proof. reflexivity. Qed.
Example C08_example :
  order_graph (fun l => l) String.ltb ex_cyclic "" = Err (CycleExn ["b"; "d"; "c"]).
Proof. reflexivity. Qed.
Example C09_example :
  order_graph (@rev string) String.ltb ex_graph "" = order_graph (fun l => l) String.ltb ex_graph ""
  /\ strict_total String.ltb.
Proof. exact (conj eq_refl string_ltb_total). Qed.
