(** Model of /repo/subsetter/solver.py. *)
From Verif Require Import Model.Base.

Section Solver.
Context {N : Type} `{EqDec N}.

(** Iteration order of a Python set: an arbitrary rearrangement (hash seeds vary between runs).  (solver.py:40, 70, 80) *)
Variable ord : list N -> list N.
(** Python's [<] on nodes, used by [sorted] (solver.py:106). *)
Variable nlt : N -> N -> bool.

(** solver.py:4-5  [GraphT = Dict[NodeT, Set[NodeT]]] *)
Definition graph := dict N (list N).

(** Exceptions solver.py can raise: [CycleException] (17-20), [ValueError] (47), [KeyError] from the
    dict and set accesses, [AssertionError] (68).  [SOutOfFuel] is not a Python exception: it marks a
    loop that would not have terminated, and is proved unreachable.  (solver.py:8-20, 68) *)
Inductive solver_exn :=
| CycleExn (cycle : list N)
| SValueError
| SKeyError
| SAssertionError
| SOutOfFuel.

Definition sres := res solver_exn.

(** solver.py:110-122  reverse_graph.  [RG[v].add(u)] (121) raises KeyError if [v] is no node. *)
Definition reverse_graph (G : graph) (union : bool) : sres graph :=
  let RG := map (fun ue => (fst ue, if union then snd ue else [])) G in
  forM (fun RG ue =>
          forM (fun RG v =>
                  let* s := dfind SKeyError RG v in
                  Ok (dset RG v (set_add (fst ue) s)))
               (ord (snd ue)) RG)
       G RG.

(** solver.py:39-44  body of the queue loop for one [u]: the [for v in RG[u]] loop. *)
Fixpoint topo_inner (vs : list N) (deg : dict N Z) (q : list N) : sres (dict N Z * list N) :=
  match vs with
  | [] => Ok (deg, q)
  | v :: vs' =>
      let* d := dfind SKeyError deg v in
      let deg' := dset deg v (d - 1)%Z in
      topo_inner vs' deg' (if (d - 1 =? 0)%Z then q ++ [v] else q)
  end.

(** solver.py:38-44  [for u in q] where [q] grows while it is iterated: position [i] in [q]. *)
Fixpoint topo_loop (fuel i : nat) (RG : graph) (deg : dict N Z) (q : list N) : sres (list N) :=
  match fuel with
  | O => Err SOutOfFuel
  | S f =>
      match nth_error q i with
      | None => Ok q
      | Some u =>
          let* vs := dfind SKeyError RG u in
          let* dq := topo_inner (ord vs) deg q in
          topo_loop f (S i) RG (fst dq) (snd dq)
      end
  end.

(** solver.py:23-49  toposort. *)
Definition toposort (G : graph) : sres (list N) :=
  let q := map fst (filter (fun ue => is_nil (snd ue)) G) in
  let* RG := reverse_graph G false in
  let deg := map (fun ue => (fst ue, Z.of_nat (length (snd ue)))) G in
  let* q := topo_loop (S (length G)) 0 RG deg q in
  if Nat.ltb (length q) (length G) then Err SValueError else Ok q.

(** solver.py:92-97  nodes from the top of the stack down to [v]; [reversed] at the end by [cyc[::-1]].
    The stack is kept top first. *)
Fixpoint cyc_collect (v : N) (stk : list (N * list N)) : list N :=
  match stk with
  | [] => []
  | (w, _) :: stk' => if eq_dec w v then [w] else w :: cyc_collect v stk'
  end.

(** solver.py:78-103  the [while stk] loop of the depth-first search.  Frames are
    (node, remaining iterator); top of stack first. *)
Fixpoint dfs_loop (fuel : nat) (G : graph) (ignore : list N)
    (weight : dict N Z) (on_stk : list N) (stk : list (N * list N)) : sres (dict N Z) :=
  match fuel with
  | O => Err SOutOfFuel
  | S f =>
      match stk with
      | [] => Ok weight
      | (u, []) :: rest =>                                     (* solver.py:82-87 StopIteration *)
          if memb u on_stk then
            let on_stk' := set_remove u on_stk in
            match rest with
            | [] => dfs_loop f G ignore weight on_stk' rest
            | (p, _) :: _ =>
                let* wp := dfind SKeyError weight p in
                let* wu := dfind SKeyError weight u in
                dfs_loop f G ignore (dset weight p (wp + wu)%Z) on_stk' rest
            end
          else Err SKeyError
      | (u, v :: it) :: rest =>
          if memb v ignore then dfs_loop f G ignore weight on_stk ((u, it) :: rest)   (* solver.py:89-90 *)
          else if memb v on_stk then                                                  (* solver.py:91-97 *)
            Err (CycleExn (rev (cyc_collect v stk)))
          else
            match dget weight v with
            | Some wv =>                                                              (* solver.py:98-99 *)
                let* wu := dfind SKeyError weight u in
                dfs_loop f G ignore (dset weight u (wu + wv)%Z) on_stk ((u, it) :: rest)
            | None =>                                                                 (* solver.py:101-103 *)
                let* es := dfind SKeyError G v in
                dfs_loop f G ignore (dset weight v 1%Z) (set_add v on_stk)
                         ((v, ord es) :: (u, it) :: rest)
            end
      end
  end.

(** Bound on the iterations of one [while stk] loop: every node is pushed and popped at most once and
    every edge is looked at at most once.  (solver.py:78-103) *)
Definition dfs_fuel (G : graph) : nat :=
  S (list_sum (map (fun ue => S (length (snd ue))) G)).

(** solver.py:67-103  the loops over [sources] and [G[source_u]]. *)
Definition dfs_root (G : graph) (ignore : list N) (weight : dict N Z) (u : N) : sres (dict N Z) :=
  if memb u ignore || dmem weight u then Ok weight                                     (* solver.py:71-72 *)
  else let* es := dfind SKeyError G u in
       dfs_loop (dfs_fuel G) G ignore (dset weight u 1%Z) [u] [(u, ord es)].
Definition dfs_source (G : graph) (ignore : list N) (weight : dict N Z) (source_u : N)
  : sres (dict N Z) :=
  if memb source_u ignore then                                                         (* solver.py:68 *)
    let* es := dfind SKeyError G source_u in
    forM (dfs_root G ignore) (ord es) weight
  else Err SAssertionError.

(** solver.py:105-107  [sorted(weight.items(), key=lambda x: (x[1], x[0]), reverse=True)]:
    descending by (weight, node). *)
Definition item_gt (a b : N * Z) : bool :=
  (snd b <? snd a)%Z || ((snd a =? snd b)%Z && nlt (fst b) (fst a)).
Fixpoint insert_desc (a : N * Z) (l : list (N * Z)) : list (N * Z) :=
  match l with
  | [] => [a]
  | b :: l' => if item_gt a b then a :: b :: l' else b :: insert_desc a l'
  end.
Definition sort_desc (l : list (N * Z)) : list (N * Z) := fold_right insert_desc [] l.

(** solver.py:52-107  toposort_reachable. *)
Definition toposort_reachable (G : graph) (sources ignore : list N) : sres (list N) :=
  let* weight := forM (dfs_source G ignore) sources [] in
  Ok (map fst (sort_desc weight)).

(** solver.py:162-166  [while H]: visit a layer, then swap [G] and [RG]. *)
Fixpoint order_loop (fuel : nat) (G RG : graph) (vis hd result : list N) : sres (list N) :=
  match fuel with
  | O => Err SOutOfFuel
  | S f =>
      match hd with
      | [] => Ok result
      | _ :: _ =>
          let* hd' := toposort_reachable G hd vis in
          order_loop f RG G (set_update vis hd') hd' (result ++ hd')
      end
  end.

(** solver.py:125-168  order_graph. *)
Definition order_graph (G : graph) (source : N) : sres (list N) :=
  let* RG := reverse_graph G false in
  let* es := dfind SKeyError G source in
  let fuel := S (S (length G)) in
  if is_nil es then order_loop fuel RG G [source] [source] [source]                     (* solver.py:156-157 *)
  else order_loop fuel G RG [source] [source] [source].

End Solver.
Arguments solver_exn N : clear implicits.
Arguments graph N : clear implicits.
