(** What a plan statement means: SQL row semantics with NULLs and three-valued logic, stated
    directly on the plan language (no joins, no GROUP BY).  Independent of [simplify] and [build]. *)
From Coq Require Export Sorting.Permutation.
From Verif Require Import Model.Base Model.Value Model.PlanModel.

(** SQL truth values *)
Inductive tv := T3 | F3 | U3.
Definition tv_of (b : bool) : tv := if b then T3 else F3.
Definition not3 (a : tv) : tv := match a with T3 => F3 | F3 => T3 | U3 => U3 end.
Definition and3 (a b : tv) : tv :=
  match a, b with F3, _ | _, F3 => F3 | T3, T3 => T3 | _, _ => U3 end.
Definition or3 (a b : tv) : tv :=
  match a, b with T3, _ | _, T3 => T3 | F3, F3 => F3 | _, _ => U3 end.
Definition is_true (a : tv) : bool := match a with T3 => true | _ => false end.

Inductive cmpop := CLt | CGt | CEq | CNe | CLike.

(** The state of the database and the meaning of what the model leaves open: [contents] gives the
    rows of each table (source, or sampled so far); [cmp] is the engine's comparison of two
    non-NULL values (any relation: collations, type coercion, LIKE patterns); [text] is the meaning of a
    raw SQL condition for a row. *)
Record sqlenv := mkEnv {
  contents : ident -> list row;
  cmp : cmpop -> value -> value -> bool;
  text : string -> option (dict string lit) -> row -> tv }.

(** The outcome of the random choices of one query: [draw q i r] is the value of random() when
    the condition [random() < q] is evaluated for the [i]-th row [r] of the table; [shuffle] is the effect
    of ORDER BY random(). *)
Record rnd := mkRnd {
  draw : Q -> nat -> row -> Q;
  shuffle : list (nat * row) -> list (nat * row) }.
Definition rnd_ok (z : rnd) : Prop :=
  (forall q i r, Qle 0 (draw z q i r) /\ Qlt (draw z q i r) 1) /\
  (forall l, Permutation (shuffle z l) l).

(** Comparison of possibly NULL values. *)
Definition cmp3 (e : sqlenv) (op : cmpop) (a b : value) : tv :=
  match a, b with
  | VNull, _ | _, VNull => U3
  | _, _ => tv_of (cmp e op a b)
  end.

(** The operators of a plan: [<>] and [!=] are the same; NOT LIKE is the negation of LIKE. *)
Definition op3 (e : sqlenv) (op : sqlop) (a b : value) : tv :=
  match op with
  | OpLt => cmp3 e CLt a b
  | OpGt => cmp3 e CGt a b
  | OpEq => cmp3 e CEq a b
  | OpNe | OpBang => cmp3 e CNe a b
  | OpLike => cmp3 e CLike a b
  | OpNotLike => not3 (cmp3 e CLike a b)
  end.

(** [(a, b, ..) = (x, y, ..)] and [(a, b, ..) IN (..)] *)
Definition tuple_eq3 (e : sqlenv) (xs ys : list value) : tv :=
  fold_right and3 T3 (map (fun xy => cmp3 e CEq (fst xy) (snd xy)) (combine xs ys)).
Definition in3 (e : sqlenv) (xs : list value) (l : list (list value)) : tv :=
  fold_right or3 F3 (map (tuple_eq3 e xs) l).

(** Some row of the table [j_right] matches [r] on the join's columns. *)
Definition join_match (e : sqlenv) (r : row) (j : join) (r' : row) : bool :=
  forallb (fun lr => is_true (cmp3 e CEq (rget r (fst lr)) (rget r' (snd lr))))
          (combine (j_left_cols j) (j_right_cols j)).
Definition join_holds (e : sqlenv) (r : row) (j : join) : bool :=
  existsb (join_match e r j) (contents e (j_right j)).
(** Inner joins: a match in every joined table.  Outer joins: a match in at least one. *)
Definition joins_hold (e : sqlenv) (joins : option (list join)) (outer : bool) (r : row) : bool :=
  match joins with
  | None | Some [] => true
  | Some js => if outer then existsb (join_holds e r) js else forallb (join_holds e r) js
  end.

(** Rows with their position in the table. *)
Definition indexed (l : list row) : list (nat * row) := combine (seq 0 (length l)) l.

Definition project (cols : option (list string)) (r : row) : row :=
  match cols with
  | None | Some [] => r
  | Some cs => map (fun c => (c, rget r c)) cs
  end.

Definition limited (z : rnd) (lim : option Z) (l : list (nat * row)) : list (nat * row) :=
  match lim with None => l | Some n => firstn (Z.to_nat n) (shuffle z l) end.

(** Drop repeated rows (UNION). *)
Definition distinct (l : list row) : list row := nodup eq_dec l.

Fixpoint eval_wc (e : sqlenv) (z : rnd) (i : nat) (r : row) (c : wc) : tv :=
  match c with
  | WFalse => F3
  | WTrue => T3
  | WOp op col v => op3 e op (rget r col) (lit_value v)
  | WInVals cols vals neg =>
      let t := in3 e (map (rget r) cols) (map (map lit_value) vals) in if neg then not3 t else t
  | WInStmt cols s neg =>
      let t := in3 e (map (rget r) cols) (map dvals (sem_stmt e z s)) in if neg then not3 t else t
  | WAnd l => fold_right and3 T3 (map (eval_wc e z i r) l)
  | WOr l => fold_right or3 F3 (map (eval_wc e z i r) l)
  | WRandom q => tv_of (negb (Qle_bool q (draw z q i r)))
  | WSQL s ps => text e s ps r
  end
with sem_sel (e : sqlenv) (z : rnd) (s : sel) : list row :=
  match s with
  | Sel cols from wher lim joins outer =>
      let keep ir :=
        joins_hold e joins outer (snd ir) &&
        match wher with None => true | Some w => is_true (eval_wc e z (fst ir) (snd ir) w) end in
      map (fun ir => project cols (snd ir)) (limited z lim (filter keep (indexed (contents e from))))
  end
with sem_stmt (e : sqlenv) (z : rnd) (s : stmt) : list row :=
  match s with
  | SSelect x => sem_sel e z x
  | SUnion l => distinct (concat (map (sem_sel e z) l))
  end.

(** Same rows, whatever their order and multiplicity. *)
Definition same_rows (l l' : list row) : Prop := forall r, In r l <-> In r l'.

Definition no_joins (s : sel) : Prop := s_joins s = None \/ s_joins s = Some [].

(** The unions whose simplification is faithful: any two members that read the same columns of the
    same table without a limit have no joins.  (In the other unions [SQLStatementUnion.simplify] may
    merge members and drop their joins, see C28.) *)
Definition pair_safe (s s' : sel) : Prop :=
  s_from s = s_from s' -> s_columns s = s_columns s' -> s_limit s = None -> s_limit s' = None ->
  no_joins s /\ no_joins s'.
Definition union_safe (l : list sel) : Prop := ForallOrdPairs pair_safe l.

(** Every union in the clause or statement is of that kind. *)
Fixpoint wc_safe (c : wc) : Prop :=
  match c with
  | WInStmt _ s _ => stmt_safe s
  | WAnd l | WOr l => fold_right and True (map wc_safe l)
  | _ => True
  end
with sel_safe (s : sel) : Prop :=
  match s with Sel _ _ (Some w) _ _ _ => wc_safe w | Sel _ _ None _ _ _ => True end
with stmt_safe (s : stmt) : Prop :=
  match s with
  | SSelect x => sel_safe x
  | SUnion l => union_safe l /\ fold_right and True (map sel_safe l)
  end.

(** No union in the clause or statement is empty ("TODO: Assert statements is not empty",
    plan_model.py:342). *)
Fixpoint wc_nonempty (c : wc) : Prop :=
  match c with
  | WInStmt _ s _ => stmt_nonempty s
  | WAnd l | WOr l => fold_right and True (map wc_nonempty l)
  | _ => True
  end
with sel_nonempty (s : sel) : Prop :=
  match s with Sel _ _ (Some w) _ _ _ => wc_nonempty w | Sel _ _ None _ _ _ => True end
with stmt_nonempty (s : stmt) : Prop :=
  match s with
  | SSelect x => sel_nonempty x
  | SUnion l => l <> [] /\ fold_right and True (map sel_nonempty l)
  end.

(** Every join in the clause or statement names at least one column pair, equally many columns on
    both sides (as foreign keys do). *)
Definition join_wf (j : join) : Prop :=
  j_left_cols j <> [] /\ length (j_left_cols j) = length (j_right_cols j).
Definition joins_wf (js : option (list join)) : Prop :=
  match js with Some l => Forall join_wf l | None => True end.
Fixpoint wc_wf (c : wc) : Prop :=
  match c with
  | WInStmt _ s _ => stmt_wf s
  | WAnd l | WOr l => fold_right and True (map wc_wf l)
  | _ => True
  end
with sel_wf (s : sel) : Prop :=
  match s with
  | Sel _ _ (Some w) _ js _ => joins_wf js /\ wc_wf w
  | Sel _ _ None _ js _ => joins_wf js
  end
with stmt_wf (s : stmt) : Prop :=
  match s with SSelect x => sel_wf x | SUnion l => fold_right and True (map sel_wf l) end.
