(** Model of /repo/subsetter/plan_model.py: the plan language and its [simplify]
    (the [build] methods are in Model/PlanBuild.v). *)
From Verif Require Import Model.Base Model.Value.

(** plan_model.py:16-24  SQLTableIdentifier *)
Record ident := mkIdent { i_schema : string; i_table : string; i_sampled : bool }.
Definition i_name (t : ident) : tname := (i_schema t, i_table t).
#[export] Instance EqDec_ident : EqDec ident.
Proof.
  intros x y. pose proof (@eq_dec bool _). pose proof (@eq_dec string _). decide equality.
Defined.

(** common.py:17  SQLKnownOperator *)
Inductive sqlop := OpLt | OpGt | OpEq | OpNe | OpBang | OpLike | OpNotLike.

(** plan_model.py:235-239  SQLLeftJoin *)
Record join := mkJoin {
  j_right : ident; j_left_cols : list string; j_right_cols : list string; j_half_unique : bool }.

(** plan_model.py:27-232 the where-clause classes, 242-251 SQLStatementSelect, 337-339
    SQLStatementUnion.  [SQLWhereClauseIn.values] is either literals ([WInVals]) or a statement
    ([WInStmt]).  [sql_params] are opaque: a list of (name, value). *)
Inductive wc :=
| WFalse
| WTrue
| WOp (op : sqlop) (column : string) (v : lit)
| WInVals (columns : list string) (values : list (list lit)) (negated : bool)
| WInStmt (columns : list string) (values : stmt) (negated : bool)
| WAnd (conditions : list wc)
| WOr (conditions : list wc)
| WRandom (threshold : Q)
| WSQL (sql : string) (params : option (dict string lit))
(** plan_model.py:235-251. *)
with sel :=
| Sel (columns : option (list string)) (from : ident) (wher : option wc) (limit : option Z)
      (joins : option (list join)) (joins_outer : bool)
(** plan_model.py:337-342. *)
with stmt :=
| SSelect (s : sel)
| SUnion (statements : list sel).

(** Fields of plan_model.py:242-251. *)
Definition s_columns (s : sel) := match s with Sel x _ _ _ _ _ => x end.
(** plan_model.py:242-251. *)
Definition s_from (s : sel) := match s with Sel _ x _ _ _ _ => x end.
(** plan_model.py:242-251. *)
Definition s_where (s : sel) := match s with Sel _ _ x _ _ _ => x end.
(** plan_model.py:242-251. *)
Definition s_limit (s : sel) := match s with Sel _ _ _ x _ _ => x end.
(** plan_model.py:242-251. *)
Definition s_joins (s : sel) := match s with Sel _ _ _ _ x _ => x end.
(** plan_model.py:242-251. *)
Definition s_outer (s : sel) := match s with Sel _ _ _ _ _ x => x end.

(** Exceptions of [simplify]: [self.statements[0]] on an empty union (357).  [MOutOfFuel] marks a
    recursion deeper than the fuel; proved unreachable with [simp_fuel].  (plan_model.py:357) *)
Inductive simp_exn := MIndexError | MOutOfFuel.
Notation mres := (res simp_exn).

(** plan_model.py:120-182 *)
Definition is_WTrue (c : wc) : bool := match c with WTrue => true | _ => false end.
Definition is_WFalse (c : wc) : bool := match c with WFalse => true | _ => false end.
(** plan_model.py:129-135: the conditions of an AND, or the clause itself *)
Definition and_parts (c : wc) : list wc := match c with WAnd l => l | _ => [c] end.
Definition or_parts (c : wc) : list wc := match c with WOr l => l | _ => [c] end.

(** plan_model.py:120-144  SQLWhereClauseAnd.simplify, given the simplified conditions *)
Definition and_simplified (simp : list wc) : wc :=
  let l := flat_map and_parts (filter (fun c => negb (is_WTrue c)) simp) in
  if existsb is_WFalse l then WFalse
  else match l with [] => WTrue | [c] => c | _ => WAnd l end.

(** plan_model.py:158-182  SQLWhereClauseOr.simplify, given the simplified conditions *)
Definition or_simplified (simp : list wc) : wc :=
  let l := flat_map or_parts (filter (fun c => negb (is_WFalse c)) simp) in
  if existsb is_WTrue l then WTrue
  else match l with [] => WFalse | [c] => c | _ => WOr l end.

(** plan_model.py:195-200  SQLWhereClauseRandom.simplify *)
Definition random_simplified (q : Q) : wc :=
  if Qle_bool q 0 then WFalse else if Qle_bool 1 q then WTrue else WRandom q.

(** plan_model.py:316-334  SQLStatementSelect.simplify, given the simplifier for where clauses.  [joins]/[joins_outer]
    are only passed on if [joins] is a non-empty list. *)
Definition simp_sel (simp_wc : wc -> mres wc) (s : sel) : mres sel :=
  match s with
  | Sel cols from None lim joins outer => Ok s
  | Sel cols from (Some w) lim joins outer =>
      let* w' := simp_wc w in
      let wher := if is_WTrue w' then None else Some w' in
      match joins with
      | Some (_ :: _) => Ok (Sel cols from wher lim joins outer)
      | _ => Ok (Sel cols from wher lim None false)
      end
  end.

(** plan_model.py:350-355 *)
Definition where_is_false (s : sel) : bool :=
  match s_where s with Some WFalse => true | _ => false end.

(** plan_model.py:363-369  the statements that can be merged: same table, same columns, no limit *)
Definition mergeable (s0 s : sel) : bool :=
  eqb (s_from s) (s_from s0) && eqb (s_columns s) (s_columns s0) && negb (is_some (s_limit s)).

Definition where_or_true (s : sel) : wc := match s_where s with Some w => w | None => WTrue end.

(** plan_model.py:347-384  SQLStatementUnion.simplify, given the simplifier for where clauses *)
Definition simp_union (simp_wc : wc -> mres wc) (statements : list sel) : mres stmt :=
  let* simps := mapM (simp_sel simp_wc) statements in
  match filter (fun s => negb (where_is_false s)) simps with
  | [] =>                                                          (* plan_model.py:356-357 *)
      match statements with
      | [] => Err MIndexError
      | s :: _ => let* s' := simp_sel simp_wc s in Ok (SSelect s')
      end
  | [s0] => Ok (SSelect s0)                                        (* plan_model.py:360-361 *)
  | (s0 :: _) as l =>
      if forallb (mergeable s0) l then                             (* plan_model.py:370-382 *)
        let* s := simp_sel simp_wc
                    (Sel (s_columns s0) (s_from s0) (Some (WOr (map where_or_true l))) None None false) in
        Ok (SSelect s)
      else Ok (SUnion l)                                           (* plan_model.py:384 *)
  end.

(** SQLStatementSelect.simplify / SQLStatementUnion.simplify.  (plan_model.py:316, 347) *)
Definition simp_stmt_with (simp_wc : wc -> mres wc) (s : stmt) : mres stmt :=
  match s with
  | SSelect x => let* x' := simp_sel simp_wc x in Ok (SSelect x')
  | SUnion l => simp_union simp_wc l
  end.

(** The [simplify] methods of the where-clause classes (35, 47, 76, 98-106, 120, 158, 195, 216).
    [fuel] bounds the nesting of IN sub-statements only.  (plan_model.py:35-232) *)
Fixpoint simp_wc (fuel : nat) : wc -> mres wc :=
  match fuel with
  | O => fun _ => Err MOutOfFuel
  | S f =>
      fix go (c : wc) : mres wc :=
        match c with
        | WInStmt cols s neg =>                                    (* plan_model.py:98-106 *)
            let* s' := simp_stmt_with (simp_wc f) s in Ok (WInStmt cols s' neg)
        | WAnd l =>
            let* l' := (fix gos (l : list wc) : mres (list wc) :=
                          match l with
                          | [] => Ok []
                          | c :: l' => let* c' := go c in let* cs := gos l' in Ok (c' :: cs)
                          end) l in
            Ok (and_simplified l')
        | WOr l =>
            let* l' := (fix gos (l : list wc) : mres (list wc) :=
                          match l with
                          | [] => Ok []
                          | c :: l' => let* c' := go c in let* cs := gos l' in Ok (c' :: cs)
                          end) l in
            Ok (or_simplified l')
        | WRandom q => Ok (random_simplified q)
        | _ => Ok c
        end
  end.

(** Nesting depth of IN sub-statements.  (plan_model.py:98-106) *)
Fixpoint wc_depth (c : wc) : nat :=
  match c with
  | WInStmt _ s _ => S (stmt_depth s)
  | WAnd l | WOr l => list_max (map wc_depth l)
  | _ => 0
  end
with sel_depth (s : sel) : nat :=
  match s with Sel _ _ (Some w) _ _ _ => wc_depth w | Sel _ _ None _ _ _ => 0 end
(** Recursion depth of plan_model.py:344-393. *)
with stmt_depth (s : stmt) : nat :=
  match s with SSelect x => sel_depth x | SUnion l => list_max (map sel_depth l) end.

(** plan_model.py:35-232 *)
Definition simplify_wc (c : wc) : mres wc := simp_wc (S (wc_depth c)) c.
Definition simplify_stmt (s : stmt) : mres stmt := simp_stmt_with (simp_wc (S (stmt_depth s))) s.

(** plan_model.py:396-400  SQLTableQuery and 413-415 SubsetPlan *)
Record table_query := mkQuery {
  q_sql : option string; q_params : option (dict string lit); q_stmt : option stmt }.
Record plan := mkPlan { p_queries : dict string table_query; p_passthrough : list string }.
