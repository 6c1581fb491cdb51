(** Model of the [build] methods of /repo/subsetter/plan_model.py. *)
From Verif Require Import Model.Base Model.Value Model.PlanModel Spec.SqlSem Model.SqlAlgebra.

(** KeyError: unknown table or column.  ValueError: SQLTableQuery with neither field set (410).  (plan_model.py:24, 410) *)
Inductive build_exn := BKeyError | BValueError.

Section Build.
(** plan_model.py:13  SQLBuildContext: a callable from identifier to table object, with its own
    mutable state (metadata.py:220 [reference_count]; sampler.py:820 [counter]). *)
Context {S : Type}.
Variable context : ident -> S -> res build_exn (tobj * S).

Notation M A := (S -> res build_exn (A * S)).

(** [table_obj.columns[c]].  (plan_model.py:59-75, 89, 275-292) *)
Definition has_col (t : tobj) (c : string) : res build_exn unit :=
  if memb c (t_cols t) then Ok tt else Err BKeyError.
Fixpoint has_cols (t : tobj) (cs : list string) : res build_exn unit :=
  match cs with [] => Ok tt | c :: cs' => let* _ := has_col t c in has_cols t cs' end.

(** plan_model.py:59-74  SQLWhereClauseOperator.build *)
Definition build_op (op : sqlop) (col : string) (v : lit) : sqlc :=
  match op with
  | OpLt => QCmp CLt col v
  | OpGt => QCmp CGt col v
  | OpEq => QCmp CEq col v
  | OpNe | OpBang => QCmp CNe col v
  | OpLike => QCmp CLike col v
  | OpNotLike => QNot (QCmp CLike col v)
  end.

(** plan_model.py:270-295  the columns of a join condition: [zip(left_columns, right_columns)], each looked up *)
Definition join_on (t rt : tobj) (j : join) : res build_exn (list (string * string)) :=
  let on := combine (j_left_cols j) (j_right_cols j) in
  let* _ := has_cols t (map fst on) in
  let* _ := has_cols rt (map snd on) in
  Ok on.

(** plan_model.py:262-295  the loop over the joins: the FROM clause, the joined columns, the EXISTS constraints.
    The [n]-th join gets alias [n] ([.alias()] is anonymous and unique). *)
Fixpoint build_joins (t : tobj) (outer : bool) (js : list join) (n : nat)
    (from : sqlfrom) (cols : list (nat * string)) (exs : list sqlc) (s : S)
  : res build_exn ((sqlfrom * list (nat * string) * list sqlc) * S) :=
  match js with
  | [] => Ok ((from, cols, exs), s)
  | j :: js' =>
      let* (rt, s) := context (j_right j) s in
      let* on := join_on t rt j in
      if j_half_unique j && negb (is_nil (t_pk t)) then                       (* plan_model.py:269-284 *)
        let* _ := has_cols rt (j_right_cols j) in
        build_joins t outer js' (1 + n) (FJoin from n rt on outer)
                    (cols ++ map (fun c => (n, c)) (j_right_cols j)) exs s
      else                                                                    (* plan_model.py:285-295 *)
        build_joins t outer js' (1 + n) from cols (exs ++ [QExists rt on]) s
  end.

Definition is_join (f : sqlfrom) : bool := match f with FTable _ => false | FJoin _ _ _ _ _ => true end.

(** plan_model.py:262-305  everything the [if self.joins] block adds to the statement *)
Definition build_join_part (t : tobj) (joins : option (list join)) (outer : bool) (s : S)
  : res build_exn ((sqlfrom * option (list string) * list sqlc) * S) :=
  match joins with
  | None | Some [] => Ok ((FTable t, None, []), s)
  | Some js =>
      let* (fce, s) := build_joins t outer js 0 (FTable t) [] [] s in
      let '(from, cols, exs) := fce in
      let gb := if is_join from then Some (t_pk t) else None in               (* plan_model.py:298-299 *)
      let wheres :=
        if outer then [QOr (exs ++ map (fun nc => QNotNull (fst nc) (snd nc)) cols)]   (* plan_model.py:301-303 *)
        else match exs with [] => [] | _ => [QAnd exs] end in                 (* plan_model.py:304-305 *)
      Ok ((from, gb, wheres), s)
  end.

Fixpoint build_wc (t : tobj) (c : wc) {struct c} : M sqlc :=
  match c with
  | WFalse => fun s => Ok (QFalse, s)                                         (* plan_model.py:32-33 *)
  | WTrue => fun s => Ok (QTrue, s)                                           (* plan_model.py:44-45 *)
  | WOp op col v => fun s => let* _ := has_col t col in Ok (build_op op col v, s)
  | WInVals cols vals neg => fun s =>                                         (* plan_model.py:88-96 *)
      let* _ := has_cols t cols in
      let q := QInVals cols vals in Ok (if neg then QNot q else q, s)
  | WInStmt cols st neg => fun s =>
      let* _ := has_cols t cols in
      let* (q, s) := build_stmt st s in
      let q := QIn cols q in Ok (if neg then QNot q else q, s)
  | WAnd l =>                                                                 (* plan_model.py:115-118 *)
      match l with
      | [] => fun s => Ok (QTrue, s)
      | _ => fun s =>
          let* (l', s) := (fix go (l : list wc) : M (list sqlc) :=
                             match l with
                             | [] => fun s => Ok ([], s)
                             | c :: l' => fun s => let* (q, s) := build_wc t c s in
                                          let* (qs, s) := go l' s in Ok (q :: qs, s)
                             end) l s in
          Ok (QAnd l', s)
      end
  | WOr l =>                                                                  (* plan_model.py:153-156 *)
      match l with
      | [] => fun s => Ok (QFalse, s)
      | _ => fun s =>
          let* (l', s) := (fix go (l : list wc) : M (list sqlc) :=
                             match l with
                             | [] => fun s => Ok ([], s)
                             | c :: l' => fun s => let* (q, s) := build_wc t c s in
                                          let* (qs, s) := go l' s in Ok (q :: qs, s)
                             end) l s in
          Ok (QOr l', s)
      end
  | WRandom q => fun s => Ok (QRandom q, s)                                   (* plan_model.py:191-193 *)
  | WSQL sql ps => fun s => Ok (QText sql ps, s)                              (* plan_model.py:210-214 *)
  end
with build_sel (x : sel) {struct x} : M query :=                              (* plan_model.py:253-314 *)
  match x with
  | Sel cols from wher lim joins outer => fun s =>
      let* (t, s) := context from s in
      let* _ := match cols with Some cs => has_cols t cs | None => Ok tt end in
      let* (fgw, s) := build_join_part t joins outer s in
      let '(f, gb, wheres) := fgw in
      let* (wheres, s) := match wher with
                          | None => Ok (wheres, s)
                          | Some w => let* (q, s) := build_wc t w s in Ok (wheres ++ [q], s)
                          end in
      Ok (QSelect cols f gb wheres lim, s)
  end
(** plan_model.py:253-314, 344-345 *)
with build_stmt (st : stmt) {struct st} : M query :=
  match st with
  | SSelect x => build_sel x
  | SUnion l => fun s =>                                                      (* plan_model.py:344-345 *)
      let* (l', s) := (fix go (l : list sel) : M (list query) :=
                         match l with
                         | [] => fun s => Ok ([], s)
                         | x :: l' => fun s => let* (q, s) := build_sel x s in
                                      let* (qs, s) := go l' s in Ok (q :: qs, s)
                         end) l s in
      Ok (QUnion l', s)
  end.

(** plan_model.py:402-410  SQLTableQuery.build *)
Definition build_query (q : table_query) (s : S) : res build_exn (query * S) :=
  match q_sql q with
  | Some sql => Ok (QRaw sql (match q_params q with Some ps => Some ps | None => None end), s)
  | None => match q_stmt q with Some st => build_stmt st s | None => Err BValueError end
  end.
End Build.
