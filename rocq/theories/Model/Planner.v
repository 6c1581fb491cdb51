(** Model of /repo/subsetter/planner.py (and the configuration records of config_model.py it reads). *)
From Verif Require Import Model.Base Model.Solver Model.Value Model.Names Model.PlanModel Model.Metadata.
Open Scope string_scope.
Open Scope list_scope.

(** config_model.py:15-21  TargetConfig.  Floats are rationals. *)
Record target := mkTarget {
  tg_all : bool; tg_percent : option Q; tg_amount : option Z;
  tg_like : dict string (list string); tg_in : dict string (list lit); tg_sql : option string }.
(** config_model.py:46-49  ColumnConstraint; a list is accepted as value by the configuration *)
Record constr := mkConstr { cc_col : string; cc_op : sqlop; cc_val : lit + list lit }.
(** config_model.py:27-31  ExtraFKConfig (its validator is C76) *)
Record extra_fk := mkExtra { x_src : string; x_src_cols : list string; x_dst : string; x_dst_cols : list string }.
(** config_model.py:58 *)
Inductive infer_mode := InferNone | InferSchema | InferAll.
(** config_model.py:51-59  PlannerConfig *)
Record config := mkConfig {
  c_constraints : dict string (list constr);
  c_select : list string;
  c_targets : dict string target;
  c_ignore : list string;
  c_passthrough : list string;
  c_ignore_fks : list (string * string);
  c_extra_fks : list extra_fk;
  c_infer : infer_mode;
  c_include_deps : bool }.

(** Why a ValueError was raised.  (planner.py:122-361) *)
Inductive reason :=
| RName            (* common.py:26 name without schema *)
| RIgnored         (* planner.py:234 *)
| RPassthrough     (* planner.py:259 *)
| RTarget          (* planner.py:122 *)
| RCycle           (* planner.py:128 *)
| RConstraintRev   (* planner.py:349 *)
| RConstraintCol   (* planner.py:356 *)
| RConstraintVal.  (* planner.py:361: pydantic's ValidationError, a ValueError, for a list value *)
Inductive plan_exn :=
| PValueError (r : reason)
| PKeyError
| PAssertionError
| PIndexError
| POutOfFuel.
Notation pres := (res plan_exn).

Definition parse (s : string) : pres tname :=
  match parse_table_name s with Some n => Ok n | None => Err (PValueError RName) end.

(** planner.py:65 *)
Definition of_meta {A} (r : res meta_exn A) : pres A :=
  match r with Ok a => Ok a | Err MeKeyError => Err PKeyError | Err MeOutOfFuel => Err POutOfFuel end.

(** planner.py:205-223  _remove_ignore_fks *)
Definition remove_ignore_fks (cfg : config) (ms : meta) : pres meta :=
  forM (fun ms sd =>
    let* src := parse (fst sd) in
    let* dst := parse (snd sd) in
    match dget ms src with
    | None => Ok ms
    | Some m => Ok (dset ms src (with_fks m (filter (fun fk => negb (eqb (fk_dst fk) dst)) (tm_fks m))))
    end) (c_ignore_fks cfg) ms.

(** planner.py:141-203  _add_extra_fks *)
Definition add_extra_fks (cfg : config) (ms : meta) : pres meta :=
  forM (fun ms x =>
    let* src := parse (x_src x) in
    let* dst := parse (x_dst x) in
    match dget ms src with
    | None => Ok ms                                                                   (* planner.py:147-154 *)
    | Some m =>
        if negb (subsetb (x_src_cols x) (tb_cols (tm_table m))) then Ok ms            (* planner.py:156-169 *)
        else match dget ms dst with
             | None => Ok ms                                                          (* planner.py:172-179 *)
             | Some md =>
                 if negb (subsetb (x_dst_cols x) (tb_cols (tm_table md))) then Ok ms  (* planner.py:181-194 *)
                 else Ok (dset ms src (with_fks m (tm_fks m ++ [mkFK (x_src_cols x) dst (x_dst_cols x)])))
             end
    end) (c_extra_fks cfg) ms.

(** planner.py:225-237  _check_ignore_tables *)
Definition check_ignore_tables (ignore : list tname) (ms : meta) : pres unit :=
  if existsb (fun m => negb (memb (tm_name m) ignore) &&
                       existsb (fun fk => memb (fk_dst fk) ignore) (tm_fks m)) (dvals ms)
  then Err (PValueError RIgnored) else Ok tt.

(** planner.py:239-264  _check_passthrough_tables; returns the passthrough tables that exist *)
Definition check_passthrough_tables (passthrough : list tname) (ms : meta) : pres (list tname) :=
  if existsb (fun n => match dget ms n with
                       | None => false
                       | Some m => existsb (fun fk => negb (memb (fk_dst fk) passthrough)) (tm_fks m)
                       end) passthrough
  then Err (PValueError RPassthrough)
  else Ok (filter (dmem ms) passthrough).

Section Planner.
(** Iteration order of sets of names, and of the set of passthrough tables.  (Sets of names, e.g. planner.py:109-139) *)
Variable ord : list string -> list string.
(** planner.py:92-101. *)
Variable ordp : list tname -> list tname.

(** planner.py:109-139  _solve_order *)
Definition solve_order (cfg : config) (ms : meta) (skip : list tname) : pres (list string) :=
  let graph := dset (as_graph ms skip) "" (set_of (dkeys (c_targets cfg))) in
  if existsb (fun t => negb (dmem graph t)) (dkeys (c_targets cfg)) then Err (PValueError RTarget)
  else match order_graph ord String.ltb graph "" with
       | Ok l => Ok (tl l)
       | Err (CycleExn _) => Err (PValueError RCycle)
       | Err SKeyError => Err PKeyError
       | Err SAssertionError => Err PAssertionError
       | Err SValueError => Err (PValueError RCycle)
       | Err SOutOfFuel => Err POutOfFuel
       end.

(** metadata.py:19  [order=True]: ForeignKeys compare as tuples (columns, schema, table, columns) *)
Fixpoint lex_ltb (a b : list string) : bool :=
  match a, b with
  | [], [] => false
  | [], _ :: _ => true
  | _ :: _, [] => false
  | x :: a', y :: b' => String.ltb x y || (eqb x y && lex_ltb a' b')
  end.
Definition fk_ltb (f g : fkey) : bool :=
  lex_ltb (fk_cols f) (fk_cols g) ||
  (eqb (fk_cols f) (fk_cols g) &&
   (String.ltb (fst (fk_dst f)) (fst (fk_dst g)) ||
    (eqb (fst (fk_dst f)) (fst (fk_dst g)) &&
     (String.ltb (snd (fk_dst f)) (snd (fk_dst g)) ||
      (eqb (snd (fk_dst f)) (snd (fk_dst g)) && lex_ltb (fk_dst_cols f) (fk_dst_cols g)))))).
(** planner.py:272-281 sorted *)
Fixpoint fk_insert (f : fkey) (l : list fkey) : list fkey :=
  match l with
  | [] => [f]
  | g :: l' => if fk_ltb g f then g :: fk_insert f l' else f :: g :: l'
  end.
(** [sorted(...)]  (planner.py:266-340) *)
Definition fk_sort (l : list fkey) : list fkey := fold_right fk_insert [] l.

(** planner.py:314-323  _is_distinct: a PrimaryKeyConstraint (possibly without columns) or UniqueConstraint within [cols] *)
Definition is_distinct (t : table) (cols : list string) : bool :=
  existsb (fun cs => subsetb cs cols) (tb_pk t :: tb_uniques t).

(** planner.py:325-342  the joins *)
Definition fk_joins (ms : meta) (t : table) (fks : list fkey) : pres (list join) :=
  mapM (fun fk =>
    let* d := dfind PKeyError ms (fk_dst fk) in
    Ok (mkJoin (mkIdent (fst (fk_dst fk)) (snd (fk_dst fk)) true) (fk_cols fk) (fk_dst_cols fk)
               (is_distinct t (fk_cols fk) || is_distinct (tm_table d) (fk_dst_cols fk)))) fks.

(** planner.py:354-367  the configured constraints of a table *)
Definition constraint_sql (t : table) (c : constr) : pres wc :=
  if memb (cc_col c) (tb_cols t) then
    match cc_val c with
    | inl v => Ok (WOp (cc_op c) (cc_col c) v)
    | inr _ => Err (PValueError RConstraintVal)
    end
  else Err (PValueError RConstraintCol).

(** planner.py:390-428  the target's own conditions *)
Definition target_where (g : target) : list wc :=
  if tg_all g then []
  else
    (match tg_percent g with Some p => [WRandom (p / 100)] | None => [] end) ++
    (match tg_sql g with Some s => [WSQL s None] | None => [] end) ++
    flat_map (fun cp => map (fun p => WOp OpLike (fst cp) (LStr p)) (snd cp)) (tg_like g) ++
    map (fun cv => WInVals [fst cv] (map (fun v => [v]) (snd cv)) false) (tg_in g).

Definition of_simp {A} (r : res simp_exn A) : pres A :=
  match r with Ok a => Ok a | Err MIndexError => Err PIndexError | Err MOutOfFuel => Err POutOfFuel end.

(** planner.py:266-447  _plan_table *)
Definition plan_table (cfg : config) (ms : meta) (m : tmeta) (processed : list tname) (tgt : option target)
  : pres table_query :=
  let t := tm_table m in
  let fks := fk_sort (filter (fun fk => memb (fk_dst fk) processed) (tm_fks m)) in            (* planner.py:272-276 *)
  let rev0 := fk_sort (filter (fun fk => memb (fk_dst fk) processed) (tm_rev m)) in           (* planner.py:277-281 *)
  if negb (is_nil fks || is_nil rev0) then Err PAssertionError                                (* planner.py:284 *)
  else if negb (is_some tgt || negb (is_nil fks) || negb (is_nil rev0)) then Err PAssertionError  (* planner.py:285 *)
  else if is_some tgt && negb (is_nil fks) then Err PAssertionError                           (* planner.py:290 *)
  else
    let rev := match tgt with Some g => if tg_all g then [] else rev0 | None => rev0 end in   (* planner.py:291-292 *)
    let* joins := fk_joins ms t (if is_nil fks then rev else fks) in                          (* planner.py:325-342 *)
    let confs := dget_or (c_constraints cfg) (render (tb_name t)) [] in                       (* planner.py:344-346 *)
    if negb (is_nil confs) && negb (is_nil rev) then Err (PValueError RConstraintRev)         (* planner.py:348-352 *)
    else
      let* conf_sql := mapM (constraint_sql t) confs in
      let from := mkIdent (fst (tb_name t)) (snd (tb_name t)) false in
      let st1 := if is_nil fks && is_nil rev then []                                          (* planner.py:372-387 *)
                 else [Sel None from (Some (WAnd conf_sql)) None (Some joins) (is_nil fks)] in
      let st2 := match tgt with                                                               (* planner.py:390-440 *)
                 | None => []
                 | Some g => [Sel None from (Some (WAnd (target_where g))) (tg_amount g) None false]
                 end in
      let* st := of_simp (simplify_stmt (SUnion (st1 ++ st2))) in                             (* planner.py:442-447 *)
      Ok (mkQuery None None (Some st)).

(** planner.py:91-99  the loop over the order *)
Fixpoint plan_tables (cfg : config) (ms : meta) (order : list string) (processed : list tname)
    (queries : dict string table_query) : pres (dict string table_query) :=
  match order with
  | [] => Ok queries
  | name :: order' =>
      let* n := parse name in
      let processed' := set_add n processed in
      let* m := dfind PKeyError ms n in
      let* q := plan_table cfg ms m processed' (dget (c_targets cfg) name) in
      plan_tables cfg ms order' processed' (dset queries name q)
  end.

(** planner.py:81-89  the query of a passthrough table *)
Definition passthrough_query (n : tname) : table_query :=
  mkQuery None None (Some (SSelect (Sel None (mkIdent (fst n) (snd n) false) None None None false))).

(** planner.py:65-71  the metadata with the configured foreign keys *)
Definition edit_fks (cfg : config) (ms : meta) : pres meta :=
  let ms := match c_infer cfg with
            | InferNone => ms
            | InferSchema => infer_missing_foreign_keys false ms
            | InferAll => infer_missing_foreign_keys true ms
            end in
  let* ms := remove_ignore_fks cfg ms in
  add_extra_fks cfg ms.

(** planner.py:65-107  _plan_internal *)
Definition plan_internal (cfg : config) (ignore passthrough : list tname) (ms : meta) : pres plan :=
  let* ms := edit_fks cfg ms in
  let* _ := if c_include_deps cfg then check_ignore_tables ignore ms else Ok tt in
  let* passthrough := check_passthrough_tables passthrough ms in
  let* order := solve_order cfg ms (set_union passthrough ignore) in
  let* ms := of_meta (compute_reverse_keys ms) in
  let queries := dict_of (map (fun n => (render n, passthrough_query n)) (ordp passthrough)) in
  let* queries := plan_tables cfg ms order [] queries in
  Ok (mkPlan queries (map render (ordp passthrough))).

(** planner.py:34-63  Planner.__init__ and plan *)
Definition plan_db (fnm : string -> string -> bool) (cfg : config) (db : list table) : pres plan :=
  let* ignore := mapM parse (c_ignore cfg) in
  let* passthrough := mapM parse (c_passthrough cfg) in
  let* mx := of_meta (from_engine fnm db (c_select cfg ++ c_passthrough cfg) (c_include_deps cfg) false) in
  plan_internal cfg (set_of ignore) (set_of passthrough) (fst mx).
End Planner.
