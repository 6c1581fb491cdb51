(** The SQL that SQLAlchemy sends for a plan statement, and what a database answers.
    This is the model of the database engine, not of code in /repo: SELECT with joins, EXISTS, GROUP BY
    primary key, ORDER BY random() LIMIT n, UNION, three-valued conditions. *)
From Verif Require Import Model.Base Model.Value Model.PlanModel Spec.SqlSem.

(** A table a statement can read: a source table, or copy [idx] of the temporary table holding the
    sample of [n].  (metadata.py:210-225) *)
Inductive tref := TSource (n : tname) | TTemp (n : tname) (idx : nat).
#[export] Instance EqDec_tref : EqDec tref.
Proof.
  intros x y. pose proof (@eq_dec nat _). pose proof (@eq_dec tname _). decide equality.
Defined.

(** A [sa.Table] object: what it reads, its column names, its primary key columns.  (plan_model.py:253-258) *)
Record tobj := mkT { t_ref : tref; t_cols : list string; t_pk : list string }.

(** FROM: a table, or a join of [alias] on equality of base-table columns and alias columns.  (plan_model.py:262-295) *)
Inductive sqlfrom :=
| FTable (t : tobj)
| FJoin (l : sqlfrom) (alias : nat) (t : tobj) (on : list (string * string)) (outer : bool).

(** plan_model.py:27-214 *)
Inductive sqlc :=
| QTrue
| QFalse
| QCmp (op : cmpop) (col : string) (v : lit)
| QNot (c : sqlc)
| QInVals (cols : list string) (vals : list (list lit))
| QIn (cols : list string) (q : query)
| QAnd (l : list sqlc)
| QOr (l : list sqlc)
| QRandom (q : Q)
| QText (sql : string) (params : option (dict string lit))
| QExists (t : tobj) (on : list (string * string))
| QNotNull (alias : nat) (col : string)
(** plan_model.py:253-345 *)
with query :=
| QSelect (cols : option (list string)) (from : sqlfrom) (group_by : option (list string))
          (wheres : list sqlc) (limit : option Z)
| QUnion (l : list query)
| QRaw (sql : string) (params : option (dict string lit)).

(** Database state seen by such SQL; [rawq] gives the result of a raw SQL query.  (sampler.py:907-930, 1035-1038) *)
Record dbenv := mkDb {
  db_rows : tref -> list row;
  db_cmp : cmpop -> value -> value -> bool;
  db_text : string -> option (dict string lit) -> row -> tv;
  db_raw : string -> option (dict string lit) -> list row }.

(** The comparison part of a [dbenv] as the specification's environment.  (plan_model.py:59-74) *)
Definition cmp_env (d : dbenv) : sqlenv := mkEnv (fun _ => []) (db_cmp d) (db_text d).

(** One row of a FROM clause: the base row with its position, and per alias the joined row ([None]:
    no match, all its columns are NULL).  (plan_model.py:262-295) *)
Definition jrow := ((nat * row) * list (nat * option row))%type.

Definition on_holds (d : dbenv) (r : row) (on : list (string * string)) (r' : row) : bool :=
  forallb (fun lr => is_true (cmp3 (cmp_env d) CEq (rget r (fst lr)) (rget r' (snd lr)))) on.

(** plan_model.py:262-295 *)
Fixpoint eval_from (d : dbenv) (f : sqlfrom) : list jrow :=
  match f with
  | FTable t => map (fun ir => (ir, [])) (indexed (db_rows d (t_ref t)))
  | FJoin l a t on outer =>
      flat_map (fun jr : jrow =>
        let ms := filter (on_holds d (snd (fst jr)) on) (db_rows d (t_ref t)) in
        if outer && is_nil ms then [(fst jr, (a, None) :: snd jr)]
        else map (fun r' => (fst jr, (a, Some r') :: snd jr)) ms)
      (eval_from d l)
  end.

(** Value of column [col] of [alias] in a FROM row.  (plan_model.py:270-295) *)
Definition alias_value (jr : jrow) (a : nat) (col : string) : value :=
  match dget (snd jr) a with Some (Some r') => rget r' col | _ => VNull end.

(** First row of each group (the selected columns are those of the base table, whose primary key is
    grouped by).  (plan_model.py:298-299) *)
Fixpoint group_first (key : jrow -> list value) (seen : list (list value)) (l : list jrow) : list jrow :=
  match l with
  | [] => []
  | x :: l' => if memb (key x) seen then group_first key seen l'
               else x :: group_first key (key x :: seen) l'
  end.

(** plan_model.py:27-214 *)
Fixpoint eval_c (d : dbenv) (z : rnd) (jr : jrow) (c : sqlc) : tv :=
  let r := snd (fst jr) in
  match c with
  | QTrue => T3
  | QFalse => F3
  | QCmp op col v => cmp3 (cmp_env d) op (rget r col) (lit_value v)
  | QNot c => not3 (eval_c d z jr c)
  | QInVals cols vals => in3 (cmp_env d) (map (rget r) cols) (map (map lit_value) vals)
  | QIn cols q => in3 (cmp_env d) (map (rget r) cols) (map dvals (eval_query d z q))
  | QAnd l => fold_right and3 T3 (map (eval_c d z jr) l)
  | QOr l => fold_right or3 F3 (map (eval_c d z jr) l)
  | QRandom q => tv_of (negb (Qle_bool q (draw z q (fst (fst jr)) r)))
  | QText s ps => db_text d s ps r
  | QExists t on => tv_of (existsb (on_holds d r on) (db_rows d (t_ref t)))
  | QNotNull a col => match alias_value jr a col with VNull => F3 | _ => T3 end
  end
(** plan_model.py:253-345 *)
with eval_query (d : dbenv) (z : rnd) (q : query) : list row :=
  match q with
  | QSelect cols from gb wheres lim =>
      let kept := filter (fun jr => forallb (fun c => is_true (eval_c d z jr c)) wheres)
                         (eval_from d from) in
      let grouped := match gb with
                     | None => kept
                     | Some pk => group_first (fun jr => map (rget (snd (fst jr))) pk) [] kept
                     end in
      map (fun ir => project cols (snd ir)) (limited z lim (map fst grouped))
  | QUnion l => distinct (concat (map (eval_query d z) l))
  | QRaw s ps => db_raw d s ps
  end.
