(** The destination of a run: a database (tables, rows, key sequences) and a directory of files, and what the statements
    the sampler sends to them do.  This is the trusted model of the outside world, not of code in /repo. *)
From Verif Require Import Model.Base Model.Value Model.Metadata.
Open Scope list_scope.

(** The dialects that sampler.py:183-233 distinguishes. *)
Inductive dialect := MySQL | PostgreSQL | SQLite | OtherDialect.

(** [ds_seq]: the last value of the sequence that generates a table's keys, if it has one (PostgreSQL).  [ds_files]: the
    lines of the files of the output directory.  (What sampler.py:344-387 and sampler.py:389-710 write to) *)
Record dest := mkDest {
  ds_tables : list table; ds_rows : dict tname (list row); ds_seq : dict tname Z; ds_files : dict string (list row) }.
(** Rows of a table, as sampler.py:603-710 finds and leaves them. *)
Definition rows_of (d : dest) (n : tname) : list row := dget_or (ds_rows d) n [].
(** The table's rows replaced, by the statements of sampler.py:574-586 and 603-710. *)
Definition with_rows (d : dest) (n : tname) (l : list row) : dest :=
  mkDest (ds_tables d) (dset (ds_rows d) n l) (ds_seq d) (ds_files d).
(** Lines of a file of sampler.py:358-387. *)
Definition file_of (d : dest) (p : string) : list row := dget_or (ds_files d) p [].

(** What an INSERT does with a row whose key exists: fail, leave it out, or set the given columns of the existing row; the key is
    the primary key or, with [any_key] (MySQL), any key of the table.  (The statements compiled by sampler.py:183-233) *)
Inductive on_conflict := Fail | LeaveOut | Update (any_key : bool) (cols : list string).

(** Statements that were executed and committed.  (The statements of sampler.py:487-586, 269-296, 603-710 and the writes of 358-387) *)
Inductive event :=
| EvCreate (ts : list table)
| EvDelete (n : tname)
| EvInsert (n : tname) (how : on_conflict) (rows : list row)
| EvSetval (n : tname) (v : Z)
| EvOpen (path : string)
| EvLine (path : string) (r : row).

(** The two rows have the same key [k]; NULLs are never equal.  (What the destination checks on the INSERT of sampler.py:183-233) *)
Definition clash (k : list string) (r r' : row) : bool :=
  negb (is_nil k) && negb (existsb (fun c => eqb (rget r c) VNull) k) && eqb (map (rget r) k) (map (rget r') k).
(** The keys the destination checks on the INSERT of sampler.py:183-233. *)
Definition table_keys (t : table) : list (list string) := tb_pk t :: tb_uniques t.
(** Any of these keys (sampler.py:183-233). *)
Definition clashes (ks : list (list string)) (r r' : row) : bool := existsb (fun k => clash k r r') ks.

(** The existing row with the given columns set.  (The UPDATE part of sampler.py:196-233) *)
Definition set_columns (cs : list string) (old new : row) : row :=
  fold_left (fun o c => dset o c (rget new c)) cs old.

(** Update the first row that clashes on the keys [ks]; the updated row may then clash with another one.  (ON DUPLICATE KEY UPDATE and ON CONFLICT DO UPDATE, sampler.py:196-233) *)
Fixpoint update_first (all ks : list (list string)) (cs : list string) (r : row) (before after : list row) : option (list row) :=
  match after with
  | [] => None
  | o :: after' =>
      if clashes ks r o then
        let o' := set_columns cs o r in
        if existsb (clashes all o') (before ++ after') then None else Some (before ++ o' :: after')
      else update_first all ks cs r (before ++ [o]) after'
  end.

(** One row. [None]: the statement fails.  (What the INSERT of sampler.py:183-233 does) *)
Definition insert_row (t : table) (how : on_conflict) (l : list row) (r : row) : option (list row) :=
  let all := table_keys t in
  match how with
  | Fail => if existsb (clashes all r) l then None else Some (l ++ [r])
  | LeaveOut => if existsb (clashes all r) l then Some l else Some (l ++ [r])
  | Update any cs =>
      let ks := if any then all else [tb_pk t] in
      if existsb (clashes ks r) l then update_first all ks cs r [] l
      else if existsb (clashes all r) l then None else Some (l ++ [r])
  end.

(** The table a statement of sampler.py:574-710 names. *)
Definition find_table (ts : list table) (n : tname) : option table := find (fun t => eqb (tb_name t) n) ts.

(** PostgreSQL's reading of a table's name in pg_get_serial_sequence('schema.table', ...): the names are not quoted, so that upper-case
    letters (ASCII) mean lower-case ones, and a name with a space, a quotation mark or a dot is not understood (a name that is quoted
    itself is one of these; simplified).  (See sampler.py:244-296) *)
Definition fold_letter (c : Ascii.ascii) : Ascii.ascii :=
  let n := Ascii.N_of_ascii c in if (N.leb 65 n && N.leb n 90)%bool then Ascii.ascii_of_N (n + 32) else c.
(** See sampler.py:244-296. *)
Fixpoint fold_name (s : string) : string :=
  match s with EmptyString => EmptyString | String c s' => String (fold_letter c) (fold_name s') end.
(** See sampler.py:244-296. *)
Definition unquoted (c : Ascii.ascii) : bool :=
  let n := Ascii.N_of_ascii c in negb ((N.leb 9 n && N.leb n 13) || N.eqb n 32 || N.eqb n 34 || N.eqb n 46).
(** See sampler.py:244-296. *)
Fixpoint unquoted_name (s : string) : bool :=
  match s with EmptyString => true | String c s' => unquoted c && unquoted_name s' end.
(** The table meant, if there is one.  (See sampler.py:244-296) *)
Definition serial_table (ts : list table) (n : tname) : option tname :=
  if unquoted_name (fst n) && unquoted_name (snd n)
  then match find_table ts (fold_name (fst n), fold_name (snd n)) with Some t => Some (tb_name t) | None => None end
  else None.
(** Set the sequence of a table; a table without one is left alone (setval of NULL).  (The setval of sampler.py:269-296) *)
Definition set_seq (d : dest) (n : tname) (v : Z) : dest :=
  if dmem (ds_seq d) n then mkDest (ds_tables d) (ds_rows d) (dset (ds_seq d) n v) (ds_files d) else d.

Section Exec.
(** The value of a column that is not given (default, generated, computed).  (Columns that sampler.py:603-710 does not write) *)
Variable dflt : tname -> string -> list row -> row -> value.
(** Whether the destination carries out a statement; it may refuse for reasons outside the model.  (See sampler.py:574-710) *)
Variable accepts : dest -> event -> bool.

(** The row stored for the columns that sampler.py:660-700 writes. *)
Definition complete (t : table) (l : list row) (r : row) : row :=
  map (fun c => (c, match dget r c with Some v => v | None => dflt (tb_name t) c l r end)) (tb_cols t).
(** One INSERT of a buffer of rows, sampler.py:676-700. *)
Fixpoint insert_rows (t : table) (how : on_conflict) (l : list row) (rs : list row) : option (list row) :=
  match rs with
  | [] => Some l
  | r :: rs' => match insert_row t how l (complete t l r) with Some l' => insert_rows t how l' rs' | None => None end
  end.

(** One transaction: all or nothing.  (What a statement of sampler.py:269-296, 358-387, 487-586 and 603-710 does) *)
Definition exec (d : dest) (e : event) : option dest :=
  match e with
  | EvCreate ts => Some (mkDest (ds_tables d ++ ts) (ds_rows d) (ds_seq d) (ds_files d))
  | EvDelete n => Some (with_rows d n [])
  | EvInsert n how rs =>
      match find_table (ds_tables d) n with
      | Some t => match insert_rows t how (rows_of d n) rs with Some l => Some (with_rows d n l) | None => None end
      | None => None
      end
  | EvSetval n v =>
      match serial_table (ds_tables d) n with Some m => Some (set_seq d m v) | None => None end
  | EvOpen p => Some (mkDest (ds_tables d) (ds_rows d) (ds_seq d) (dset (ds_files d) p []))
  | EvLine p r => Some (mkDest (ds_tables d) (ds_rows d) (ds_seq d) (dset (ds_files d) p (file_of d p ++ [r])))
  end.

(** Programs that change the destination: they end with a result or an exception, and [trace] lists what was executed.  (The state sampler.py:721-751 works on) *)
Record world := mkWorld { w_dest : dest; trace : list event }.
(** The methods of sampler.py:306-342 and their implementations. *)
Definition io (E A : Type) := world -> world * res E A.
(** [return a] in these methods, sampler.py:306-342. *)
Definition ret {E A} (a : A) : io E A := fun w => (w, Ok a).
(** A step that does not touch the destination, e.g. sampler.py:753-809. *)
Definition lift {E A} (r : res E A) : io E A := fun w => (w, r).
(** Statements one after another, e.g. sampler.py:721-751. *)
Definition bind_io {E A B} (m : io E A) (k : A -> io E B) : io E B :=
  fun w => match m w with (w', Ok a) => k a w' | (w', Err e) => (w', Err e) end.
(** Execute a statement and commit, or raise.  ([conn.execute] and [conn.commit], e.g. sampler.py:574-586) *)
Definition send {E} (err : E) (e : event) : io E unit := fun w =>
  if accepts (w_dest w) e then
    match exec (w_dest w) e with
    | Some d => (mkWorld d (trace w ++ [e]), Ok tt)
    | None => (w, Err err)
    end
  else (w, Err err).
(** Read the destination.  (Queries to the destination, e.g. sampler.py:422-485) *)
Definition reading {E A} (f : dest -> res E A) : io E A := fun w => (w, f (w_dest w)).
(** A for loop that sends statements, e.g. sampler.py:574-586. *)
Fixpoint for_io {E S A} (f : S -> A -> io E S) (l : list A) (s : S) : io E S :=
  match l with
  | [] => ret s
  | a :: l' => bind_io (f s a) (fun s' => for_io f l' s')
  end.
End Exec.
Notation "'let+' x := m 'in' k" := (bind_io m (fun x => k))
  (at level 200, x pattern, m at level 100, k at level 200, right associativity).
