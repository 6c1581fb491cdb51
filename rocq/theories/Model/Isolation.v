(** What the statements of a run see of a source that other sessions change, by the isolation level of its connection
    (/repo/subsetter/common.py:187-196, sampler.py:747-751).  This is a model of the databases, not of code in /repo. *)
From Verif Require Import Model.Base Model.Value Model.Config.
Open Scope string_scope.

(** common.py:187-196, sampler.py:105-155, 747-751, 1035-1038.  [committed k n]: the rows of table [n] committed when the [k]-th
    statement that reads source tables begins; the first [m] of these statements fill temporary tables.  All go through one
    connection, on which the program commits nothing.
    - PostgreSQL, at REPEATABLE READ and SERIALIZABLE: all statements of the transaction see what was committed when the first
      of them began.
    - MySQL, at REPEATABLE READ: INSERT .. SELECT reads what was committed last, and CREATE INDEX, also for a temporary table,
      ends the transaction; the SELECTs that follow see what was committed when the first of them began.  (Simplification: rows
      a statement has read are locked until the transaction ends, so not every history can happen.)
    - Otherwise every statement sees what was committed when it began.  For sqlite, and for MySQL at SERIALIZABLE, which locks
      what it reads, this is a simplification that allows more than can happen. *)
Definition seen_by (g : engine) (m : nat) (committed : nat -> tname -> list row) (k : nat) : tname -> list row :=
  let driver := u_driver (eg_url g) in
  let level := eg_isolation g in
  if String.eqb driver "postgresql+psycopg2" && (String.eqb level "REPEATABLE READ" || String.eqb level "SERIALIZABLE") then committed 0
  else if String.eqb driver "mysql+pymysql" && String.eqb level "REPEATABLE READ" && Nat.leb m k then committed m
  else committed k.
