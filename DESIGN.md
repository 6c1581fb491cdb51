# Formal model of msg555/subsetter in Rocq (Coq 8.16.1)

## How to read this development

* `rocq/theories/Model/*.v` - executable Gallina models, one file per Python module, each
  definition citing the lines it models. No proofs.
* `rocq/theories/Spec/*.v` - small specifications (paths in a graph, SQL row semantics, foreign
  key satisfaction ...) that do not mention the model's helpers.
* `rocq/theories/Proofs/*.v` - lemmas.
* `rocq/theories/Props/*.v` - only the property theorems, each closed by `exact`, with
  `Print Assumptions` and a concrete `Example` meeting its hypotheses.

## Modelling conventions

* Exceptions are values: `Ok a | Err e`. Warnings/log lines are dropped.
* A Python `dict` is an association list in insertion order (`dict K V`).
* A Python `set` is a duplicate-free list. Where iteration order over a set can influence a
  result, the order is an arbitrary function `ord` with `forall l, Permutation (ord l) l`, so theorems
  hold for every hash seed.
* `while`/growing-queue loops run on explicit fuel computed from the input; running out is a distinct
  error `OutOfFuel`, and termination is *proved*: it is never returned.
* External behaviour (database engine, random choices, fnmatch, re.sub, Faker, environment) is a
  parameter of the function concerned; what is assumed about it is a hypothesis visible in the
  theorem.
* If the faithful model violates the English property, the theorem is `..._refuted`, a witness run of
  the model, beside a `..._partial` theorem proving the strongest true version.

## Per property plan

| Property | Model | Method |
|---|---|---|
| C01-C03 | `solver.toposort`, `reverse_graph`: growing queue + degree dict, on fuel | loop invariant (degree = unprocessed out-neighbours); pigeonhole for the cycle |
| C04-C05 | `toposort_reachable`: explicit DFS stack of (node, remaining iterator), weights, sort | stack invariant: finished nodes satisfy weight = 1 + sum of children; weights strictly decrease along edges |
| C06-C10 | `order_graph`: layer loop alternating G / reverse G | layer-closure invariant; uniqueness of the weight recurrence gives seed independence; C10 by witness |
| C11-C12, C21-C23 | `Planner._plan_internal` and all helpers | refinement to edge relation of considered FKs + C06-C08 |
| C13-C20 | `_plan_table` + `simplify` + row semantics of statements (3-valued logic, NULLs, arbitrary choice for limits) | any sample satisfying "each table = its query evaluated on source + sample" is FK consistent; case split on order position |
| C24-C26 | `DatabaseMetadata.from_engine/infer/compute_reverse_keys` | queue invariant; fold invariants |
| C27-C28 | `simplify` of every clause/statement class | nested structural induction |
| C29 | `SQLStatementSelect.build` into a small SQL algebra (joins, EXISTS, GROUP BY, LIMIT) and its evaluation | induction over join list |
| C30 | `model_dump(exclude_unset, by_alias)` / `model_validate` on a JSON-like tree | nested induction |
| C31-C32 | `TempTableCreator._generate_name` on strings | injectivity of "name_count" encoding; witness |
| C33-C36 | `_materialization_order`, `_materialize_tables`, `_copy_results`, `sql_build_context` | C01/C02 + induction over the order; reference counting argument |
| C37-C39 | `_multiply_column`, `_get_multiplied_columns` | arithmetic; fixpoint of monotone loop |
| C40-C43 | row-number columns, compaction joins, `_get_compact_columns` | list induction; witnesses |
| C44-C47 | `DatabaseOutput.prepare` (Model/Output.v) against a destination (Model/Dest.v) | fold invariants over the metadata; shifted keys lie above existing ones; witnesses for empty tables, chained references and references leaving the plan |
| C48-C50 | `output_result_set` with its buffer, the list of committed statements | trace invariants; a crash is any prefix of the trace; order from C01 |
| C51-C54 | `truncate`, `insert_order`, `create`, `_remap_table` | C01, closure of the truncated set; injectivity of an accepted remapping |
| C55-C56 | `ConflictInsert` and what an INSERT does to a keyed table | induction over the batch; witnesses |
| C57-C60 | directory output, sequence update, phases of `sample` | trace reasoning, one phase after the other; witnesses for a sequence that moves back and for a table whose name has capital letters |
| C61-C69 | `filters.py` (Model/Filters.v) | chain induction; two-run (noninterference) relation for C63 |
| C70 | `parse_table_name` | string induction |
| C71-C73, C84, C85 | `database_url`, `DatabaseConfig.database_engine` with getenv and int() as parameters | case analysis against an independent precedence specification; witnesses |
| C74 | `pydantic_search` over a heap of objects | DFS invariant, termination on fuel |
| C75 | `_dict_merge` | tree induction against paths (Spec/ConfigSpec.v) |
| C76, C92 | `check_columns_match`, model validation of the planner section | list lemma; inversion of `load_config` |
| C77, C78 | planner, materialisation and copying composed | the sample is a solution of the plan's equations, then C13 |
| C79 | the planner with two arbitrary set orders | congruence of every helper under reordering |
| C80 | `_get_compact_columns` and the copy statements | induction over columns |
| C81 | every plan of the planner is accepted by `materialization_order` and its statements find their temporary tables | composition with C33-C36 |
| C82 | `create`, `_remap_table` | fold invariant |
| C83 | two runs, the second with truncation, on whatever the first left | simulation: after the deletes the two destinations agree on every table that is written |
| C86, C87 | the whole run: create, truncate, copy, batches | C48 + C77 pushed through INSERT; uniqueness of keys |
| C96, C97 | the whole run with compaction | statements do not see the internal id column, so C13 holds of the selected rows; numbers follow (C41), column pair by column pair |
| C98-C101 | the whole run with multiplying, merging, replacing and skipping | per written row: value = shift(multiply(renumber(selected))); both ends of a column pair get the same function of equal values; INSERT keeps a row with the key referred to |
| C102, C103 | the whole run that fails, to files and to databases | a Hoare logic over the run's statements: every step succeeds unless one of the statements is refused; totality of every computation between two statements |
| C104, C105 | the states between two statements; a destination that refuses statements which break a foreign key | the run stopped at a statement is a run on a destination that refuses the next one, so C101, generalised to runs that fail, applies to every prefix; lockstep simulation of the checked and the unchecked run |
| C106 | the text of a file (Model/Json.v) against a grammar of JSON (Spec/JsonSpec.v) | the grammar is deterministic, by mutual induction; every written line is in it, character by character |
| C107 | runs without taken keys (Spec/FinishSpec.v: `conflict_free`) that reach the end | the values written in a unique key are an injective image of the source's, copy by copy, and lie above those there; so no insertion is refused, and C102 leaves no other reason to stop; C105 for destinations that check foreign keys |
| C108 | two runs, on sources that differ in hidden columns only (Spec/HiddenSpec.v) | relational semantics: temporary tables and results of the two runs are alike row by row, by induction on conditions and on the order of materialisation; the filters map alike rows to equal ones; then the two programs are equal step by step |
| C109 | two runs, the second not truncating, on what the first left and other rows (Spec/RepeatSpec.v) | both runs compute the same rows up to touched columns; every row offered by the second clashes with one the first inserted or found, by induction on the batches |
| C110 | an uninterrupted run; an initial part of the statements of another; a run from where these lead | insertion that leaves out clashing rows: what is there after a prefix and then everything is what is there after everything, by induction on the rows |
| C111 | sampler.py:872-935, 946-1069 with a source that may be different for every statement: a history `h k n` (rows of table `n` seen by the `k`-th statement reading the source) | each query reads its own table and samples only; the run on the history equals the run on the state holding every table at its moment, by induction on the two loops |
| C112 | the runs of C111 with the planner's plans | the mixed state of C111 satisfies a foreign key if the referenced table is read later and nothing referred to is removed, or the query itself asks for it; then C87 on that state. Refuted otherwise: two witnesses |
| C88, C93, C95 | `load_config` (Model/ConfigIO.v) | walk along the position of the option; merging with a default; for C95 a document written from the configuration (Spec/ConfigDocSpec.v) and one lemma per section |
| C113 | two `subset` commands by two processes (Spec/ProcessSpec.v: own set orders, random states, random numbers), from destinations that differ if they are truncated | C79 for the plans, then as for C91 |
| C114 | the runs of C111 on a connection of `database_engine`; what a statement sees by driver and isolation level (Model/Isolation.v) | PostgreSQL: C111 for an unchanging source, then C87. MySQL: tables that are not copied to temporary tables are all read later (added to C111), so at one state; witness for the others |
| C115, C116 | two plans of the planner and their samples (C13-C23), the configurations differing in the settings of targets and in constraints, the sources in rows (Spec/WidenSpec.v) | both plans have the same order (it depends on the names of the targets only); induction along it, by the kinds of tables of C16-C20. Further targets change the order: witness for C116 |
| C117, C118 | `_parse_args` with the parts of `argparse` it uses, on lists of words (Model/Args.v), in front of `main` | a grammar of command lines (Spec/ArgsSpec.v); the parser accepts its lines and no others, by induction on the words. C118: an invariant of runs with the flags off (no deletion, no creation), lifted through `main`; a flag that is on was said by some word |
| C119 | as C115: the source of the second sample is the first sample; for whole runs, the rows read from the first destination (Spec/AgainSpec.v) | induction along the common order: each query of the second plan keeps every row of its source; runs that just copy leave a sample (C86), with which both runs are compared (also for C115). A target with an amount that earlier tables refer to: witness |
| C120 | the format of plan files as relations between data and plans (Spec/PlanDocSpec.v), next to the reader of Model/PlanIO.v | the reader's results are exactly what the format says, or it ran out of fuel: by induction on the fuel, field by field; fuel suffices (C30); with C30, what the planner writes |
| C121, C122 | two configurations and two schemas that list the same things in different orders, or agree on the chosen tables (Spec/ListingSpec.v) | the metadata of both is the same up to order, through selection, inference, editing and reverse keys; foreign keys are totally ordered, so sorting forgets the order; the order of tables depends on the graph only (as C79) |
| C123 | two sources that agree on the tables the queries of the plan mention (Spec/ReadsSpec.v) | a statement sees the tables it refers to only, by induction on statements; the references of a built statement are those of its identifiers, sampled ones stand for temporary tables; both runs then do the same step by step |
| C124 | chains of references that end in a target's row (Spec/ReasonSpec.v), in samples and in the destinations of whole runs (`copies` of Spec/AgainSpec.v) | induction along the order of the plan: each statement of a table that is no target joins a parent or child sampled earlier; the destination rows have the same values |
| C125 | two samples taken with one plan; two runs of one plan on one source | the statement of a table that is no target has no random part, so it is a function of what was sampled earlier, up to order |
| C126 | passthrough tables and targets with all rows and no amount, in the destination | the sample is the source up to order (C18 and C78 say so of samples); each row arrives once with its values |
| C127 | `fnmatch` (Model/Fnmatch.v) and shell patterns as an inductive relation (Spec/PatternSpec.v) | induction on the pattern; reading a set gives one result only. Refuted for sets that begin with a range running backwards |
| C128 | planner and sampler with this `fnmatch` | a name without "[" stands for itself (induction). Refuted for names with "[": left out of the plan, or a KeyError after truncation |
| C129 | Python's operators on the values of columns and conditions (Model/PyCompare.v) in place of the oracles of Model/Filters.v | by cases on types; induction on texts for their order and for "part of"; patterns by C127. Refuted for identity ("is") with anything but NULL |
| C130 | filter chains with these operators; whole runs | induction on the chain: safe filters keep the invariant that a row is as long as its columns and has no values of further types. Refuted by a run in which a NULL is compared |
| C131 | destinations and runs as before; a history is any sequence of runs up to any of their statements (Spec/HistorySpec.v) | induction on the history, C104 for each run; rows belong to tables as a further invariant, for tables that are created |
| C132 | the same | induction on the history; the statements a run sends (C118) for what stays, C44 for keys; what an interrupted run has stored is a part of what it would write |
| C133 | destinations and runs as before; a schedule interleaves the statements of any number of runs and changes by other programs (Spec/SharedSpec.v). What a run sends is decided by the tables and keys it finds when it begins; a statement is executed against the destination as it is by then. A run that would fail alone at some statement is not continued beyond it | induction on the schedule: rows only get added (or replaced by rows with the same key), and a run inserts referred-to rows before those that refer to them, as in C104 |
| C134 | the same | induction on the schedule: an INSERT that succeeds where keys are errors has stored its rows; refuted for `skip` by two merging runs |
| C135 | the metadata a run loads (Model/Sampler.v) against the schema, the plan and the inference mode (Spec/RunKeysSpec.v) | C24 and C25 for what is loaded and inferred; C12 for planned tables |
| C136 | the ways to write a configuration (Spec/ConfigWaysSpec.v, Spec/ScalarSpec.v), next to the reader of Model/ConfigIO.v | section by section, as for C95: what was read is what every way to write it is read as |
| C89-C91, C94 | `main` (Model/Main.v): files, standard input, places, exit status | inversion of each command; C91: the commands are run by different processes, with their own set orders and random states; C79, C30 and C35 for plan-then-sample, then every step of the two runs (results, multiplied columns, merge offsets, filters, INSERTs) is a function of the plan up to the order of its queries; two-run congruence for C94 |

No property of the list is outside what the model can express. Properties of status "partial" are either false of the
code (then there is a `_refuted` witness beside the `_partial` theorem) or the missing part is named in MANIFEST.json.

## Trusted base

* Coq's kernel, version 8.16.1. No plugins, no axioms, no functors, no kernel check switched off.
* `Print Assumptions` stands beneath every property theorem in `rocq/theories/Props/`. Each prints "Closed under the
  global context": no theorem depends on an axiom, not even one of the standard library.
* The fidelity of the model, that is, of what the next section lists.

## Modelled / not modelled

Modelled, with the lines cited beside each definition:

| Code | Model |
|---|---|
| `solver.py` (all) | Model/Solver.v |
| `metadata.py` (all; `track_new_table` is part of `db_create` in Model/Output.v) | Model/Metadata.v |
| `planner.py` (all but log lines) | Model/Planner.v |
| `plan_model.py`: classes, `simplify`, `build`, dump and load | Model/PlanModel.v, PlanBuild.v, PlanIO.v |
| `sampler.py`: temporary names, materialisation, compaction, multiplicity, filters, outputs, `sample` | Model/TempNames.v, Materialize.v, Multiply.v, Output.v, Sampler.v, Json.v (text of files) |
| `sampler.py`: the same run, each statement seeing its own state of the source | Model/Live.v |
| `filters.py` (all; Faker, random and plugins are parameters) | Model/Filters.v |
| `common.py`: URLs, engines, table names, `pydantic_search` | Model/Config.v, Names.v |
| `config_model.py`, the configuration classes of `common.py` and `filters.py` | Model/ConfigIO.v, Planner.v |
| `__main__.py` after the arguments were parsed | Model/Main.v |
| `__main__.py`: `_parse_args`, exit status of wrong lines | Model/Args.v |

Trusted models of the outside world, not of code in /repo:

* Model/SqlAlgebra.v: what a database answers to the SELECT statements SQLAlchemy sends (joins, EXISTS, GROUP BY, UNION,
  ORDER BY random() LIMIT, three-valued logic). Which rows a limit keeps is an arbitrary function.
* Model/Dest.v: what a destination does with a statement. A statement is one transaction: it happens or it does not; the
  destination may refuse any statement (`accepts` is arbitrary). Columns that are not given get arbitrary values
  (`dflt`). `create_all` is one step. A destination enforces primary and unique keys; whether it enforces foreign keys is
  part of `accepts`. A line written to a file is one event (files are written in order; buffering is not modelled).
  PostgreSQL reads the table name given to `pg_get_serial_sequence` without quotation marks: A-Z become a-z, and names with
  white space, quotation marks or dots are not found (`serial_table`).
* Model/Isolation.v: which committed state a statement sees, by database and isolation level. Uncommitted changes, locks and
  serialisation failures are not modelled.
* Model/Args.v contains `argparse` as it is in Python 3.11.10 (options, abbreviations, letters put together, values, `--`, subcommands, help);
  `tools/argparse_check.py` compares it with the standard library's on random command lines. Other versions differ in details of `--`.
  Which words look like negative numbers is a parameter.
* YAML carries plain data faithfully up to the order of the keys of a mapping.
* pydantic: missing and unknown fields, field types, unions in order, validators of the code. Its lax conversions for fields of type bool,
  int and float are modelled (words such as "yes", 0 and 1 for flags; flags, floats without fraction and texts for integers; integers and texts
  for floats; Spec/ScalarSpec.v says which). Of the texts of numbers only a minus sign or none, digits and, for floats, a point with digits are
  modelled: texts with white space, underscores, plus signs or exponents, and flags in place of floats, count as invalid.
  Values of conditions (a union) are taken as they are, flags as 1 and 0; flags as constants of filters count as invalid.
* Model/Fnmatch.v contains `fnmatch.fnmatch` as it is in Python 3.11.10; `tools/fnmatch_check.py` compares it with the standard library's on random patterns.
  All theorems but C127 to C130 hold for any function in its place.
* Model/PyCompare.v contains Python's `is`, `in`, `==`, `<`, ... for None, bool, int, float (exact), str and datetime; identity of other objects and the operators of further types stay parameters; `tools/compare_check.py` compares it with Python.
* `os.getenv`, `int()`, `fnmatch`, `re.sub`, Faker, random generators, set iteration order: parameters of the
  definitions, arbitrary in the theorems unless a hypothesis of the theorem says otherwise.

Not modelled: logging (and with it `--verbose`), help texts, progress bars, the text of SQL and of error messages, column types and CHECK constraints,
non-unique indexes, numeric overflow.
Concurrent writers of the destination are modelled for C133 and C134 only, for runs without --truncate; all other theorems are about runs that
have the destination to themselves.
Concurrent writers of the source are modelled for C111, C112 and C114 only (Model/Live.v, Isolation.v); all other theorems are about a source
that does not change during the run, and C111 says which state that is if it does.
Raw SQL in a plan is an arbitrary function of its text and parameters.
