#!/usr/bin/env python3
"""Source of properties.jsonl (run: python3 tools/props.py > properties.jsonl)."""
import json
P = []
def p(title, statement, quantifier, why, *anchors):
    P.append(dict(id="C%02d" % (len(P) + 1), title=title, statement=statement,
                  quantifier=quantifier, why_tests_cant=why, anchors=list(anchors)))

# --- solver -----------------------------------------------------------------
p("toposort lists every node once, dependencies first",
  "When toposort(G) returns, the result contains every node of G exactly once and, for every edge u->v of G, v occurs before u.",
  "all finite graphs whose edges stay inside the graph, all set iteration orders",
  "Graph space is unbounded and the working order depends on hash-randomised set iteration.",
  "subsetter/solver.py:toposort", "subsetter/solver.py:reverse_graph")
p("toposort fails exactly on cyclic graphs",
  "toposort(G) raises ValueError if and only if G contains a directed cycle (self-loops included); it always terminates and never raises KeyError on a graph whose edges stay inside the graph.",
  "all finite graphs, all set iteration orders",
  "Completeness of failure detection ranges over all graphs; a test can only show particular cycles are caught.",
  "subsetter/solver.py:toposort")
p("reverse_graph flips every edge and nothing else",
  "reverse_graph(G) has the nodes of G in the same order and an edge v->u exactly when G has u->v; with union=True it has exactly the edges of G and their reverses. It raises KeyError exactly when some edge leaves the node set.",
  "all finite graphs", "Unbounded graph space.",
  "subsetter/solver.py:reverse_graph")
p("toposort_reachable returns exactly the reachable nodes in topological order",
  "When toposort_reachable(G, sources, ignore) returns, the list contains, once each, exactly the nodes reachable from a source by a non-empty path all of whose nodes after the source are outside ignore, and every edge between two listed nodes goes from an earlier to a later position.",
  "all finite graphs, source lists, ignore sets, set iteration orders",
  "DFS with in-place weight accumulation; correctness of the weight-based sort is a global invariant over all DAG shapes.",
  "subsetter/solver.py:toposort_reachable")
p("toposort_reachable raises exactly on a reachable cycle and reports a real one",
  "toposort_reachable raises CycleException if and only if the non-ignored part of the graph reachable from the sources contains a directed cycle; the reported list is a non-empty list of distinct nodes, each having an edge to the next and the last to the first. It always terminates.",
  "all finite graphs, source lists, ignore sets, set iteration orders",
  "Needs soundness and completeness of cycle detection for every graph; termination cannot be tested.",
  "subsetter/solver.py:toposort_reachable", "subsetter/solver.py:CycleException")
p("order_graph gives each node exactly one sampling direction",
  "If the source has no incoming edges or no outgoing edges and order_graph(G, source) returns, the source is first, no node repeats, and every other node u has either at least one earlier in-neighbour and no earlier out-neighbour, or at least one earlier out-neighbour and no earlier in-neighbour.",
  "all finite graphs and sources with edges on one side only, all set iteration orders",
  "This docstring guarantee is what makes one query per table possible; it is a global property of the alternating traversal.",
  "subsetter/solver.py:order_graph")
p("order_graph covers exactly the weakly connected component",
  "If the source has no incoming or no outgoing edges and order_graph returns, a node is in the result if and only if it is connected to the source ignoring edge direction.",
  "all finite graphs and one-sided sources",
  "Loop stops at the first empty layer: that this loses nothing is an invariant over all graphs.",
  "subsetter/solver.py:order_graph")
p("order_graph fails exactly when the component has a foreign-key cycle",
  "If the source has no incoming edges or no outgoing edges, order_graph raises CycleException if and only if some node weakly connected to the source lies on a directed cycle; the reported nodes form a directed cycle of G read forwards or backwards. It terminates on every graph.",
  "all finite graphs and one-sided sources",
  "README promises a plan whenever there are no FK cycles: needs completeness over all schemas.",
  "subsetter/solver.py:order_graph", "README.md:Limitations")
p("order_graph is independent of set iteration order",
  "Two runs of order_graph on the same graph with arbitrary, different iteration orders of the edge sets (as Python hash randomisation produces) return the same list, or both raise CycleException.",
  "all finite graphs, all pairs of set iteration orders",
  "Hash seeds vary per process; a test sees one seed.",
  "subsetter/solver.py:toposort_reachable", "subsetter/solver.py:order_graph")
p("order_graph guarantees extend to arbitrary sources",
  "The docstring of order_graph states its ordering guarantees for any source node, including one with both incoming and outgoing edges.",
  "all finite graphs and all sources",
  "A counterexample requires a source with both kinds of edges, which no test uses.",
  "subsetter/solver.py:order_graph")
# --- planner ----------------------------------------------------------------
p("Planning succeeds on every acyclic schema",
  "With dependencies included, valid targets, no foreign keys into ignored tables, passthrough tables closed under foreign keys and no table constraints, plan() returns a plan whenever the tables connected to the targets carry no foreign-key cycle, and raises ValueError if they carry one; it never raises KeyError or AssertionError.",
  "all schemas, selections, targets, ignore/passthrough/extra/ignored foreign key settings",
  "Internal assertions and dictionary accesses must be safe for every schema and configuration.",
  "subsetter/planner.py:Planner._plan_internal", "subsetter/planner.py:Planner._plan_table", "README.md:Limitations")
p("The plan covers exactly the passthrough and connected tables",
  "A returned plan has exactly one query per existing passthrough table and per non-ignored non-passthrough table connected to a target by foreign keys through such tables, and no other; the query of a table reads from that table; the plan's passthrough list is the existing passthrough tables.",
  "all schemas and configurations for which a plan is returned",
  "Set-of-tables equality over every schema shape.",
  "subsetter/planner.py:Planner._plan_internal", "subsetter/planner.py:Planner._solve_order")
p("Sampling a plan never breaks a foreign key",
  "For every source database satisfying its foreign keys and every outcome of random choices, if every planned table is populated by evaluating its planned query against the source and the other populated tables, then every populated row whose foreign key columns are all non-null has a matching row in the populated referenced table, for every foreign key the planner considered between planned tables (schema, inferred or extra, minus ignored), provided no target combines 'all' with 'amount'.",
  "all schemas, configurations, source contents, random outcomes",
  "The core promise of the tool; quantifies over all databases and schemas.",
  "subsetter/planner.py:Planner._plan_table", "subsetter/plan_model.py:SQLStatementSelect.build", "README.md:FAQ")
p("Children are sampled maximally",
  "A table sampled from already sampled parents receives every source row satisfying the table's constraints for which each of those parents contains a match (rows with NULL foreign keys aside); a row is left out only if including it would lack a parent, violate a constraint, or it has a NULL foreign key.",
  "all schemas, configurations, source contents",
  "Exact characterisation of the sampled set for all data.",
  "subsetter/planner.py:Planner._plan_table", "README.md:How does the subsetter use foreign keys?")
p("Maximality holds even for nullable foreign keys",
  "README: a table sampled from its parents receives the maximal set of rows that can be included without violating foreign key constraints - which includes rows whose foreign key columns are NULL.",
  "all schemas with nullable foreign keys, all source contents",
  "Needs data with NULL foreign keys; no test dataset has any.",
  "subsetter/plan_model.py:SQLStatementSelect.build", "README.md:How does the subsetter use foreign keys?")
p("Parents are sampled minimally",
  "A non-target table sampled from already sampled children receives exactly the source rows referenced by at least one of those sampled child rows.",
  "all schemas, configurations, source contents",
  "Exact characterisation of the sampled set for all data.",
  "subsetter/planner.py:Planner._plan_table", "README.md:How does the subsetter use foreign keys?")
p("A target's filters are intersected",
  "A target that no sampled table references receives exactly the rows satisfying all of its configured sql/like/in/percent filters (all rows if 'all' is set and no amount is given), limited to at most 'amount' rows when amount is given.",
  "all target configurations and source contents",
  "All combinations of filters over all data.",
  "subsetter/planner.py:Planner._plan_table", "subsetter.example.yaml:targets")
p("'all' overrides every other target setting",
  "A target with 'all: true' samples the whole table whatever other settings are given (subsetter.example.yaml: 'except all which overrides everything').",
  "all target configurations",
  "Combination of options not covered by tests.",
  "subsetter/planner.py:Planner._plan_table", "subsetter.example.yaml:targets")
p("A referenced target samples the union of its filter and the references",
  "A target referenced by sampled tables receives exactly the rows selected by its own filters plus the rows those sampled tables reference, and nothing else (README: union; example config: 'Additional rows will only be sampled if a row from another targetted table has a dependence on them').",
  "all schemas with a target referenced by another sampled table, all source contents",
  "Depends on the union simplifier for every statement shape.",
  "subsetter/plan_model.py:SQLStatementUnion.simplify", "subsetter/planner.py:Planner._plan_table", "README.md:How do multiple targets work")
p("Table constraints are enforced or rejected",
  "For every non-passthrough planned table with configured table_constraints, either planning fails with ValueError or every sampled row satisfies all the constraints.",
  "all configurations and source contents",
  "Includes the combination of constraints with targets, which tests never exercise.",
  "subsetter/planner.py:Planner._plan_table", "subsetter.example.yaml:table_constraints")
p("Unsafe configurations are rejected",
  "With dependencies included, planning fails with ValueError if a non-ignored table has a (considered) foreign key into an ignored table, if an existing passthrough table has a foreign key to a table not listed as passthrough, if a (non-empty) target name is not that of a selected, non-ignored, non-passthrough table, or if a constrained non-'all' table would be sampled from references to it; otherwise these checks do not reject.",
  "all schemas and configurations",
  "Rejection must be exact for every schema.",
  "subsetter/planner.py:Planner._check_ignore_tables", "subsetter/planner.py:Planner._check_passthrough_tables", "subsetter/planner.py:Planner._solve_order")
p("ignore_fks and extra_fks edit exactly the named relationships",
  "After processing, each selected table's foreign keys are its previous ones minus those pointing at a table named in an ignore_fks entry for it, followed by the valid extra_fks entries for it in order; entries naming unknown tables or columns change nothing.",
  "all schemas and configurations",
  "Exactness for all lists of entries.",
  "subsetter/planner.py:Planner._add_extra_fks", "subsetter/planner.py:Planner._remove_ignore_fks")
p("include_dependencies: false plans without outside tables",
  "With include_dependencies false, a selected table may have foreign keys to unselected tables and planning still succeeds, leaving those relationships out.",
  "all schemas and selections with foreign keys leaving the selection",
  "No test sets include_dependencies to false.",
  "subsetter/metadata.py:DatabaseMetadata.compute_reverse_keys", "subsetter.example.yaml:include_dependencies")
# --- metadata ---------------------------------------------------------------
p("Selected tables are closed under dependencies",
  "from_engine returns exactly the tables matching a select pattern plus, when closing forward (backward), every table reachable along (against) foreign keys from them; each table once, matching tables first; the reported extra tables are exactly the non-matching ones.",
  "all database schemas, pattern lists and closure flags",
  "Transitive closure over arbitrary schema graphs, with a queue mutated while iterated.",
  "subsetter/metadata.py:DatabaseMetadata.from_engine")
p("Foreign key inference only adds unambiguous references",
  "infer_missing_foreign_keys adds to a table exactly the references from each of its columns c to the unique other table (in the same schema, or anywhere with infer_all) whose primary key is exactly (c), when that reference is not already present; ambiguous primary keys (two or more tables) never produce a reference; running it again adds nothing.",
  "all sets of tables", "Uniqueness and exactness over all schemas.",
  "subsetter/metadata.py:DatabaseMetadata.infer_missing_foreign_keys")
p("Reverse keys mirror foreign keys",
  "After compute_reverse_keys each table's reverse keys are exactly the mirror images of all foreign keys pointing at it, with multiplicity; it raises KeyError exactly when some foreign key points outside the table set.",
  "all sets of tables", "Unbounded schema space.",
  "subsetter/metadata.py:DatabaseMetadata.compute_reverse_keys")
# --- plan model -------------------------------------------------------------
p("Where-clause simplification preserves meaning",
  "For every where clause, row, database and random outcome, the simplified clause evaluates to the same SQL truth value (true, false or unknown) as the original.",
  "all where-clause trees including nested sub-queries, all rows and databases",
  "Tree-shaped input with three-valued logic.",
  "subsetter/plan_model.py:SQLWhereClauseAnd.simplify", "subsetter/plan_model.py:SQLWhereClauseOr.simplify", "subsetter/plan_model.py:SQLWhereClauseRandom.simplify", "subsetter/plan_model.py:SQLWhereClauseIn.simplify")
p("Statement simplification preserves the selected rows",
  "For every statement the simplified statement selects the same set of rows as the original.",
  "all statements, databases and random outcomes",
  "Union merging must be right for every combination of joins, limits and columns.",
  "subsetter/plan_model.py:SQLStatementSelect.simplify", "subsetter/plan_model.py:SQLStatementUnion.simplify")
p("Joins select by existence, whatever the join strategy",
  "The SQL built for a select with joins returns exactly the source rows that satisfy the where clause and match some row of every joined table (inner) or of at least one joined table (outer), each such row as often as it occurs in the source table, independent of the half_unique flags, when the from table's primary key (if any) is unique.",
  "all table contents, join lists, flags, primary keys",
  "Equivalence of join+group-by and EXISTS forms over all data, NULLs included.",
  "subsetter/plan_model.py:SQLStatementSelect.build", "subsetter/plan_model.py:SQLLeftJoin")
p("A plan survives dumping and loading",
  "Dumping a plan to the plain data written by 'subsetter plan' (unset fields excluded, aliases used) and validating that data as in 'subsetter sample' yields the same plan.",
  "all plans whose fields were set as the planner sets them", "Round-trip over a recursive format with discriminated unions.",
  "subsetter/__main__.py:_main_plan", "subsetter/__main__.py:_main_sample", "subsetter/plan_model.py:SubsetPlan")
# --- sampler: materialisation ------------------------------------------------
p("Temporary table names never collide",
  "One TempTableCreator never generates the same name twice, whatever sequence of requested names it is given.",
  "all sequences of requested names",
  "Unbounded histories; names are sanitised, truncated and suffixed.",
  "subsetter/sampler.py:TempTableCreator._generate_name")
p("Temporary table names never collide on case-insensitive databases",
  "The names one TempTableCreator generates are pairwise distinct even when compared case-insensitively, as sqlite and some MySQL installations do.",
  "all sequences of requested names", "Needs tables differing only in case.",
  "subsetter/sampler.py:TempTableCreator._generate_name")
p("Materialisation happens in dependency order",
  "For every plan whose sampled references stay inside the plan and are acyclic, the materialisation order lists exactly the tables that some query references as sampled or that are needed for compaction joins, each once, and each after all tables its own query references; it raises ValueError exactly on cyclic references.",
  "all plans (planner-generated or hand-edited)", "Arbitrary reference graphs.",
  "subsetter/sampler.py:Sampler._materialization_order", "subsetter/sampler.py:Sampler._materialize_tables")
p("Every query sees the same sample that is written out",
  "In one run, the rows copied to the output for a table are exactly the rows every other query saw when it referred to that table as sampled, for every outcome of the random choices made during the run: referenced tables are evaluated once.",
  "all plans, source contents, random outcomes, orders",
  "Random sampling makes double evaluation invisible to tests most of the time.",
  "subsetter/sampler.py:Sampler._materialize_tables", "subsetter/sampler.py:Sampler._copy_results")
p("Table order in the plan does not matter",
  "Two plans with the same queries in different order produce the same rows for each table (for queries without random choices) (CHANGELOG: 'Ordering of tables in the produced plan no longer matters').",
  "all acyclic plans and permutations", "Factorially many orders.",
  "subsetter/sampler.py:Sampler._materialization_order", "CHANGELOG.md")
p("MySQL temporary tables are never reopened and always exist",
  "On MySQL no single statement refers twice to the same temporary table copy, and every copy referred to has been created.",
  "all plans, schemas and compaction settings",
  "Reference counts must match for all combinations of joins and compaction.",
  "subsetter/metadata.py:DatabaseMetadata.sql_build_context", "subsetter/sampler.py:Sampler._materialization_order")
# --- multiplicity -----------------------------------------------------------
p("Multiplied keys never collide",
  "With multiplier m, distinct (key, copy number) pairs map to distinct new keys, so copies of a sample never share a multiplied key value; NULL stays NULL.",
  "all integers, all m >= 1", "All integers including negatives.",
  "subsetter/sampler.py:_multiply_column")
p("Multiplicity copies keep foreign keys intact",
  "With multiplicity m > 1, whenever a multiplied parent key is referenced by a foreign key, the referencing column is multiplied too, so copy i of a child refers to copy i of its parent.",
  "all schemas and multiplicity settings", "Closure over all foreign key graphs; tests do not exercise multiplicity at all.",
  "subsetter/sampler.py:Sampler._get_multiplied_columns")
p("Multiplied column computation terminates and is a closed set",
  "_get_multiplied_columns terminates and returns, for every non-passthrough non-ignored planned table, the least set of columns containing its configured extra columns and non-ignored primary key columns and closed under same-named foreign key references; it raises ValueError when a passthrough or ignored table would need multiplication or a multiplied column is not integral; with multiplier <= 1 nothing is multiplied.",
  "all schemas and multiplicity settings", "Fixpoint loop over arbitrary schemas.",
  "subsetter/sampler.py:Sampler._get_multiplied_columns")
# --- compaction -------------------------------------------------------------
p("Compaction numbers the sample densely",
  "A compacted column of a table with N sampled rows takes exactly the values start_key .. start_key+N-1, one per row, increasing with the primary key (for a table whose own references to compacted columns, if any, each identify one row; C42 is about the others).",
  "all sampled contents, start keys", "All table sizes and orders.",
  "subsetter/sampler.py:Sampler._materialize_tables", "subsetter/sampler.py:Sampler._copy_results")
p("References follow compacted keys",
  "When a column referenced by a single-column foreign key is compacted and unique in the sample, every child row is written exactly once and its foreign key is the compacted key of the very row it referenced (NULL stays NULL); all other columns are unchanged and the internal id column never appears in the output.",
  "all sampled contents and schemas with single-column references", "Join correctness over all data.",
  "subsetter/sampler.py:Sampler._copy_results", "README.md:Identifier Compaction")
p("References follow compacted keys in composite foreign keys",
  "README: any table with a foreign key referencing a compacted column has the involved column adjusted to maintain semantic consistency - also when the foreign key is composite.",
  "all schemas with composite references", "No test compacts a column of a composite key.",
  "subsetter/sampler.py:Sampler._copy_results")
p("A foreign key column is never compacted locally",
  "No configuration makes the sampler overwrite a foreign key column with the row number of its own table: such configurations are rejected.",
  "all schemas and compaction settings", "The check is skipped for some settings no test uses.",
  "subsetter/sampler.py:Sampler._get_compact_columns")
# --- merge ------------------------------------------------------------------
p("Merging never collides with existing rows",
  "In merge mode, for every non-passthrough table with a single integer primary key and non-negative source keys, every written key is greater than every key existing at the destination, and distinct source keys stay distinct. (Where the key is itself a reference, provided the existing keys resolve.)",
  "all destination contents, all non-negative source keys", "All integer ranges.",
  "subsetter/sampler.py:DatabaseOutput.prepare", "subsetter/sampler.py:DatabaseOutput.output_result_set")
p("Merging shifts references consistently",
  "In merge mode a foreign key value to a merged table's primary key is shifted by the same offset as that primary key, and references to passthrough tables are not shifted, when each column takes part in at most one single-column foreign key.",
  "all schemas, plans, destination contents", "All foreign key graphs and contents.",
  "subsetter/sampler.py:DatabaseOutput.prepare")
p("Merge offset is the documented formula",
  "README: new_id = source_id + max(0, existing_ids...) + 1 for every non-passthrough table.",
  "all destination contents", "Boundary contents (empty table, negative keys).",
  "subsetter/sampler.py:DatabaseOutput.prepare", "README.md:Merging")
p("Merging works with relationships outside the plan",
  "A plan whose tables have (ignored) foreign keys to tables outside the plan can be sampled with merge or --create.",
  "all schemas and plans", "Needs ignore_fks together with merge/create.",
  "subsetter/sampler.py:DatabaseOutput.prepare", "subsetter/sampler.py:DatabaseOutput.create")
# --- output -----------------------------------------------------------------
p("Every row is written exactly once, in order, in bounded batches",
  "For any number of result rows and any multiplier, the batches sent to the destination concatenate to exactly the transformed rows in order (each source row multiplier times, consecutively); every batch is non-empty and at most DESTINATION_BUFFER_SIZE+1 rows.",
  "all row counts, multipliers, buffer sizes", "Boundary behaviour for every count.",
  "subsetter/sampler.py:DatabaseOutput.output_result_set")
p("A crash leaves a prefix",
  "Whatever the point at which the process dies during copying, each destination table has received a prefix of its rows, all tables before the current one in insert order are complete, and all later ones have received nothing.",
  "all crash points, all data", "Crash points are unbounded.",
  "subsetter/sampler.py:DatabaseOutput.output_result_set", "subsetter/sampler.py:Sampler._copy_results")
p("Parents are written before children",
  "The database insert order contains each planned table existing at the destination exactly once, and every table after all tables it references at the destination; at any crash point every written row's foreign keys between sampled tables are satisfied if the complete sample satisfies them.",
  "all destination schemas, plans, crash points", "All orders and crash points.",
  "subsetter/sampler.py:DatabaseOutput.insert_order", "subsetter/metadata.py:DatabaseMetadata.toposort")
p("Truncation deletes children before parents and stays in the closure",
  "Truncation empties exactly the destination tables that are sample targets or reference one directly or indirectly, each once, every table before any table it references; other tables are untouched.",
  "all destination schemas", "All schema graphs.",
  "subsetter/sampler.py:DatabaseOutput.truncate")
p("Only tables about to be sampled are truncated",
  "README: if --truncate is specified any tables about to be sampled will be first truncated (and no others).",
  "all destination schemas", "Needs destination tables outside the plan.",
  "subsetter/sampler.py:DatabaseOutput.truncate", "README.md")
p("No planned table is silently skipped",
  "A successful run writes the sample of every planned table; with --create no planned table is skipped.",
  "all plans and destination schemas", "Requires destination lacking a table.",
  "subsetter/sampler.py:DatabaseOutput.insert_order", "subsetter/sampler.py:DatabaseOutput.create")
p("Distinct tables stay distinct after remapping",
  "Whatever the remap rules do, either all planned tables map to pairwise distinct destination tables or construction fails with ValueError.",
  "all rename functions and plans", "Rename rules are arbitrary regex substitutions.",
  "subsetter/sampler.py:DatabaseOutput.__init__", "subsetter/sampler.py:DatabaseOutput._remap_table")
p("Conflict strategies act as documented",
  "For inserts into a table with a primary key: 'error' fails if some key exists and otherwise adds all rows; 'skip' keeps existing rows and adds the new keys; 'replace' overwrites the given non-key columns of existing rows; no strategy alters rows with other keys; a table without primary key, or replace without non-key columns, falls back to error/skip respectively.",
  "all table contents, batches, strategies", "All contents and batches, duplicates inside a batch included.",
  "subsetter/sampler.py:ConflictInsert")
p("Omitting a primary key column is possible with database output",
  "The omit filter can be used for a column that cannot be set directly, e.g. an auto-generated primary key (subsetter.example.yaml).",
  "all filter configurations", "Needs an omit filter on a primary key with database output.",
  "subsetter/sampler.py:ConflictInsert.__init__", "subsetter.example.yaml:omit")
p("Directory output writes one line per row copy",
  "Directory output writes per table exactly one JSON object per source row and copy, in order, keyed by the filtered column names, with multiplied columns mapped.",
  "all result sets, filters, multipliers", "Unbounded inputs.",
  "subsetter/sampler.py:DirectoryOutput.output_result_set")
p("Sequence state ends past the written keys",
  "After copying a table on PostgreSQL the next generated key is greater than every key written by the run, unless the session's own last value is above that of the sequence.",
  "all written keys and sequence states", "All sequence states.",
  "subsetter/sampler.py:_autoincrement_update")
p("Sequences never move backwards",
  "Copying a table never lowers its sequence below its current value.",
  "all sequence and session states", "Needs a fresh session against an advanced sequence.",
  "subsetter/sampler.py:_autoincrement_get", "subsetter/sampler.py:_autoincrement_update")
p("Nothing is destroyed when validation fails",
  "If filter validation, multiplicity analysis, remapping or insert ordering fails, the destination has not been truncated and no row has been written.",
  "all configurations, schemas", "Fault ordering over all failure causes.",
  "subsetter/sampler.py:Sampler.sample")
# --- filters ----------------------------------------------------------------
p("Filter chains track columns exactly",
  "For every constructible filter chain and every row matching its input columns, when the chain returns, the output has exactly one value per output column.",
  "all filter chains and rows", "Chains compose arbitrarily.",
  "subsetter/filters.py:FilterViewChain", "subsetter/filters.py:FilterColumns", "subsetter/filters.py:FilterOmit")
p("Filters leave other columns alone",
  "A column not named by any filter of a chain appears in the output with its input value.",
  "all filter chains and rows", "All chains and rows.",
  "subsetter/filters.py:FilterColumns.filter_view")
p("Anonymised columns never leak",
  "If a built-in overwriting filter (null, constant, random, uuid, faker) acts on a column, and no earlier filter moved or inspected it, the output of the whole chain is independent of the column's original value: two rows differing only there produce identical outputs under the same random choices.",
  "all chains, rows and random streams", "Noninterference relates pairs of runs over all values.",
  "subsetter/filters.py:FilterColumns.filter_view", "subsetter/filters.py:FilterNull", "subsetter/filters.py:FilterConstant")
p("Filters that return too few values cannot leak",
  "Every acted-on column is replaced whatever a filter plugin returns.",
  "all plugin return lengths", "Plugin behaviour is arbitrary.",
  "subsetter/filters.py:FilterColumns.filter_view", "subsetter/filters.py:FilterPlugin")
p("Omitted columns disappear and only those",
  "The omit filter removes exactly the named columns and preserves the order and values of the others.",
  "all column lists and rows", "All lists.",
  "subsetter/filters.py:FilterOmit")
p("Filter construction rejects exactly the bad configurations",
  "A column filter is rejected with ValueError exactly when it names no column, a column twice, or a column absent at that point of the chain.",
  "all column lists and configurations", "Exactness over all lists.",
  "subsetter/filters.py:_validate_and_index")
p("Multiplex applies the first matching condition",
  "A multiplex filter applies exactly the filter of the first condition matching the column's value, leaves the row unchanged if none matches, and never changes the columns.",
  "all condition lists and rows", "All lists.",
  "subsetter/filters.py:FilterMultiplex", "subsetter/filters.py:MultiplexCondition")
p("Zeroing keeps type and hides value",
  "The zero filter maps every value to the zero of its own type (None stays None), so the result depends only on the type (and timezone) of the input, and fails for unsupported types.",
  "all values", "All values.",
  "subsetter/filters.py:FilterZero")
p("Random strings stay inside alphabet and length",
  "random_string yields strings of exactly the configured length over the configured alphabet; an unknown/custom alphabet that is empty is rejected.",
  "all lengths, alphabets, random streams", "All random streams.",
  "subsetter/filters.py:FilterRandomString")
# --- common / main ----------------------------------------------------------
p("Table names round-trip",
  "parse_table_name('s.t') is (s, t) for every schema s without a dot and every table name t; it fails with ValueError exactly on names without a dot.",
  "all strings", "All strings.",
  "subsetter/common.py:parse_table_name")
p("Connection settings resolve by precedence",
  "Each connection setting is the configured value if set, else the environment value, else the default; port 0 or unset becomes the dialect's default port; an unknown dialect is rejected.",
  "all configurations and environments", "All combinations.",
  "subsetter/common.py:database_url")
p("TLS settings are honoured",
  "If TLS is required (by config, or by environment when config is silent), PostgreSQL connections use sslmode require, verify-ca or verify-full matching the verify setting and MySQL connections carry an ssl section with the matching verify flag; if not required no TLS arguments are passed; sqlite is rejected.",
  "all configurations and environments", "All combinations.",
  "subsetter/common.py:DatabaseConfig.SSLConfig.get_connect_args")
p("TLS settings follow the effective dialect",
  "The TLS arguments passed to the driver are those of the dialect the connection URL uses.",
  "all configurations and environments", "Needs the dialect to come from the environment.",
  "subsetter/common.py:DatabaseConfig.database_engine")
p("pydantic_search visits every sub-model once",
  "pydantic_search(root) yields exactly the models reachable from root through model fields, lists and dicts, each once, root first if it is a model, and terminates even on cyclic or shared structures.",
  "all object graphs", "Arbitrary object graphs.",
  "subsetter/common.py:pydantic_search")
p("Later config files override earlier ones key by key",
  "The merged configuration has at every key path the value of the last file defining it, descending into mappings; keys absent from later files keep earlier values; merging with an empty mapping changes nothing.",
  "all configuration trees and file lists", "Recursive trees.",
  "subsetter/__main__.py:_get_config")
p("Extra foreign keys are well-formed",
  "An extra_fks entry is accepted exactly when its source columns are non-empty, equally many as the destination columns, and neither list repeats a column.",
  "all column lists", "All lists.",
  "subsetter/config_model.py:PlannerConfig.ExtraFKConfig.check_columns_match")
p("A full run preserves foreign keys",
  "For every plan produced by the planner, running the sampler with no filters, multiplicity, compaction or merge writes tables whose rows satisfy every considered foreign key between planned tables, for any source satisfying its foreign keys and any random choices.",
  "all schemas, configurations, source contents, random outcomes",
  "End-to-end over all data.",
  "subsetter/planner.py:Planner.plan", "subsetter/sampler.py:Sampler.sample")
# --- added while modelling ------------------------------------------------------
p("Sampled rows are source rows, each at most once; passthrough tables are copied whole",
  "Whatever the plan and the random choices, every row selected by a planned query is a row of that table in the source, no row is selected twice (in a source without duplicate rows), and the query of a passthrough table selects exactly all rows.",
  "all schemas, configurations, source contents, random outcomes",
  "Planned queries join against other tables; that the joins never multiply or invent rows depends on all schemas and contents.",
  "subsetter/planner.py:Planner._plan_table", "subsetter/plan_model.py:SQLStatementSelect.build")
p("Planning is deterministic",
  "Planning the same schema with the same configuration twice gives the same queries in the same order (only passthrough tables, which come first, may be permuted), or fails with the same error, whatever the hash-randomised iteration order of sets.",
  "all schemas, configurations and set iteration orders",
  "Set iteration order changes between processes; a test process sees one order.",
  "subsetter/planner.py:Planner.plan", "subsetter/solver.py:order_graph")
p("Compaction touches exactly the configured columns",
  "The compacted columns are exactly: the listed columns of sampled tables, and, when primary_keys (or auto_increment_keys, for tables with an auto-increment column) is set, the single integer primary key column of each sampled table; never a column of a passthrough table.",
  "all schemas, plans and compaction settings", "All combinations of settings and schemas.",
  "subsetter/sampler.py:Sampler._get_compact_columns", "subsetter/config_model.py:CompactConfig")

p("The planner's plans can always be carried out",
  "Every plan the planner produces for a source database can be run by the sampler against that database: materialisation and copying raise no error, and every statement they execute only reads tables and columns that exist; on MySQL no statement opens a temporary table more than once (unless a compacted table is referenced by several columns of one foreign key or by itself).",
  "every source schema, planner configuration, accepted compaction setting, database contents and hash seed",
  "Plans range over unbounded schemas and the copying statement is assembled from the schema, so no finite set of schemas covers all of them.",
  "subsetter/planner.py:Planner.plan", "subsetter/sampler.py:Sampler.sample", "subsetter/sampler.py:Sampler._materialize_tables", "subsetter/sampler.py:Sampler._copy_results")

p("Created tables duplicate the source tables",
  "With create, a run creates exactly the tables of the plan that do not exist in the destination under their destination name; each has the columns, primary key and unique constraints of its source table and its foreign keys, which lead to destination names of planned tables. Without create, and for tables that exist, no schema is changed.",
  "every schema, remapping, plan, destination and outcome of the run", "Schemas and remappings are unbounded.",
  "subsetter/sampler.py:DatabaseOutput.create", "subsetter/sampler.py:DatabaseOutput._remap_table")

p("A truncating run can be repeated after a crash",
  "If a first attempt at a sample failed or was killed at any moment, without having created tables, then running the same sample again with truncate (and the same random state) on what it left behind succeeds and ends with the same rows in every table as if the first attempt had never happened.",
  "every source, plan, configuration, crash point, behaviour of the destination during the first attempt", "A test would have to kill the process after every statement of every run.",
  "subsetter/sampler.py:Sampler.sample", "subsetter/sampler.py:DatabaseOutput.truncate", "subsetter/sampler.py:DatabaseOutput.output_result_set")

p("Naming the dialect in the environment is as good as in the configuration",
  "A connection whose dialect is named by the environment variable behaves as if the configuration named it: same URL, isolation level, TLS arguments and statements on connecting (attached sqlite files).",
  "all configurations and environments", "Combinations of configuration and environment are unbounded and need several databases.",
  "subsetter/common.py:database_url", "subsetter/common.py:DatabaseConfig.database_engine")

p("Attached sqlite files are opened under exactly their names",
  "For sqlite, each new connection first attaches the configured files in order, each statement's string literal denoting exactly the configured file name whatever characters it contains, and then runs the session statements in order; for other configured dialects nothing is attached.",
  "all file names, aliases and session statements", "Quoting must be right for every string.",
  "subsetter/common.py:DatabaseConfig.database_engine")

p("After a run the destination holds exactly the sample",
  "A successful run that only copies (no merge, no multiplier, conflicts are errors) into tables that are truncated, empty or created by the run leaves in each of them exactly the rows selected for it, in order, one for one: the value of every column that no filter changes and the destination does not compute is the selected one.",
  "every plan, source, configuration of that kind, destination schema and batch size", "The end state depends on creation, truncation, batching and column handling together, for unbounded data.",
  "subsetter/sampler.py:Sampler.sample", "subsetter/sampler.py:DatabaseOutput.output_result_set", "subsetter/sampler.py:DatabaseOutput.truncate")

p("A subset is referentially consistent at the destination",
  "Plan a consistent source database and sample it into truncated, empty or created tables without compaction, multiplication or merging: then every foreign key the planner considered holds between the destination tables, whatever remapping, filters on other columns or planner configuration are used (targets that combine 'all' with 'amount' excepted).",
  "every source schema, planner configuration, database contents, remapping, destination and hash seed", "This is the tool's purpose, and it is a statement about all schemas and all contents.",
  "subsetter/planner.py:Planner.plan", "subsetter/sampler.py:Sampler.sample", "subsetter/__main__.py:_main_subset")

p("A misspelled option is never silently ignored",
  "If any section of the configuration contains an option the tool does not know, the command is refused before anything happens.",
  "all configurations and all places in them", "The configuration is an unbounded tree; every section has its own set of options.",
  "subsetter/config_model.py:SubsetterConfig", "subsetter/common.py:DatabaseConfig", "subsetter/filters.py:FilterConfig", "subsetter/__main__.py:main")

p("`plan` writes its plan and nothing else",
  "The plan command never changes a destination database or an output directory. When it exits 0, its output holds the plan, and reading it gives the same queries and passthrough tables back. When it fails, nothing at all has changed, except when planning succeeded and writing the file failed.",
  "all configurations, source databases, file systems and environments", "Failures can happen at every step, for unbounded configurations and schemas.",
  "subsetter/__main__.py:_main_plan", "subsetter/__main__.py:main", "subsetter/__main__.py:_get_plan_config")

p("Sampling commands report success exactly when the run succeeded",
  "The sample and subset commands exit 0 exactly when configuration, plan and sampler section are valid and the run succeeded. Otherwise nothing was changed, or only the place named by sampler.output. Nothing is touched before configuration, plan and sampler section are known to be valid.",
  "all configurations, plan files, sources, destinations and environments", "Failures can happen at every step, for unbounded inputs.",
  "subsetter/__main__.py:_main_sample", "subsetter/__main__.py:_main_subset", "subsetter/__main__.py:main")

p("Planning to a file and sampling from it is the same as subset",
  "If plan with an output file, sample with that file, and subset all succeed, then the first two together leave every place as subset does: the same tables and, for tables whose filters use no random values, the same rows in the same order. In tables with random filters the columns no filter changes agree row by row. This includes multiplied, merged and renumbered rows. Targets chosen by amount or percentage are excluded, as the source chooses those rows at random.",
  "all configurations, sources and destinations", "The plan passes through a file that reorders its queries; the rest must not depend on that, for all plans.",
  "subsetter/__main__.py:_main_plan", "subsetter/__main__.py:_main_sample", "subsetter/__main__.py:_main_subset")

p("Accepted configurations are well formed",
  "In every configuration the tool accepts, no table is named twice among targets or constraints, and every extra foreign key has non-empty column lists of equal length.",
  "all configuration files", "Configuration files are unbounded trees.",
  "subsetter/config_model.py:PlannerConfig", "subsetter/config_model.py:ExtraFKConfig")

p("Leaving an option out means its documented default",
  "Writing an option of the planner, of a target, of the sampler, of multiplicity, of compaction or of the output explicitly with its documented default value gives the same configuration as leaving it out, whatever the other options are.",
  "all configurations and all optional options", "The other options are arbitrary.",
  "subsetter/config_model.py:PlannerConfig", "subsetter/config_model.py:SamplerConfig")

p("Each command reads only its own environment variables",
  "plan depends on no environment variable but SUBSET_SOURCE_*; the sampling commands on none but SUBSET_SOURCE_* and SUBSET_DESTINATION_*; where output goes depends on SUBSET_DESTINATION_* only.",
  "all pairs of environments agreeing on those variables, and all inputs", "A statement about pairs of runs over all environments.",
  "subsetter/common.py:database_url", "subsetter/common.py:DatabaseConfig.database_engine", "subsetter/__main__.py:main")

p("What a configuration file says is what is used",
  "In every accepted configuration, each option that is given has, in the configuration that is used, the value that was written (integers may stand for decimals), and every table and list of the file is used entirely and in order. Writing every option out in full gives the same configuration.",
  "all configuration files", "The configuration is an unbounded tree with over a hundred options.",
  "subsetter/config_model.py:SubsetterConfig", "subsetter/common.py:DatabaseConfig", "subsetter/filters.py:FilterConfig")

p("Renumbering leaves the destination referentially consistent",
  "After a successful sampling run of the planner's plan with compaction, every foreign key the planner considered holds between the destination tables, for each row whose foreign key columns are not NULL.",
  "all schemas, consistent sources, planner configurations, compaction settings, destinations and random choices", "Which rows are selected, their numbers, and which columns follow are decided at run time for data of any size.",
  "subsetter/sampler.py:Sampler._copy_results", "subsetter/sampler.py:Sampler._get_compact_columns", "subsetter/planner.py:Planner.plan")

p("Renumbering loses no references",
  "After a successful run with compaction, a row that was selected with a complete (nowhere NULL) reference to a renumbered row is written with a reference, not with NULL.",
  "all schemas, consistent sources, planner configurations, compaction settings and random choices", "References are rewritten by an outer join; a missing match would silently write NULL.",
  "subsetter/sampler.py:Sampler._copy_results", "subsetter/sampler.py:Sampler._materialize_tables")

p("Multiplied copies are referentially consistent",
  "After a successful run of the planner's plan with a multiplier above one into tables that were emptied or consistent, every foreign key the planner considered holds between the destination tables, for all copies.",
  "all schemas, consistent sources, planner configurations, multipliers, exclusions, remappings and destinations", "The columns to multiply are found by a closure over the schema; the rows are unbounded.",
  "subsetter/sampler.py:Sampler._get_multiplied_columns", "subsetter/sampler.py:_multiply_column", "subsetter/sampler.py:DatabaseOutput.output_result_set")

p("Merging leaves the destination referentially consistent",
  "After a successful run in merge mode into tables whose existing rows were consistent, every foreign key the planner considered holds between the destination tables, for the existing rows and for the new ones.",
  "all schemas, consistent sources, planner configurations, remappings and contents of the destination", "The offsets depend on the data that is already there.",
  "subsetter/sampler.py:DatabaseOutput.prepare", "subsetter/sampler.py:DatabaseOutput.output_result_set")

p("Replacing and skipping rows leaves the destination referentially consistent",
  "After a successful run with conflict_strategy replace or skip into tables whose existing rows were consistent, every foreign key the planner considered holds between the destination tables.",
  "all schemas, consistent sources, planner configurations, remappings, dialects and contents of the destination", "Any combination of existing and new rows may clash.",
  "subsetter/sampler.py:ConflictInsert", "subsetter/sampler.py:DatabaseOutput.output_result_set")

p("A foreign key survives every rewriting that treats both its ends alike",
  "Whatever combination of renumbering, multiplying, merging, replacing and skipping is used: a foreign key the planner considered holds after the run if it held between the existing rows and, for each of its column pairs, both columns are renumbered in step, multiplied both or neither, and shifted alike, and rows are found again by the key it refers to.",
  "all schemas, consistent sources, planner configurations, sampler configurations, remappings and destinations", "The rewritings compose; their interaction must be right for all data.",
  "subsetter/sampler.py:Sampler.sample", "subsetter/sampler.py:DatabaseOutput.output_result_set", "subsetter/planner.py:Planner.plan")

p("Once a run has begun to change the destination, only the destination can stop it",
  "If a run fails after it has written anything, then the database or file system refused one of the run's own statements, or a row to be inserted has a key that is taken; no inconsistency of the configuration, plan or schema is discovered half-way.",
  "all schemas, sources, planner and sampler configurations, destinations and moments of refusal", "Each phase of a run raises its own exceptions; which of them can occur late depends on all inputs at once.",
  "subsetter/sampler.py:Sampler.sample", "subsetter/sampler.py:Sampler._copy_results", "subsetter/sampler.py:DatabaseOutput.output_result_set", "subsetter/sampler.py:DirectoryOutput.output_result_set")

p("With a cooperative destination a run is carried out to the end or changes nothing",
  "For a configuration that can be carried out: an export to files that passes the initial checks completes if the file system refuses nothing, and a run into a database that refuses no statement, with conflict_strategy skip and primary keys in all its tables, completes or leaves the database as it was.",
  "all schemas, sources, plans, sampler configurations and contents of the destination", "Every statement of every run must be one that can be executed.",
  "subsetter/sampler.py:Sampler.sample", "subsetter/sampler.py:DatabaseOutput.output_result_set", "subsetter/sampler.py:ConflictInsert")

p("Foreign keys hold after every statement of a run",
  "While a run writes to a database, after every statement it has committed, also if the run is stopped or refused there, every foreign key of the destination that held before the run holds; provided that a foreign key of a written table corresponds to one the planner considered whose ends are treated alike, and that the rows another table refers to are not replaced under another key.",
  "all schemas, consistent sources, planner and sampler configurations, destinations, outcomes of the run and moments", "The states between two statements depend on the order in which tables are emptied and filled, on all data and on where the run stops.",
  "subsetter/sampler.py:Sampler.sample", "subsetter/sampler.py:DatabaseOutput.truncate", "subsetter/sampler.py:DatabaseOutput.insert_order", "subsetter/metadata.py:DatabaseMetadata.toposort")

p("A destination that enforces its foreign keys makes no difference",
  "Under the same provisions for all foreign keys of the destination: on a database that checks them after each statement the run executes the same statements, with the same result, as on one that does not check them.",
  "all schemas, consistent sources, planner and sampler configurations and destinations", "One statement in the wrong order, for one schema, would stop the run.",
  "subsetter/sampler.py:Sampler.sample", "subsetter/sampler.py:DatabaseOutput.truncate", "subsetter/sampler.py:DatabaseOutput.insert_order")

p("Files of output are read back as the rows",
  "A file written for a table has one line per row. Any reader of JSON accepts each line and finds there exactly the row's columns, in order, with their values: NULL, truth values, integers, floats and strings as such, other values as their text. Two files with the same text hold the same rows, apart from values that JSON does not have.",
  "all rows, column names and strings", "Escaping must be right for every string and combination of values.",
  "subsetter/sampler.py:DirectoryOutput.output_result_set")

p("A run in which no row gets a taken key is carried out to the end",
  "Take a configuration that can be carried out, with tables that fit it. Let every unique key of a written table that has no skipping tell the rows of the source apart, be copied unchanged, contain a multiplied column if rows are multiplied, and either start from an empty table or contain a column that merging gives fresh values. Then on a database that refuses no statement the run completes; and on one that enforces its foreign keys it completes, too, if these hold at the start and the configuration respects them, or the very first statement, the creation of tables, is refused.",
  "all schemas, sources, planner and sampler configurations and contents of the destination", "No key of any written row may be taken: offsets, copies and renumbering must be injective on all data, and every statement executable.",
  "subsetter/sampler.py:Sampler.sample", "subsetter/sampler.py:DatabaseOutput.prepare", "subsetter/sampler.py:DatabaseOutput.output_result_set", "subsetter/sampler.py:DatabaseOutput.create", "subsetter/sampler.py:_multiply_column", "subsetter/metadata.py:DatabaseMetadata.toposort")
p("Values of anonymised columns never influence a run",
  "Take a column of a table with a primary key that is neither part of that key nor at either end of a foreign key, that neither the planner configuration nor the plan looks at to choose rows, and that a filter overwrites (or omits) before any other filter looks at it. Two source databases that differ only in the values of such columns give the same run: the same statements in the same order, the same rows, files and sequences, the same failure if it fails.",
  "all schemas, plans, configurations (filters, compaction, multiplicity, strategies, merging), both kinds of output, all pairs of sources, destinations and crash points", "A statement about two runs on every pair of sources: it says that nothing at all is leaked, through values, row counts, order, numbering or errors.",
  "subsetter/sampler.py:Sampler.sample", "subsetter/filters.py:FilterViewChain", "subsetter/planner.py:Planner._plan_table", "subsetter/plan_model.py:SQLStatementSelect.build")

p("A run repeated into the tables it filled changes nothing",
  "After a completed run, run the same again without truncating, whatever was added to the destination in between and however the second run ends. A table with a primary key, all of whose keys are copied untouched by filters and not shifted by merging, has then exactly the rows it had if the strategy is skip; if it is replace and the table has no further unique keys, it has the same rows apart from the columns that filters touch. With skip and without merging, if this goes for all written tables, no table of the destination changes.",
  "all schemas, sources, plans, configurations, destinations, random states, rows added between the runs and outcomes of the second run", "Every row written by the second run must be recognised as one written by the first, for all data.",
  "subsetter/sampler.py:Sampler.sample", "subsetter/sampler.py:ConflictInsert", "subsetter/sampler.py:DatabaseOutput.output_result_set")

p("An interrupted run can be taken up by running it again",
  "Let a run be stopped or refused at any statement, after the tables were emptied if it truncates, and let the same be run again without truncating, to completion. A table with a primary key that is not NULL, with strategy skip, whose keys are copied untouched by filters and not shifted by merging, then has the same rows in the same order as if the run had never been interrupted, in all columns that filters do not touch.",
  "all schemas, sources, plans, configurations, destinations, random states and crash points", "The property ranges over every point at which a run can be interrupted.",
  "subsetter/sampler.py:Sampler.sample", "subsetter/sampler.py:ConflictInsert", "subsetter/sampler.py:DatabaseOutput.output_result_set")

p("A run during which other sessions change the source sees every table as it was at one moment",
  "Other sessions may commit changes to the source while a run reads it, statement by statement. For plans whose queries read, of the source, only the table they are for (as the planner's do), the run does what it would do on an unchanging database that holds every table as it was at one moment of its own. These moments are different, and a table whose query reads the sample of another is read after it. If nothing changes, any run does what it does on that one state.",
  "all schemas, plans, configurations, random states, set iteration orders, destinations, and all histories of the source (any change between any two statements)", "The property ranges over every interleaving with arbitrary writers.",
  "subsetter/sampler.py:Sampler.sample", "subsetter/sampler.py:Sampler._materialize_tables", "subsetter/sampler.py:Sampler._copy_results", "subsetter/common.py:DatabaseConfig.database_engine")

p("Foreign keys survive sampling while other sessions change the source",
  "If the source satisfies the considered foreign keys at every moment, then so do the tables a run copied into an empty destination, although the source changed during the run.",
  "all schemas, planner configurations, sources, histories of the source, random states and set iteration orders", "The property ranges over every interleaving with arbitrary writers.",
  "subsetter/sampler.py:Sampler._materialize_tables", "subsetter/sampler.py:Sampler._copy_results", "subsetter/common.py:DatabaseConfig.database_engine", "subsetter/planner.py:Planner._plan_table")

p("Sampling is reproducible",
  "Run the same command twice: the same configuration, the same source, destinations with the same tables, which are truncated or hold the same rows. The two processes iterate over sets in different orders, start with different random states, and the database draws different random numbers. If the plan draws no random rows and both runs complete, they leave the same tables; a table whose filters use no randomness has the same rows in the same order, and so have other tables in the columns that no filter touches (for strategy error). The same goes for the written files.",
  "all configurations, schemas, sources, destinations, set iteration orders and random states", "Python's string hashes, and so all set orders, change with every process: a test sees a few of them.",
  "subsetter/sampler.py:Sampler.sample", "subsetter/planner.py:Planner.plan", "subsetter/sampler.py:DatabaseOutput.prepare", "subsetter/sampler.py:Sampler._materialization_order")

p("An isolation level above READ COMMITTED makes the sample consistent",
  "If isolation_level of the source is REPEATABLE READ or SERIALIZABLE, a run does what it does on the database as it was when the run's first statement began, whatever other sessions commit meanwhile; in particular the copied tables satisfy the considered foreign keys.",
  "all configurations and process environments, schemas, plans, sources, histories of the source, random states, set iteration orders and destinations", "The property ranges over every interleaving with arbitrary writers, and depends on which statements the program sends in one transaction.",
  "subsetter/common.py:DatabaseConfig.database_engine", "subsetter/sampler.py:Sampler.sample", "subsetter/sampler.py:TempTableCreator.create", "subsetter/sampler.py:Sampler._copy_results")

p("Wider targets, fewer constraints and more source rows never remove rows from the sample",
  "Change the configuration so that the same targets take more rows (all of them, longer lists of values, fewer patterns or conditions, no amount) and the tables have fewer constraints, or let the source change in any way that keeps the rows of the old sample, or both: then the same tables are sampled, and every row of the old sample is in the new one; the same goes for the tables two such runs leave. In particular, a sample of a source does not shrink when rows are added to the source, if no target has an amount or a percentage.",
  "all configurations, schemas, pairs of sources, set iteration orders and random numbers", "It compares two runs for all configurations and databases; each plan filters tables through chains of other samples.",
  "subsetter/planner.py:Planner._plan_internal", "subsetter/planner.py:Planner._plan_table", "subsetter/solver.py:order_graph")
p("A further target never removes rows from the sample",
  "Add a target to a configuration without amounts and percentages and leave everything else as it is: every row that was sampled before is still sampled.",
  "all configurations, further targets, schemas, sources, set iteration orders and random numbers", "It compares two runs for all configurations and databases; a further target changes the order in which all tables are sampled.",
  "subsetter/planner.py:Planner._plan_internal", "subsetter/planner.py:Planner._plan_table", "subsetter/solver.py:order_graph")

p("The words of the command line mean what the usage says",
  "A command line made of options (in full, abbreviated as long as it is clear which one is meant, letters put together, values attached, after an equals sign or as the next word), a command and its options is carried out with exactly these settings: all configuration files in the order given, the last plan file or output file, truncation and creation only if switched on. No line has two readings. Any other line changes nothing and ends with status 2, or, asking for help, with status 0.",
  "all lists of words, all states of files and databases", "There are infinitely many command lines, and options can be abbreviated, combined and mixed with values that look like options.",
  "subsetter/__main__.py:_parse_args", "subsetter/__main__.py:_add_plan_args", "subsetter/__main__.py:_add_sample_args", "subsetter/__main__.py:main")

p("Nothing is deleted or created unless the command line says so",
  "If no word of the command line is --truncate or a clear abbreviation of it, the program deletes no rows: every row that was in any table of any destination is still there, in its place, with new rows after the old ones; only if the configuration says 'replace' may another row stand in its place. (Files of an export are written anew.) If no word is --create, no table is created anywhere. This holds whatever the configuration files, plans, schemas and data, and however the program ends.",
  "all command lines, configuration files, plans, sources, destinations, random states, set iteration orders and failures", "A destructive statement may be sent for one unforeseen combination of configuration, schema and failure.",
  "subsetter/__main__.py:_parse_args", "subsetter/__main__.py:main", "subsetter/sampler.py:Sampler.sample", "subsetter/sampler.py:DatabaseOutput.truncate", "subsetter/sampler.py:DatabaseOutput.create")

p("The sample of a sample is the sample",
  "Take what a run has left in its destination as the source of another run with the same plan configuration. If no target asks for less than 100 percent of its rows, the second run copies all of it: it leaves the same rows, in the columns of the source.",
  "all configurations, schemas, sources, set iteration orders and random numbers of both runs, orders in which the second source returns its rows", "It needs every filter of every plan to accept each row that some earlier sample accepted, for all schemas and data.",
  "subsetter/planner.py:Planner._plan_internal", "subsetter/planner.py:Planner._plan_table", "subsetter/sampler.py:Sampler.sample")

p("A plan file means what it says",
  "There is one format of plan files: which entries each part of a plan may or must have, under which names, with which default values, and which words the tags and operators are. A file of this format is read as the plan it says, and it says one only; every other file is rejected. The file the planner writes says the plan that was made.",
  "all plan files (also those written or edited by hand), all plans the planner makes", "Plans nest without limit, and a mistake shared by the writer and the reader does not show in any round trip.",
  "subsetter/plan_model.py:SubsetPlan", "subsetter/plan_model.py:SQLStatementSelect", "subsetter/plan_model.py:SQLTableQuery", "subsetter/__main__.py:_main_sample")

p("The order of the entries does not matter",
  "Write the entries of the planner configuration (targets, constraints, select patterns, ignored and passthrough tables, ignored and extra foreign keys) in any order, and let the database list its tables, foreign keys and UNIQUE constraints in any order: planning gives the same queries in the same order (but for the passthrough tables, which come first), or the same error.",
  "all configurations and schemas, all their rearrangements, all set iteration orders", "It compares all rearrangements of all configurations and schemas.",
  "subsetter/planner.py:Planner._plan_internal", "subsetter/planner.py:Planner._plan_table", "subsetter/metadata.py:ForeignKey", "subsetter/metadata.py:DatabaseMetadata.from_engine")

p("Tables that are not chosen do not matter",
  "The plan depends only on the tables the configuration chooses. A further table in the database whose name matches no pattern, whatever it refers to, changes neither the plan nor the error; nor does any change to the tables that are not chosen.",
  "all configurations, schemas, further or changed tables, set iteration orders", "It compares all pairs of schemas that agree on the chosen tables.",
  "subsetter/planner.py:Planner.plan", "subsetter/metadata.py:DatabaseMetadata.from_engine", "subsetter/metadata.py:DatabaseMetadata.infer_missing_foreign_keys", "subsetter/metadata.py:DatabaseMetadata.compute_reverse_keys")

p("Rows of other tables do not matter",
  "A run looks at the rows of those tables only that the queries of its plan mention. Whatever rows the other tables of the source hold, the run writes the same and ends the same way. For a plan made by the planner, these are the planned tables.",
  "all plans (also hand-written ones), sampler configurations, sources, destinations, random numbers, pairs of sources that agree on the mentioned tables", "It compares runs on all pairs of sources that agree on the mentioned tables.",
  "subsetter/sampler.py:Sampler.sample", "subsetter/sampler.py:Sampler._materialize_tables", "subsetter/sampler.py:Sampler._copy_results", "subsetter/plan_model.py:SQLTableQuery")

p("Every sampled row belongs to a target's row",
  "A row of a table that is not a passthrough table is in the destination for a reason one can follow there: it is a row of a target table, or there is a row in the destination that refers to it or that it refers to, and that one belongs to a target's row in the same way, in finitely many steps. In particular, if the targets select nothing, nothing but the passthrough tables is sampled.",
  "all configurations, schemas, sources, set iteration orders, random numbers and destinations", "It asks for a finite chain for each row of each sample.",
  "subsetter/planner.py:Planner._plan_internal", "subsetter/planner.py:Planner._plan_table", "subsetter/sampler.py:Sampler.sample")

p("The rows of the targets decide all others",
  "Chance decides which rows of the target tables are sampled, and nothing else: two runs of a plan on the same source that have sampled the same rows of the target tables have sampled the same rows of every table.",
  "all configurations, schemas, sources, set iteration orders, pairs of sequences of random numbers, destinations", "It compares all pairs of runs with different random numbers.",
  "subsetter/planner.py:Planner._plan_table", "subsetter/plan_model.py:SQLStatementSelect", "subsetter/sampler.py:Sampler.sample")

p("Tables asked for whole arrive whole",
  "Every row of a passthrough table, and of a target for which all rows and no amount are asked for, is in the destination after the run, each one once, with the values of all columns of the source.",
  "all configurations, schemas, sources, set iteration orders, random numbers and destinations that are truncated or empty", "Other constraints of the configuration or rows of other tables could keep a row out for one unforeseen combination.",
  "subsetter/planner.py:Planner._plan_internal", "subsetter/planner.py:Planner._plan_table", "subsetter/sampler.py:Sampler.sample")

p("Patterns choose tables as shell patterns do",
  "A pattern of the configuration chooses a table exactly if it stands for the table's full name as a shell pattern: an asterisk for any text, a question mark for any character, a list in brackets for one of the characters or ranges listed (or, with an exclamation mark, for any other), every other character for itself. In particular a full name without such characters chooses this table only, 'schema.*' all tables of the schema and no others, '*' all tables.",
  "all patterns, all databases", "There are infinitely many patterns and names, and brackets nest with hyphens, exclamation marks and brackets in many ways.",
  "subsetter/metadata.py:DatabaseMetadata.from_engine")

p("Tables are found by their names, whatever these are",
  "A table of the database that is listed among the passthrough tables by its full name is in the plan, and a table that is in the plan is found when sampling, whatever characters its name contains.",
  "all configurations, plans and databases, all names of tables", "Names may contain any characters, and names are also used as patterns.",
  "subsetter/planner.py:Planner.plan", "subsetter/sampler.py:Sampler.sample", "subsetter/metadata.py:DatabaseMetadata.from_engine")

p("Conditions of multiplex filters mean what they say",
  "A condition of a multiplex filter holds of the value of its column exactly if what it says is true: 'is' and '=' of an equal value (numbers are compared as numbers, whatever their type), 'in' of a value equal to one in the list, or of a text that is part of the text given, '<', '>', '<=', '>=' by the order of numbers and of texts, 'matches' of the texts the shell pattern stands for; 'is not', '!=', 'not in' are the opposites. A question that makes no sense for the value (comparing a text with a number, matching a number or NULL with a pattern) is an error. The filter of the first condition that holds is the one applied.",
  "all lists of conditions, all rows, all random generators, Faker implementations and plugins", "The operators behave differently for every combination of types, and there are infinitely many values, lists and patterns.",
  "subsetter/filters.py:MultiplexCondition.match", "subsetter/filters.py:FilterMultiplex.filter_view")

p("Filters never stop a run",
  "Filters that were accepted when the run began can be applied to every row that is sampled: no value in the source makes a filter fail in the middle of a run, when tables may already have been emptied.",
  "all filter configurations, all rows, all runs", "The offending value may be in one of millions of rows, of a type or NULL where no test expects it.",
  "subsetter/filters.py:MultiplexCondition.match", "subsetter/filters.py:FilterZero.filter_values", "subsetter/filters.py:FilterViewChain.filter_view", "subsetter/sampler.py:DatabaseOutput.output_result_set")

p("Foreign keys survive any history of runs",
  "Let a destination in which every foreign key holds be written by any number of runs, one after another: with different plans, sources and configurations, truncating or not, merging, skipping or replacing rows, each of them completed, failed or stopped at any statement, and with other programs at work in between that leave the foreign keys intact. If each run treats the foreign keys of the tables it writes as C104 asks for, then every foreign key of the destination, including those of tables created on the way, holds at the end.",
  "all histories of runs, all points at which runs are stopped, all destinations", "Histories are unbounded, and each run starts from what stopped runs before it left.",
  "subsetter/sampler.py:Sampler.sample", "subsetter/sampler.py:DatabaseOutput.create", "subsetter/sampler.py:DatabaseOutput.truncate", "subsetter/sampler.py:DatabaseOutput.output_result_set")

p("Repeated runs lose nothing and never give a number twice",
  "Let a destination be written by any number of runs without --truncate that do not replace rows, whatever their plans, sources and configurations, each completed, failed or stopped at any statement. Then every table still has all the rows it had, in their order, with new ones after them. If the runs that write a table with an integer key merge rows into it under C44's conditions, then the keys of all rows added on the way are different from each other and greater than all keys that were there before: no key is ever given to two rows.",
  "all histories of runs, all points at which runs are stopped, all destination contents", "Histories are unbounded; a run stopped half way leaves keys the next one must avoid.",
  "subsetter/sampler.py:DatabaseOutput.prepare", "subsetter/sampler.py:DatabaseOutput.output_result_set", "README.md:Merging")

p("Foreign keys survive runs that write at the same time",
  "Let several runs write to the same database at the same time, their statements interleaved in any way, each begun at any moment, some of them failing or stopped at any statement, while other programs write there, too, without removing or changing rows or breaking foreign keys. If no run truncates or creates tables, and each treats the foreign keys of the tables it writes as C104 asks for, then foreign keys that hold at first hold at every moment. If, moreover, rows are not replaced, no row that was there is lost, whatever the plans and configurations.",
  "all interleavings of any number of runs and other programs, all plans, sources, configurations and destinations", "Schedules are unbounded, and each run acts on keys it read before the others wrote.",
  "subsetter/sampler.py:Sampler.sample", "subsetter/sampler.py:DatabaseOutput.prepare", "subsetter/sampler.py:DatabaseOutput.output_result_set")

p("Rows of runs at the same time are not mixed up",
  "When several runs write to the same database at the same time, none of them truncating or replacing rows, every row a run reports as written is there as that run wrote it, and a row written by a run refers to the rows of the same run, as in its source.",
  "all interleavings of any number of runs and other programs, all plans, sources, configurations and destinations", "The keys a merging run will give are decided when it begins; another run may use them first in one of unboundedly many schedules.",
  "subsetter/sampler.py:DatabaseOutput.prepare", "subsetter/sampler.py:DatabaseOutput.output_result_set", "README.md:Merging")

p("A run follows the foreign keys of the planned tables",
  "Where a run renumbers, multiplies or shifts keys, the references that follow are those along the foreign keys that the source declares for the planned tables, and, if inference is on, along the columns named like the primary key of exactly one other planned table (of the same schema, in mode schema); no others. For a configuration without extra_fks and ignore_fks and with the same inference mode for planning and sampling, these are exactly the foreign keys the planner considered, provided that, with inference, all chosen tables are planned.",
  "all plans (also hand-written ones), schemas, inference modes, set iteration orders", "A key is inferred by comparing all columns of all tables, and one more planned table can change the outcome.",
  "subsetter/sampler.py:Sampler.sample", "subsetter/metadata.py:DatabaseMetadata.infer_missing_foreign_keys", "subsetter/metadata.py:DatabaseMetadata.from_engine")

p("The way a configuration is written does not matter",
  "A configuration that is accepted means the same however it is written in full: with the options of each section in any order, flags written as true, yes, on, 1 and the like in capital or small letters, and numbers as integers, as decimals without fraction or in quotation marks. The values that rows are compared with or that columns are set to are not converted, but for true and false in comparisons, which are 1 and 0.",
  "all configuration files, all ways to write them", "There are infinitely many configurations, and each has infinitely many ways to be written.",
  "subsetter/config_model.py:SubsetterConfig", "subsetter/common.py:DatabaseConfig", "subsetter/filters.py:FilterConfig", "subsetter/__main__.py:_get_config")

for x in P:
    print(json.dumps(x, ensure_ascii=False))
