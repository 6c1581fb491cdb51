{"id": "C01", "title": "toposort lists every node once, dependencies first", "statement": "When toposort(G) returns, the result contains every node of G exactly once and, for every edge u->v of G, v occurs before u.", "quantifier": "all finite graphs whose edges stay inside the graph, all set iteration orders", "why_tests_cant": "Graph space is unbounded and the working order depends on hash-randomised set iteration.", "anchors": ["subsetter/solver.py:toposort", "subsetter/solver.py:reverse_graph"]}
{"id": "C02", "title": "toposort fails exactly on cyclic graphs", "statement": "toposort(G) raises ValueError if and only if G contains a directed cycle (self-loops included); it always terminates and never raises KeyError on a graph whose edges stay inside the graph.", "quantifier": "all finite graphs, all set iteration orders", "why_tests_cant": "Completeness of failure detection ranges over all graphs; a test can only show particular cycles are caught.", "anchors": ["subsetter/solver.py:toposort"]}
{"id": "C03", "title": "reverse_graph flips every edge and nothing else", "statement": "reverse_graph(G) has the nodes of G in the same order and an edge v->u exactly when G has u->v; with union=True it has exactly the edges of G and their reverses. It raises KeyError exactly when some edge leaves the node set.", "quantifier": "all finite graphs", "why_tests_cant": "Unbounded graph space.", "anchors": ["subsetter/solver.py:reverse_graph"]}
{"id": "C04", "title": "toposort_reachable returns exactly the reachable nodes in topological order", "statement": "When toposort_reachable(G, sources, ignore) returns, the list contains, once each, exactly the nodes reachable from a source by a non-empty path all of whose nodes after the source are outside ignore, and every edge between two listed nodes goes from an earlier to a later position.", "quantifier": "all finite graphs, source lists, ignore sets, set iteration orders", "why_tests_cant": "DFS with in-place weight accumulation; correctness of the weight-based sort is a global invariant over all DAG shapes.", "anchors": ["subsetter/solver.py:toposort_reachable"]}
{"id": "C05", "title": "toposort_reachable raises exactly on a reachable cycle and reports a real one", "statement": "toposort_reachable raises CycleException if and only if the non-ignored part of the graph reachable from the sources contains a directed cycle; the reported list is a non-empty list of distinct nodes, each having an edge to the next and the last to the first. It always terminates.", "quantifier": "all finite graphs, source lists, ignore sets, set iteration orders", "why_tests_cant": "Needs soundness and completeness of cycle detection for every graph; termination cannot be tested.", "anchors": ["subsetter/solver.py:toposort_reachable", "subsetter/solver.py:CycleException"]}
{"id": "C06", "title": "order_graph gives each node exactly one sampling direction", "statement": "If the source has no incoming edges or no outgoing edges and order_graph(G, source) returns, the source is first, no node repeats, and every other node u has either at least one earlier in-neighbour and no earlier out-neighbour, or at least one earlier out-neighbour and no earlier in-neighbour.", "quantifier": "all finite graphs and sources with edges on one side only, all set iteration orders", "why_tests_cant": "This docstring guarantee is what makes one query per table possible; it is a global property of the alternating traversal.", "anchors": ["subsetter/solver.py:order_graph"]}
{"id": "C07", "title": "order_graph covers exactly the weakly connected component", "statement": "If the source has no incoming or no outgoing edges and order_graph returns, a node is in the result if and only if it is connected to the source ignoring edge direction.", "quantifier": "all finite graphs and one-sided sources", "why_tests_cant": "Loop stops at the first empty layer: that this loses nothing is an invariant over all graphs.", "anchors": ["subsetter/solver.py:order_graph"]}
{"id": "C08", "title": "order_graph fails exactly when the component has a foreign-key cycle", "statement": "If the source has no incoming edges or no outgoing edges, order_graph raises CycleException if and only if some node weakly connected to the source lies on a directed cycle; the reported nodes form a directed cycle of G read forwards or backwards. It terminates on every graph.", "quantifier": "all finite graphs and one-sided sources", "why_tests_cant": "README promises a plan whenever there are no FK cycles: needs completeness over all schemas.", "anchors": ["subsetter/solver.py:order_graph", "README.md:Limitations"]}
{"id": "C09", "title": "order_graph is independent of set iteration order", "statement": "Two runs of order_graph on the same graph with arbitrary, different iteration orders of the edge sets (as Python hash randomisation produces) return the same list, or both raise CycleException.", "quantifier": "all finite graphs, all pairs of set iteration orders", "why_tests_cant": "Hash seeds vary per process; a test sees one seed.", "anchors": ["subsetter/solver.py:toposort_reachable", "subsetter/solver.py:order_graph"]}
{"id": "C10", "title": "order_graph guarantees extend to arbitrary sources", "statement": "The docstring of order_graph states its ordering guarantees for any source node, including one with both incoming and outgoing edges.", "quantifier": "all finite graphs and all sources", "why_tests_cant": "A counterexample requires a source with both kinds of edges, which no test uses.", "anchors": ["subsetter/solver.py:order_graph"]}
{"id": "C11", "title": "Planning succeeds on every acyclic schema", "statement": "With dependencies included, valid targets, no foreign keys into ignored tables, passthrough tables closed under foreign keys and no table constraints, plan() returns a plan whenever the tables connected to the targets carry no foreign-key cycle, and raises ValueError if they carry one; it never raises KeyError or AssertionError.", "quantifier": "all schemas, selections, targets, ignore/passthrough/extra/ignored foreign key settings", "why_tests_cant": "Internal assertions and dictionary accesses must be safe for every schema and configuration.", "anchors": ["subsetter/planner.py:Planner._plan_internal", "subsetter/planner.py:Planner._plan_table", "README.md:Limitations"]}
{"id": "C12", "title": "The plan covers exactly the passthrough and connected tables", "statement": "A returned plan has exactly one query per existing passthrough table and per non-ignored non-passthrough table connected to a target by foreign keys through such tables, and no other; the query of a table reads from that table; the plan's passthrough list is the existing passthrough tables.", "quantifier": "all schemas and configurations for which a plan is returned", "why_tests_cant": "Set-of-tables equality over every schema shape.", "anchors": ["subsetter/planner.py:Planner._plan_internal", "subsetter/planner.py:Planner._solve_order"]}
{"id": "C13", "title": "Sampling a plan never breaks a foreign key", "statement": "For every source database satisfying its foreign keys and every outcome of random choices, if every planned table is populated by evaluating its planned query against the source and the other populated tables, then every populated row whose foreign key columns are all non-null has a matching row in the populated referenced table, for every foreign key the planner considered between planned tables (schema, inferred or extra, minus ignored), provided no target combines 'all' with 'amount'.", "quantifier": "all schemas, configurations, source contents, random outcomes", "why_tests_cant": "The core promise of the tool; quantifies over all databases and schemas.", "anchors": ["subsetter/planner.py:Planner._plan_table", "subsetter/plan_model.py:SQLStatementSelect.build", "README.md:FAQ"]}
{"id": "C14", "title": "Children are sampled maximally", "statement": "A table sampled from already sampled parents receives every source row satisfying the table's constraints for which each of those parents contains a match (rows with NULL foreign keys aside); a row is left out only if including it would lack a parent, violate a constraint, or it has a NULL foreign key.", "quantifier": "all schemas, configurations, source contents", "why_tests_cant": "Exact characterisation of the sampled set for all data.", "anchors": ["subsetter/planner.py:Planner._plan_table", "README.md:How does the subsetter use foreign keys?"]}
{"id": "C15", "title": "Maximality holds even for nullable foreign keys", "statement": "README: a table sampled from its parents receives the maximal set of rows that can be included without violating foreign key constraints - which includes rows whose foreign key columns are NULL.", "quantifier": "all schemas with nullable foreign keys, all source contents", "why_tests_cant": "Needs data with NULL foreign keys; no test dataset has any.", "anchors": ["subsetter/plan_model.py:SQLStatementSelect.build", "README.md:How does the subsetter use foreign keys?"]}
{"id": "C16", "title": "Parents are sampled minimally", "statement": "A non-target table sampled from already sampled children receives exactly the source rows referenced by at least one of those sampled child rows.", "quantifier": "all schemas, configurations, source contents", "why_tests_cant": "Exact characterisation of the sampled set for all data.", "anchors": ["subsetter/planner.py:Planner._plan_table", "README.md:How does the subsetter use foreign keys?"]}
{"id": "C17", "title": "A target's filters are intersected", "statement": "A target that no sampled table references receives exactly the rows satisfying all of its configured sql/like/in/percent filters (all rows if 'all' is set and no amount is given), limited to at most 'amount' rows when amount is given.", "quantifier": "all target configurations and source contents", "why_tests_cant": "All combinations of filters over all data.", "anchors": ["subsetter/planner.py:Planner._plan_table", "subsetter.example.yaml:targets"]}
{"id": "C18", "title": "'all' overrides every other target setting", "statement": "A target with 'all: true' samples the whole table whatever other settings are given (subsetter.example.yaml: 'except all which overrides everything').", "quantifier": "all target configurations", "why_tests_cant": "Combination of options not covered by tests.", "anchors": ["subsetter/planner.py:Planner._plan_table", "subsetter.example.yaml:targets"]}
{"id": "C19", "title": "A referenced target samples the union of its filter and the references", "statement": "A target referenced by sampled tables receives exactly the rows selected by its own filters plus the rows those sampled tables reference, and nothing else (README: union; example config: 'Additional rows will only be sampled if a row from another targetted table has a dependence on them').", "quantifier": "all schemas with a target referenced by another sampled table, all source contents", "why_tests_cant": "Depends on the union simplifier for every statement shape.", "anchors": ["subsetter/plan_model.py:SQLStatementUnion.simplify", "subsetter/planner.py:Planner._plan_table", "README.md:How do multiple targets work"]}
{"id": "C20", "title": "Table constraints are enforced or rejected", "statement": "For every non-passthrough planned table with configured table_constraints, either planning fails with ValueError or every sampled row satisfies all the constraints.", "quantifier": "all configurations and source contents", "why_tests_cant": "Includes the combination of constraints with targets, which tests never exercise.", "anchors": ["subsetter/planner.py:Planner._plan_table", "subsetter.example.yaml:table_constraints"]}
{"id": "C21", "title": "Unsafe configurations are rejected", "statement": "With dependencies included, planning fails with ValueError if a non-ignored table has a (considered) foreign key into an ignored table, if an existing passthrough table has a foreign key to a table not listed as passthrough, if a (non-empty) target name is not that of a selected, non-ignored, non-passthrough table, or if a constrained non-'all' table would be sampled from references to it; otherwise these checks do not reject.", "quantifier": "all schemas and configurations", "why_tests_cant": "Rejection must be exact for every schema.", "anchors": ["subsetter/planner.py:Planner._check_ignore_tables", "subsetter/planner.py:Planner._check_passthrough_tables", "subsetter/planner.py:Planner._solve_order"]}
{"id": "C22", "title": "ignore_fks and extra_fks edit exactly the named relationships", "statement": "After processing, each selected table's foreign keys are its previous ones minus those pointing at a table named in an ignore_fks entry for it, followed by the valid extra_fks entries for it in order; entries naming unknown tables or columns change nothing.", "quantifier": "all schemas and configurations", "why_tests_cant": "Exactness for all lists of entries.", "anchors": ["subsetter/planner.py:Planner._add_extra_fks", "subsetter/planner.py:Planner._remove_ignore_fks"]}
{"id": "C23", "title": "include_dependencies: false plans without outside tables", "statement": "With include_dependencies false, a selected table may have foreign keys to unselected tables and planning still succeeds, leaving those relationships out.", "quantifier": "all schemas and selections with foreign keys leaving the selection", "why_tests_cant": "No test sets include_dependencies to false.", "anchors": ["subsetter/metadata.py:DatabaseMetadata.compute_reverse_keys", "subsetter.example.yaml:include_dependencies"]}
{"id": "C24", "title": "Selected tables are closed under dependencies", "statement": "from_engine returns exactly the tables matching a select pattern plus, when closing forward (backward), every table reachable along (against) foreign keys from them; each table once, matching tables first; the reported extra tables are exactly the non-matching ones.", "quantifier": "all database schemas, pattern lists and closure flags", "why_tests_cant": "Transitive closure over arbitrary schema graphs, with a queue mutated while iterated.", "anchors": ["subsetter/metadata.py:DatabaseMetadata.from_engine"]}
{"id": "C25", "title": "Foreign key inference only adds unambiguous references", "statement": "infer_missing_foreign_keys adds to a table exactly the references from each of its columns c to the unique other table (in the same schema, or anywhere with infer_all) whose primary key is exactly (c), when that reference is not already present; ambiguous primary keys (two or more tables) never produce a reference; running it again adds nothing.", "quantifier": "all sets of tables", "why_tests_cant": "Uniqueness and exactness over all schemas.", "anchors": ["subsetter/metadata.py:DatabaseMetadata.infer_missing_foreign_keys"]}
{"id": "C26", "title": "Reverse keys mirror foreign keys", "statement": "After compute_reverse_keys each table's reverse keys are exactly the mirror images of all foreign keys pointing at it, with multiplicity; it raises KeyError exactly when some foreign key points outside the table set.", "quantifier": "all sets of tables", "why_tests_cant": "Unbounded schema space.", "anchors": ["subsetter/metadata.py:DatabaseMetadata.compute_reverse_keys"]}
{"id": "C27", "title": "Where-clause simplification preserves meaning", "statement": "For every where clause, row, database and random outcome, the simplified clause evaluates to the same SQL truth value (true, false or unknown) as the original.", "quantifier": "all where-clause trees including nested sub-queries, all rows and databases", "why_tests_cant": "Tree-shaped input with three-valued logic.", "anchors": ["subsetter/plan_model.py:SQLWhereClauseAnd.simplify", "subsetter/plan_model.py:SQLWhereClauseOr.simplify", "subsetter/plan_model.py:SQLWhereClauseRandom.simplify", "subsetter/plan_model.py:SQLWhereClauseIn.simplify"]}
{"id": "C28", "title": "Statement simplification preserves the selected rows", "statement": "For every statement the simplified statement selects the same set of rows as the original.", "quantifier": "all statements, databases and random outcomes", "why_tests_cant": "Union merging must be right for every combination of joins, limits and columns.", "anchors": ["subsetter/plan_model.py:SQLStatementSelect.simplify", "subsetter/plan_model.py:SQLStatementUnion.simplify"]}
{"id": "C29", "title": "Joins select by existence, whatever the join strategy", "statement": "The SQL built for a select with joins returns exactly the source rows that satisfy the where clause and match some row of every joined table (inner) or of at least one joined table (outer), each such row as often as it occurs in the source table, independent of the half_unique flags, when the from table's primary key (if any) is unique.", "quantifier": "all table contents, join lists, flags, primary keys", "why_tests_cant": "Equivalence of join+group-by and EXISTS forms over all data, NULLs included.", "anchors": ["subsetter/plan_model.py:SQLStatementSelect.build", "subsetter/plan_model.py:SQLLeftJoin"]}
{"id": "C30", "title": "A plan survives dumping and loading", "statement": "Dumping a plan to the plain data written by 'subsetter plan' (unset fields excluded, aliases used) and validating that data as in 'subsetter sample' yields the same plan.", "quantifier": "all plans whose fields were set as the planner sets them", "why_tests_cant": "Round-trip over a recursive format with discriminated unions.", "anchors": ["subsetter/__main__.py:_main_plan", "subsetter/__main__.py:_main_sample", "subsetter/plan_model.py:SubsetPlan"]}
{"id": "C31", "title": "Temporary table names never collide", "statement": "One TempTableCreator never generates the same name twice, whatever sequence of requested names it is given.", "quantifier": "all sequences of requested names", "why_tests_cant": "Unbounded histories; names are sanitised, truncated and suffixed.", "anchors": ["subsetter/sampler.py:TempTableCreator._generate_name"]}
{"id": "C32", "title": "Temporary table names never collide on case-insensitive databases", "statement": "The names one TempTableCreator generates are pairwise distinct even when compared case-insensitively, as sqlite and some MySQL installations do.", "quantifier": "all sequences of requested names", "why_tests_cant": "Needs tables differing only in case.", "anchors": ["subsetter/sampler.py:TempTableCreator._generate_name"]}
{"id": "C33", "title": "Materialisation happens in dependency order", "statement": "For every plan whose sampled references stay inside the plan and are acyclic, the materialisation order lists exactly the tables that some query references as sampled or that are needed for compaction joins, each once, and each after all tables its own query references; it raises ValueError exactly on cyclic references.", "quantifier": "all plans (planner-generated or hand-edited)", "why_tests_cant": "Arbitrary reference graphs.", "anchors": ["subsetter/sampler.py:Sampler._materialization_order", "subsetter/sampler.py:Sampler._materialize_tables"]}
{"id": "C34", "title": "Every query sees the same sample that is written out", "statement": "In one run, the rows copied to the output for a table are exactly the rows every other query saw when it referred to that table as sampled, for every outcome of the random choices made during the run: referenced tables are evaluated once.", "quantifier": "all plans, source contents, random outcomes, orders", "why_tests_cant": "Random sampling makes double evaluation invisible to tests most of the time.", "anchors": ["subsetter/sampler.py:Sampler._materialize_tables", "subsetter/sampler.py:Sampler._copy_results"]}
{"id": "C35", "title": "Table order in the plan does not matter", "statement": "Two plans with the same queries in different order produce the same rows for each table (for queries without random choices) (CHANGELOG: 'Ordering of tables in the produced plan no longer matters').", "quantifier": "all acyclic plans and permutations", "why_tests_cant": "Factorially many orders.", "anchors": ["subsetter/sampler.py:Sampler._materialization_order", "CHANGELOG.md"]}
{"id": "C36", "title": "MySQL temporary tables are never reopened and always exist", "statement": "On MySQL no single statement refers twice to the same temporary table copy, and every copy referred to has been created.", "quantifier": "all plans, schemas and compaction settings", "why_tests_cant": "Reference counts must match for all combinations of joins and compaction.", "anchors": ["subsetter/metadata.py:DatabaseMetadata.sql_build_context", "subsetter/sampler.py:Sampler._materialization_order"]}
{"id": "C37", "title": "Multiplied keys never collide", "statement": "With multiplier m, distinct (key, copy number) pairs map to distinct new keys, so copies of a sample never share a multiplied key value; NULL stays NULL.", "quantifier": "all integers, all m >= 1", "why_tests_cant": "All integers including negatives.", "anchors": ["subsetter/sampler.py:_multiply_column"]}
{"id": "C38", "title": "Multiplicity copies keep foreign keys intact", "statement": "With multiplicity m > 1, whenever a multiplied parent key is referenced by a foreign key, the referencing column is multiplied too, so copy i of a child refers to copy i of its parent.", "quantifier": "all schemas and multiplicity settings", "why_tests_cant": "Closure over all foreign key graphs; tests do not exercise multiplicity at all.", "anchors": ["subsetter/sampler.py:Sampler._get_multiplied_columns"]}
{"id": "C39", "title": "Multiplied column computation terminates and is a closed set", "statement": "_get_multiplied_columns terminates and returns, for every non-passthrough non-ignored planned table, the least set of columns containing its configured extra columns and non-ignored primary key columns and closed under same-named foreign key references; it raises ValueError when a passthrough or ignored table would need multiplication or a multiplied column is not integral; with multiplier <= 1 nothing is multiplied.", "quantifier": "all schemas and multiplicity settings", "why_tests_cant": "Fixpoint loop over arbitrary schemas.", "anchors": ["subsetter/sampler.py:Sampler._get_multiplied_columns"]}
{"id": "C40", "title": "Compaction numbers the sample densely", "statement": "A compacted column of a table with N sampled rows takes exactly the values start_key .. start_key+N-1, one per row, increasing with the primary key (for a table whose own references to compacted columns, if any, each identify one row; C42 is about the others).", "quantifier": "all sampled contents, start keys", "why_tests_cant": "All table sizes and orders.", "anchors": ["subsetter/sampler.py:Sampler._materialize_tables", "subsetter/sampler.py:Sampler._copy_results"]}
{"id": "C41", "title": "References follow compacted keys", "statement": "When a column referenced by a single-column foreign key is compacted and unique in the sample, every child row is written exactly once and its foreign key is the compacted key of the very row it referenced (NULL stays NULL); all other columns are unchanged and the internal id column never appears in the output.", "quantifier": "all sampled contents and schemas with single-column references", "why_tests_cant": "Join correctness over all data.", "anchors": ["subsetter/sampler.py:Sampler._copy_results", "README.md:Identifier Compaction"]}
{"id": "C42", "title": "References follow compacted keys in composite foreign keys", "statement": "README: any table with a foreign key referencing a compacted column has the involved column adjusted to maintain semantic consistency - also when the foreign key is composite.", "quantifier": "all schemas with composite references", "why_tests_cant": "No test compacts a column of a composite key.", "anchors": ["subsetter/sampler.py:Sampler._copy_results"]}
{"id": "C43", "title": "A foreign key column is never compacted locally", "statement": "No configuration makes the sampler overwrite a foreign key column with the row number of its own table: such configurations are rejected.", "quantifier": "all schemas and compaction settings", "why_tests_cant": "The check is skipped for some settings no test uses.", "anchors": ["subsetter/sampler.py:Sampler._get_compact_columns"]}
{"id": "C44", "title": "Merging never collides with existing rows", "statement": "In merge mode, for every non-passthrough table with a single integer primary key and non-negative source keys, every written key is greater than every key existing at the destination, and distinct source keys stay distinct. (Where the key is itself a reference, provided the existing keys resolve.)", "quantifier": "all destination contents, all non-negative source keys", "why_tests_cant": "All integer ranges.", "anchors": ["subsetter/sampler.py:DatabaseOutput.prepare", "subsetter/sampler.py:DatabaseOutput.output_result_set"]}
{"id": "C45", "title": "Merging shifts references consistently", "statement": "In merge mode a foreign key value to a merged table's primary key is shifted by the same offset as that primary key, and references to passthrough tables are not shifted, when each column takes part in at most one single-column foreign key.", "quantifier": "all schemas, plans, destination contents", "why_tests_cant": "All foreign key graphs and contents.", "anchors": ["subsetter/sampler.py:DatabaseOutput.prepare"]}
{"id": "C46", "title": "Merge offset is the documented formula", "statement": "README: new_id = source_id + max(0, existing_ids...) + 1 for every non-passthrough table.", "quantifier": "all destination contents", "why_tests_cant": "Boundary contents (empty table, negative keys).", "anchors": ["subsetter/sampler.py:DatabaseOutput.prepare", "README.md:Merging"]}
{"id": "C47", "title": "Merging works with relationships outside the plan", "statement": "A plan whose tables have (ignored) foreign keys to tables outside the plan can be sampled with merge or --create.", "quantifier": "all schemas and plans", "why_tests_cant": "Needs ignore_fks together with merge/create.", "anchors": ["subsetter/sampler.py:DatabaseOutput.prepare", "subsetter/sampler.py:DatabaseOutput.create"]}
{"id": "C48", "title": "Every row is written exactly once, in order, in bounded batches", "statement": "For any number of result rows and any multiplier, the batches sent to the destination concatenate to exactly the transformed rows in order (each source row multiplier times, consecutively); every batch is non-empty and at most DESTINATION_BUFFER_SIZE+1 rows.", "quantifier": "all row counts, multipliers, buffer sizes", "why_tests_cant": "Boundary behaviour for every count.", "anchors": ["subsetter/sampler.py:DatabaseOutput.output_result_set"]}
{"id": "C49", "title": "A crash leaves a prefix", "statement": "Whatever the point at which the process dies during copying, each destination table has received a prefix of its rows, all tables before the current one in insert order are complete, and all later ones have received nothing.", "quantifier": "all crash points, all data", "why_tests_cant": "Crash points are unbounded.", "anchors": ["subsetter/sampler.py:DatabaseOutput.output_result_set", "subsetter/sampler.py:Sampler._copy_results"]}
{"id": "C50", "title": "Parents are written before children", "statement": "The database insert order contains each planned table existing at the destination exactly once, and every table after all tables it references at the destination; at any crash point every written row's foreign keys between sampled tables are satisfied if the complete sample satisfies them.", "quantifier": "all destination schemas, plans, crash points", "why_tests_cant": "All orders and crash points.", "anchors": ["subsetter/sampler.py:DatabaseOutput.insert_order", "subsetter/metadata.py:DatabaseMetadata.toposort"]}
{"id": "C51", "title": "Truncation deletes children before parents and stays in the closure", "statement": "Truncation empties exactly the destination tables that are sample targets or reference one directly or indirectly, each once, every table before any table it references; other tables are untouched.", "quantifier": "all destination schemas", "why_tests_cant": "All schema graphs.", "anchors": ["subsetter/sampler.py:DatabaseOutput.truncate"]}
{"id": "C52", "title": "Only tables about to be sampled are truncated", "statement": "README: if --truncate is specified any tables about to be sampled will be first truncated (and no others).", "quantifier": "all destination schemas", "why_tests_cant": "Needs destination tables outside the plan.", "anchors": ["subsetter/sampler.py:DatabaseOutput.truncate", "README.md"]}
{"id": "C53", "title": "No planned table is silently skipped", "statement": "A successful run writes the sample of every planned table; with --create no planned table is skipped.", "quantifier": "all plans and destination schemas", "why_tests_cant": "Requires destination lacking a table.", "anchors": ["subsetter/sampler.py:DatabaseOutput.insert_order", "subsetter/sampler.py:DatabaseOutput.create"]}
{"id": "C54", "title": "Distinct tables stay distinct after remapping", "statement": "Whatever the remap rules do, either all planned tables map to pairwise distinct destination tables or construction fails with ValueError.", "quantifier": "all rename functions and plans", "why_tests_cant": "Rename rules are arbitrary regex substitutions.", "anchors": ["subsetter/sampler.py:DatabaseOutput.__init__", "subsetter/sampler.py:DatabaseOutput._remap_table"]}
{"id": "C55", "title": "Conflict strategies act as documented", "statement": "For inserts into a table with a primary key: 'error' fails if some key exists and otherwise adds all rows; 'skip' keeps existing rows and adds the new keys; 'replace' overwrites the given non-key columns of existing rows; no strategy alters rows with other keys; a table without primary key, or replace without non-key columns, falls back to error/skip respectively.", "quantifier": "all table contents, batches, strategies", "why_tests_cant": "All contents and batches, duplicates inside a batch included.", "anchors": ["subsetter/sampler.py:ConflictInsert"]}
{"id": "C56", "title": "Omitting a primary key column is possible with database output", "statement": "The omit filter can be used for a column that cannot be set directly, e.g. an auto-generated primary key (subsetter.example.yaml).", "quantifier": "all filter configurations", "why_tests_cant": "Needs an omit filter on a primary key with database output.", "anchors": ["subsetter/sampler.py:ConflictInsert.__init__", "subsetter.example.yaml:omit"]}
{"id": "C57", "title": "Directory output writes one line per row copy", "statement": "Directory output writes per table exactly one JSON object per source row and copy, in order, keyed by the filtered column names, with multiplied columns mapped.", "quantifier": "all result sets, filters, multipliers", "why_tests_cant": "Unbounded inputs.", "anchors": ["subsetter/sampler.py:DirectoryOutput.output_result_set"]}
{"id": "C58", "title": "Sequence state ends past the written keys", "statement": "After copying a table on PostgreSQL the next generated key is greater than every key written by the run, unless the session's own last value is above that of the sequence.", "quantifier": "all written keys and sequence states", "why_tests_cant": "All sequence states.", "anchors": ["subsetter/sampler.py:_autoincrement_update"]}
{"id": "C59", "title": "Sequences never move backwards", "statement": "Copying a table never lowers its sequence below its current value.", "quantifier": "all sequence and session states", "why_tests_cant": "Needs a fresh session against an advanced sequence.", "anchors": ["subsetter/sampler.py:_autoincrement_get", "subsetter/sampler.py:_autoincrement_update"]}
{"id": "C60", "title": "Nothing is destroyed when validation fails", "statement": "If filter validation, multiplicity analysis, remapping or insert ordering fails, the destination has not been truncated and no row has been written.", "quantifier": "all configurations, schemas", "why_tests_cant": "Fault ordering over all failure causes.", "anchors": ["subsetter/sampler.py:Sampler.sample"]}
{"id": "C61", "title": "Filter chains track columns exactly", "statement": "For every constructible filter chain and every row matching its input columns, when the chain returns, the output has exactly one value per output column.", "quantifier": "all filter chains and rows", "why_tests_cant": "Chains compose arbitrarily.", "anchors": ["subsetter/filters.py:FilterViewChain", "subsetter/filters.py:FilterColumns", "subsetter/filters.py:FilterOmit"]}
{"id": "C62", "title": "Filters leave other columns alone", "statement": "A column not named by any filter of a chain appears in the output with its input value.", "quantifier": "all filter chains and rows", "why_tests_cant": "All chains and rows.", "anchors": ["subsetter/filters.py:FilterColumns.filter_view"]}
{"id": "C63", "title": "Anonymised columns never leak", "statement": "If a built-in overwriting filter (null, constant, random, uuid, faker) acts on a column, and no earlier filter moved or inspected it, the output of the whole chain is independent of the column's original value: two rows differing only there produce identical outputs under the same random choices.", "quantifier": "all chains, rows and random streams", "why_tests_cant": "Noninterference relates pairs of runs over all values.", "anchors": ["subsetter/filters.py:FilterColumns.filter_view", "subsetter/filters.py:FilterNull", "subsetter/filters.py:FilterConstant"]}
{"id": "C64", "title": "Filters that return too few values cannot leak", "statement": "Every acted-on column is replaced whatever a filter plugin returns.", "quantifier": "all plugin return lengths", "why_tests_cant": "Plugin behaviour is arbitrary.", "anchors": ["subsetter/filters.py:FilterColumns.filter_view", "subsetter/filters.py:FilterPlugin"]}
{"id": "C65", "title": "Omitted columns disappear and only those", "statement": "The omit filter removes exactly the named columns and preserves the order and values of the others.", "quantifier": "all column lists and rows", "why_tests_cant": "All lists.", "anchors": ["subsetter/filters.py:FilterOmit"]}
{"id": "C66", "title": "Filter construction rejects exactly the bad configurations", "statement": "A column filter is rejected with ValueError exactly when it names no column, a column twice, or a column absent at that point of the chain.", "quantifier": "all column lists and configurations", "why_tests_cant": "Exactness over all lists.", "anchors": ["subsetter/filters.py:_validate_and_index"]}
{"id": "C67", "title": "Multiplex applies the first matching condition", "statement": "A multiplex filter applies exactly the filter of the first condition matching the column's value, leaves the row unchanged if none matches, and never changes the columns.", "quantifier": "all condition lists and rows", "why_tests_cant": "All lists.", "anchors": ["subsetter/filters.py:FilterMultiplex", "subsetter/filters.py:MultiplexCondition"]}
{"id": "C68", "title": "Zeroing keeps type and hides value", "statement": "The zero filter maps every value to the zero of its own type (None stays None), so the result depends only on the type (and timezone) of the input, and fails for unsupported types.", "quantifier": "all values", "why_tests_cant": "All values.", "anchors": ["subsetter/filters.py:FilterZero"]}
{"id": "C69", "title": "Random strings stay inside alphabet and length", "statement": "random_string yields strings of exactly the configured length over the configured alphabet; an unknown/custom alphabet that is empty is rejected.", "quantifier": "all lengths, alphabets, random streams", "why_tests_cant": "All random streams.", "anchors": ["subsetter/filters.py:FilterRandomString"]}
{"id": "C70", "title": "Table names round-trip", "statement": "parse_table_name('s.t') is (s, t) for every schema s without a dot and every table name t; it fails with ValueError exactly on names without a dot.", "quantifier": "all strings", "why_tests_cant": "All strings.", "anchors": ["subsetter/common.py:parse_table_name"]}
{"id": "C71", "title": "Connection settings resolve by precedence", "statement": "Each connection setting is the configured value if set, else the environment value, else the default; port 0 or unset becomes the dialect's default port; an unknown dialect is rejected.", "quantifier": "all configurations and environments", "why_tests_cant": "All combinations.", "anchors": ["subsetter/common.py:database_url"]}
{"id": "C72", "title": "TLS settings are honoured", "statement": "If TLS is required (by config, or by environment when config is silent), PostgreSQL connections use sslmode require, verify-ca or verify-full matching the verify setting and MySQL connections carry an ssl section with the matching verify flag; if not required no TLS arguments are passed; sqlite is rejected.", "quantifier": "all configurations and environments", "why_tests_cant": "All combinations.", "anchors": ["subsetter/common.py:DatabaseConfig.SSLConfig.get_connect_args"]}
{"id": "C73", "title": "TLS settings follow the effective dialect", "statement": "The TLS arguments passed to the driver are those of the dialect the connection URL uses.", "quantifier": "all configurations and environments", "why_tests_cant": "Needs the dialect to come from the environment.", "anchors": ["subsetter/common.py:DatabaseConfig.database_engine"]}
{"id": "C74", "title": "pydantic_search visits every sub-model once", "statement": "pydantic_search(root) yields exactly the models reachable from root through model fields, lists and dicts, each once, root first if it is a model, and terminates even on cyclic or shared structures.", "quantifier": "all object graphs", "why_tests_cant": "Arbitrary object graphs.", "anchors": ["subsetter/common.py:pydantic_search"]}
{"id": "C75", "title": "Later config files override earlier ones key by key", "statement": "The merged configuration has at every key path the value of the last file defining it, descending into mappings; keys absent from later files keep earlier values; merging with an empty mapping changes nothing.", "quantifier": "all configuration trees and file lists", "why_tests_cant": "Recursive trees.", "anchors": ["subsetter/__main__.py:_get_config"]}
{"id": "C76", "title": "Extra foreign keys are well-formed", "statement": "An extra_fks entry is accepted exactly when its source columns are non-empty, equally many as the destination columns, and neither list repeats a column.", "quantifier": "all column lists", "why_tests_cant": "All lists.", "anchors": ["subsetter/config_model.py:PlannerConfig.ExtraFKConfig.check_columns_match"]}
{"id": "C77", "title": "A full run preserves foreign keys", "statement": "For every plan produced by the planner, running the sampler with no filters, multiplicity, compaction or merge writes tables whose rows satisfy every considered foreign key between planned tables, for any source satisfying its foreign keys and any random choices.", "quantifier": "all schemas, configurations, source contents, random outcomes", "why_tests_cant": "End-to-end over all data.", "anchors": ["subsetter/planner.py:Planner.plan", "subsetter/sampler.py:Sampler.sample"]}
{"id": "C78", "title": "Sampled rows are source rows, each at most once; passthrough tables are copied whole", "statement": "Whatever the plan and the random choices, every row selected by a planned query is a row of that table in the source, no row is selected twice (in a source without duplicate rows), and the query of a passthrough table selects exactly all rows.", "quantifier": "all schemas, configurations, source contents, random outcomes", "why_tests_cant": "Planned queries join against other tables; that the joins never multiply or invent rows depends on all schemas and contents.", "anchors": ["subsetter/planner.py:Planner._plan_table", "subsetter/plan_model.py:SQLStatementSelect.build"]}
{"id": "C79", "title": "Planning is deterministic", "statement": "Planning the same schema with the same configuration twice gives the same queries in the same order (only passthrough tables, which come first, may be permuted), or fails with the same error, whatever the hash-randomised iteration order of sets.", "quantifier": "all schemas, configurations and set iteration orders", "why_tests_cant": "Set iteration order changes between processes; a test process sees one order.", "anchors": ["subsetter/planner.py:Planner.plan", "subsetter/solver.py:order_graph"]}
{"id": "C80", "title": "Compaction touches exactly the configured columns", "statement": "The compacted columns are exactly: the listed columns of sampled tables, and, when primary_keys (or auto_increment_keys, for tables with an auto-increment column) is set, the single integer primary key column of each sampled table; never a column of a passthrough table.", "quantifier": "all schemas, plans and compaction settings", "why_tests_cant": "All combinations of settings and schemas.", "anchors": ["subsetter/sampler.py:Sampler._get_compact_columns", "subsetter/config_model.py:CompactConfig"]}
{"id": "C81", "title": "The planner's plans can always be carried out", "statement": "Every plan the planner produces for a source database can be run by the sampler against that database: materialisation and copying raise no error, and every statement they execute only reads tables and columns that exist; on MySQL no statement opens a temporary table more than once (unless a compacted table is referenced by several columns of one foreign key or by itself).", "quantifier": "every source schema, planner configuration, accepted compaction setting, database contents and hash seed", "why_tests_cant": "Plans range over unbounded schemas and the copying statement is assembled from the schema, so no finite set of schemas covers all of them.", "anchors": ["subsetter/planner.py:Planner.plan", "subsetter/sampler.py:Sampler.sample", "subsetter/sampler.py:Sampler._materialize_tables", "subsetter/sampler.py:Sampler._copy_results"]}
{"id": "C82", "title": "Created tables duplicate the source tables", "statement": "With create, a run creates exactly the tables of the plan that do not exist in the destination under their destination name; each has the columns, primary key and unique constraints of its source table and its foreign keys, which lead to destination names of planned tables. Without create, and for tables that exist, no schema is changed.", "quantifier": "every schema, remapping, plan, destination and outcome of the run", "why_tests_cant": "Schemas and remappings are unbounded.", "anchors": ["subsetter/sampler.py:DatabaseOutput.create", "subsetter/sampler.py:DatabaseOutput._remap_table"]}
{"id": "C83", "title": "A truncating run can be repeated after a crash", "statement": "If a first attempt at a sample failed or was killed at any moment, without having created tables, then running the same sample again with truncate (and the same random state) on what it left behind succeeds and ends with the same rows in every table as if the first attempt had never happened.", "quantifier": "every source, plan, configuration, crash point, behaviour of the destination during the first attempt", "why_tests_cant": "A test would have to kill the process after every statement of every run.", "anchors": ["subsetter/sampler.py:Sampler.sample", "subsetter/sampler.py:DatabaseOutput.truncate", "subsetter/sampler.py:DatabaseOutput.output_result_set"]}
{"id": "C84", "title": "Naming the dialect in the environment is as good as in the configuration", "statement": "A connection whose dialect is named by the environment variable behaves as if the configuration named it: same URL, isolation level, TLS arguments and statements on connecting (attached sqlite files).", "quantifier": "all configurations and environments", "why_tests_cant": "Combinations of configuration and environment are unbounded and need several databases.", "anchors": ["subsetter/common.py:database_url", "subsetter/common.py:DatabaseConfig.database_engine"]}
{"id": "C85", "title": "Attached sqlite files are opened under exactly their names", "statement": "For sqlite, each new connection first attaches the configured files in order, each statement's string literal denoting exactly the configured file name whatever characters it contains, and then runs the session statements in order; for other configured dialects nothing is attached.", "quantifier": "all file names, aliases and session statements", "why_tests_cant": "Quoting must be right for every string.", "anchors": ["subsetter/common.py:DatabaseConfig.database_engine"]}
{"id": "C86", "title": "After a run the destination holds exactly the sample", "statement": "A successful run that only copies (no merge, no multiplier, conflicts are errors) into tables that are truncated, empty or created by the run leaves in each of them exactly the rows selected for it, in order, one for one: the value of every column that no filter changes and the destination does not compute is the selected one.", "quantifier": "every plan, source, configuration of that kind, destination schema and batch size", "why_tests_cant": "The end state depends on creation, truncation, batching and column handling together, for unbounded data.", "anchors": ["subsetter/sampler.py:Sampler.sample", "subsetter/sampler.py:DatabaseOutput.output_result_set", "subsetter/sampler.py:DatabaseOutput.truncate"]}
{"id": "C87", "title": "A subset is referentially consistent at the destination", "statement": "Plan a consistent source database and sample it into truncated, empty or created tables without compaction, multiplication or merging: then every foreign key the planner considered holds between the destination tables, whatever remapping, filters on other columns or planner configuration are used (targets that combine 'all' with 'amount' excepted).", "quantifier": "every source schema, planner configuration, database contents, remapping, destination and hash seed", "why_tests_cant": "This is the tool's purpose, and it is a statement about all schemas and all contents.", "anchors": ["subsetter/planner.py:Planner.plan", "subsetter/sampler.py:Sampler.sample", "subsetter/__main__.py:_main_subset"]}
{"id": "C88", "title": "A misspelled option is never silently ignored", "statement": "If any section of the configuration contains an option the tool does not know, the command is refused before anything happens.", "quantifier": "all configurations and all places in them", "why_tests_cant": "The configuration is an unbounded tree; every section has its own set of options.", "anchors": ["subsetter/config_model.py:SubsetterConfig", "subsetter/common.py:DatabaseConfig", "subsetter/filters.py:FilterConfig", "subsetter/__main__.py:main"]}
{"id": "C89", "title": "`plan` writes its plan and nothing else", "statement": "The plan command never changes a destination database or an output directory. When it exits 0, its output holds the plan, and reading it gives the same queries and passthrough tables back. When it fails, nothing at all has changed, except when planning succeeded and writing the file failed.", "quantifier": "all configurations, source databases, file systems and environments", "why_tests_cant": "Failures can happen at every step, for unbounded configurations and schemas.", "anchors": ["subsetter/__main__.py:_main_plan", "subsetter/__main__.py:main", "subsetter/__main__.py:_get_plan_config"]}
{"id": "C90", "title": "Sampling commands report success exactly when the run succeeded", "statement": "The sample and subset commands exit 0 exactly when configuration, plan and sampler section are valid and the run succeeded. Otherwise nothing was changed, or only the place named by sampler.output. Nothing is touched before configuration, plan and sampler section are known to be valid.", "quantifier": "all configurations, plan files, sources, destinations and environments", "why_tests_cant": "Failures can happen at every step, for unbounded inputs.", "anchors": ["subsetter/__main__.py:_main_sample", "subsetter/__main__.py:_main_subset", "subsetter/__main__.py:main"]}
{"id": "C91", "title": "Planning to a file and sampling from it is the same as subset", "statement": "If plan with an output file, sample with that file, and subset all succeed, then the first two together leave every place as subset does: the same tables and, for tables whose filters use no random values, the same rows in the same order. In tables with random filters the columns no filter changes agree row by row. This includes multiplied, merged and renumbered rows. Targets chosen by amount or percentage are excluded, as the source chooses those rows at random.", "quantifier": "all configurations, sources and destinations", "why_tests_cant": "The plan passes through a file that reorders its queries; the rest must not depend on that, for all plans.", "anchors": ["subsetter/__main__.py:_main_plan", "subsetter/__main__.py:_main_sample", "subsetter/__main__.py:_main_subset"]}
{"id": "C92", "title": "Accepted configurations are well formed", "statement": "In every configuration the tool accepts, no table is named twice among targets or constraints, and every extra foreign key has non-empty column lists of equal length.", "quantifier": "all configuration files", "why_tests_cant": "Configuration files are unbounded trees.", "anchors": ["subsetter/config_model.py:PlannerConfig", "subsetter/config_model.py:ExtraFKConfig"]}
{"id": "C93", "title": "Leaving an option out means its documented default", "statement": "Writing an option of the planner, of a target, of the sampler, of multiplicity, of compaction or of the output explicitly with its documented default value gives the same configuration as leaving it out, whatever the other options are.", "quantifier": "all configurations and all optional options", "why_tests_cant": "The other options are arbitrary.", "anchors": ["subsetter/config_model.py:PlannerConfig", "subsetter/config_model.py:SamplerConfig"]}
{"id": "C94", "title": "Each command reads only its own environment variables", "statement": "plan depends on no environment variable but SUBSET_SOURCE_*; the sampling commands on none but SUBSET_SOURCE_* and SUBSET_DESTINATION_*; where output goes depends on SUBSET_DESTINATION_* only.", "quantifier": "all pairs of environments agreeing on those variables, and all inputs", "why_tests_cant": "A statement about pairs of runs over all environments.", "anchors": ["subsetter/common.py:database_url", "subsetter/common.py:DatabaseConfig.database_engine", "subsetter/__main__.py:main"]}
{"id": "C95", "title": "What a configuration file says is what is used", "statement": "In every accepted configuration, each option that is given has, in the configuration that is used, the value that was written (integers may stand for decimals), and every table and list of the file is used entirely and in order. Writing every option out in full gives the same configuration.", "quantifier": "all configuration files", "why_tests_cant": "The configuration is an unbounded tree with over a hundred options.", "anchors": ["subsetter/config_model.py:SubsetterConfig", "subsetter/common.py:DatabaseConfig", "subsetter/filters.py:FilterConfig"]}
{"id": "C96", "title": "Renumbering leaves the destination referentially consistent", "statement": "After a successful sampling run of the planner's plan with compaction, every foreign key the planner considered holds between the destination tables, for each row whose foreign key columns are not NULL.", "quantifier": "all schemas, consistent sources, planner configurations, compaction settings, destinations and random choices", "why_tests_cant": "Which rows are selected, their numbers, and which columns follow are decided at run time for data of any size.", "anchors": ["subsetter/sampler.py:Sampler._copy_results", "subsetter/sampler.py:Sampler._get_compact_columns", "subsetter/planner.py:Planner.plan"]}
{"id": "C97", "title": "Renumbering loses no references", "statement": "After a successful run with compaction, a row that was selected with a complete (nowhere NULL) reference to a renumbered row is written with a reference, not with NULL.", "quantifier": "all schemas, consistent sources, planner configurations, compaction settings and random choices", "why_tests_cant": "References are rewritten by an outer join; a missing match would silently write NULL.", "anchors": ["subsetter/sampler.py:Sampler._copy_results", "subsetter/sampler.py:Sampler._materialize_tables"]}
{"id": "C98", "title": "Multiplied copies are referentially consistent", "statement": "After a successful run of the planner's plan with a multiplier above one into tables that were emptied or consistent, every foreign key the planner considered holds between the destination tables, for all copies.", "quantifier": "all schemas, consistent sources, planner configurations, multipliers, exclusions, remappings and destinations", "why_tests_cant": "The columns to multiply are found by a closure over the schema; the rows are unbounded.", "anchors": ["subsetter/sampler.py:Sampler._get_multiplied_columns", "subsetter/sampler.py:_multiply_column", "subsetter/sampler.py:DatabaseOutput.output_result_set"]}
{"id": "C99", "title": "Merging leaves the destination referentially consistent", "statement": "After a successful run in merge mode into tables whose existing rows were consistent, every foreign key the planner considered holds between the destination tables, for the existing rows and for the new ones.", "quantifier": "all schemas, consistent sources, planner configurations, remappings and contents of the destination", "why_tests_cant": "The offsets depend on the data that is already there.", "anchors": ["subsetter/sampler.py:DatabaseOutput.prepare", "subsetter/sampler.py:DatabaseOutput.output_result_set"]}
{"id": "C100", "title": "Replacing and skipping rows leaves the destination referentially consistent", "statement": "After a successful run with conflict_strategy replace or skip into tables whose existing rows were consistent, every foreign key the planner considered holds between the destination tables.", "quantifier": "all schemas, consistent sources, planner configurations, remappings, dialects and contents of the destination", "why_tests_cant": "Any combination of existing and new rows may clash.", "anchors": ["subsetter/sampler.py:ConflictInsert", "subsetter/sampler.py:DatabaseOutput.output_result_set"]}
{"id": "C101", "title": "A foreign key survives every rewriting that treats both its ends alike", "statement": "Whatever combination of renumbering, multiplying, merging, replacing and skipping is used: a foreign key the planner considered holds after the run if it held between the existing rows and, for each of its column pairs, both columns are renumbered in step, multiplied both or neither, and shifted alike, and rows are found again by the key it refers to.", "quantifier": "all schemas, consistent sources, planner configurations, sampler configurations, remappings and destinations", "why_tests_cant": "The rewritings compose; their interaction must be right for all data.", "anchors": ["subsetter/sampler.py:Sampler.sample", "subsetter/sampler.py:DatabaseOutput.output_result_set", "subsetter/planner.py:Planner.plan"]}
{"id": "C102", "title": "Once a run has begun to change the destination, only the destination can stop it", "statement": "If a run fails after it has written anything, then the database or file system refused one of the run's own statements, or a row to be inserted has a key that is taken; no inconsistency of the configuration, plan or schema is discovered half-way.", "quantifier": "all schemas, sources, planner and sampler configurations, destinations and moments of refusal", "why_tests_cant": "Each phase of a run raises its own exceptions; which of them can occur late depends on all inputs at once.", "anchors": ["subsetter/sampler.py:Sampler.sample", "subsetter/sampler.py:Sampler._copy_results", "subsetter/sampler.py:DatabaseOutput.output_result_set", "subsetter/sampler.py:DirectoryOutput.output_result_set"]}
{"id": "C103", "title": "With a cooperative destination a run is carried out to the end or changes nothing", "statement": "For a configuration that can be carried out: an export to files that passes the initial checks completes if the file system refuses nothing, and a run into a database that refuses no statement, with conflict_strategy skip and primary keys in all its tables, completes or leaves the database as it was.", "quantifier": "all schemas, sources, plans, sampler configurations and contents of the destination", "why_tests_cant": "Every statement of every run must be one that can be executed.", "anchors": ["subsetter/sampler.py:Sampler.sample", "subsetter/sampler.py:DatabaseOutput.output_result_set", "subsetter/sampler.py:ConflictInsert"]}
{"id": "C104", "title": "Foreign keys hold after every statement of a run", "statement": "While a run writes to a database, after every statement it has committed, also if the run is stopped or refused there, every foreign key of the destination that held before the run holds; provided that a foreign key of a written table corresponds to one the planner considered whose ends are treated alike, and that the rows another table refers to are not replaced under another key.", "quantifier": "all schemas, consistent sources, planner and sampler configurations, destinations, outcomes of the run and moments", "why_tests_cant": "The states between two statements depend on the order in which tables are emptied and filled, on all data and on where the run stops.", "anchors": ["subsetter/sampler.py:Sampler.sample", "subsetter/sampler.py:DatabaseOutput.truncate", "subsetter/sampler.py:DatabaseOutput.insert_order", "subsetter/metadata.py:DatabaseMetadata.toposort"]}
{"id": "C105", "title": "A destination that enforces its foreign keys makes no difference", "statement": "Under the same provisions for all foreign keys of the destination: on a database that checks them after each statement the run executes the same statements, with the same result, as on one that does not check them.", "quantifier": "all schemas, consistent sources, planner and sampler configurations and destinations", "why_tests_cant": "One statement in the wrong order, for one schema, would stop the run.", "anchors": ["subsetter/sampler.py:Sampler.sample", "subsetter/sampler.py:DatabaseOutput.truncate", "subsetter/sampler.py:DatabaseOutput.insert_order"]}
{"id": "C106", "title": "Files of output are read back as the rows", "statement": "A file written for a table has one line per row. Any reader of JSON accepts each line and finds there exactly the row's columns, in order, with their values: NULL, truth values, integers, floats and strings as such, other values as their text. Two files with the same text hold the same rows, apart from values that JSON does not have.", "quantifier": "all rows, column names and strings", "why_tests_cant": "Escaping must be right for every string and combination of values.", "anchors": ["subsetter/sampler.py:DirectoryOutput.output_result_set"]}
{"id": "C107", "title": "A run in which no row gets a taken key is carried out to the end", "statement": "Take a configuration that can be carried out, with tables that fit it. Let every unique key of a written table that has no skipping tell the rows of the source apart, be copied unchanged, contain a multiplied column if rows are multiplied, and either start from an empty table or contain a column that merging gives fresh values. Then on a database that refuses no statement the run completes; and on one that enforces its foreign keys it completes, too, if these hold at the start and the configuration respects them, or the very first statement, the creation of tables, is refused.", "quantifier": "all schemas, sources, planner and sampler configurations and contents of the destination", "why_tests_cant": "No key of any written row may be taken: offsets, copies and renumbering must be injective on all data, and every statement executable.", "anchors": ["subsetter/sampler.py:Sampler.sample", "subsetter/sampler.py:DatabaseOutput.prepare", "subsetter/sampler.py:DatabaseOutput.output_result_set", "subsetter/sampler.py:DatabaseOutput.create", "subsetter/sampler.py:_multiply_column", "subsetter/metadata.py:DatabaseMetadata.toposort"]}
{"id": "C108", "title": "Values of anonymised columns never influence a run", "statement": "Take a column of a table with a primary key that is neither part of that key nor at either end of a foreign key, that neither the planner configuration nor the plan looks at to choose rows, and that a filter overwrites (or omits) before any other filter looks at it. Two source databases that differ only in the values of such columns give the same run: the same statements in the same order, the same rows, files and sequences, the same failure if it fails.", "quantifier": "all schemas, plans, configurations (filters, compaction, multiplicity, strategies, merging), both kinds of output, all pairs of sources, destinations and crash points", "why_tests_cant": "A statement about two runs on every pair of sources: it says that nothing at all is leaked, through values, row counts, order, numbering or errors.", "anchors": ["subsetter/sampler.py:Sampler.sample", "subsetter/filters.py:FilterViewChain", "subsetter/planner.py:Planner._plan_table", "subsetter/plan_model.py:SQLStatementSelect.build"]}
{"id": "C109", "title": "A run repeated into the tables it filled changes nothing", "statement": "After a completed run, run the same again without truncating, whatever was added to the destination in between and however the second run ends. A table with a primary key, all of whose keys are copied untouched by filters and not shifted by merging, has then exactly the rows it had if the strategy is skip; if it is replace and the table has no further unique keys, it has the same rows apart from the columns that filters touch. With skip and without merging, if this goes for all written tables, no table of the destination changes.", "quantifier": "all schemas, sources, plans, configurations, destinations, random states, rows added between the runs and outcomes of the second run", "why_tests_cant": "Every row written by the second run must be recognised as one written by the first, for all data.", "anchors": ["subsetter/sampler.py:Sampler.sample", "subsetter/sampler.py:ConflictInsert", "subsetter/sampler.py:DatabaseOutput.output_result_set"]}
{"id": "C110", "title": "An interrupted run can be taken up by running it again", "statement": "Let a run be stopped or refused at any statement, after the tables were emptied if it truncates, and let the same be run again without truncating, to completion. A table with a primary key that is not NULL, with strategy skip, whose keys are copied untouched by filters and not shifted by merging, then has the same rows in the same order as if the run had never been interrupted, in all columns that filters do not touch.", "quantifier": "all schemas, sources, plans, configurations, destinations, random states and crash points", "why_tests_cant": "The property ranges over every point at which a run can be interrupted.", "anchors": ["subsetter/sampler.py:Sampler.sample", "subsetter/sampler.py:ConflictInsert", "subsetter/sampler.py:DatabaseOutput.output_result_set"]}
{"id": "C111", "title": "A run during which other sessions change the source sees every table as it was at one moment", "statement": "Other sessions may commit changes to the source while a run reads it, statement by statement. For plans whose queries read, of the source, only the table they are for (as the planner's do), the run does what it would do on an unchanging database that holds every table as it was at one moment of its own. These moments are different, and a table whose query reads the sample of another is read after it. If nothing changes, any run does what it does on that one state.", "quantifier": "all schemas, plans, configurations, random states, set iteration orders, destinations, and all histories of the source (any change between any two statements)", "why_tests_cant": "The property ranges over every interleaving with arbitrary writers.", "anchors": ["subsetter/sampler.py:Sampler.sample", "subsetter/sampler.py:Sampler._materialize_tables", "subsetter/sampler.py:Sampler._copy_results", "subsetter/common.py:DatabaseConfig.database_engine"]}
{"id": "C112", "title": "Foreign keys survive sampling while other sessions change the source", "statement": "If the source satisfies the considered foreign keys at every moment, then so do the tables a run copied into an empty destination, although the source changed during the run.", "quantifier": "all schemas, planner configurations, sources, histories of the source, random states and set iteration orders", "why_tests_cant": "The property ranges over every interleaving with arbitrary writers.", "anchors": ["subsetter/sampler.py:Sampler._materialize_tables", "subsetter/sampler.py:Sampler._copy_results", "subsetter/common.py:DatabaseConfig.database_engine", "subsetter/planner.py:Planner._plan_table"]}
{"id": "C113", "title": "Sampling is reproducible", "statement": "Run the same command twice: the same configuration, the same source, destinations with the same tables, which are truncated or hold the same rows. The two processes iterate over sets in different orders, start with different random states, and the database draws different random numbers. If the plan draws no random rows and both runs complete, they leave the same tables; a table whose filters use no randomness has the same rows in the same order, and so have other tables in the columns that no filter touches (for strategy error). The same goes for the written files.", "quantifier": "all configurations, schemas, sources, destinations, set iteration orders and random states", "why_tests_cant": "Python's string hashes, and so all set orders, change with every process: a test sees a few of them.", "anchors": ["subsetter/sampler.py:Sampler.sample", "subsetter/planner.py:Planner.plan", "subsetter/sampler.py:DatabaseOutput.prepare", "subsetter/sampler.py:Sampler._materialization_order"]}
{"id": "C114", "title": "An isolation level above READ COMMITTED makes the sample consistent", "statement": "If isolation_level of the source is REPEATABLE READ or SERIALIZABLE, a run does what it does on the database as it was when the run's first statement began, whatever other sessions commit meanwhile; in particular the copied tables satisfy the considered foreign keys.", "quantifier": "all configurations and process environments, schemas, plans, sources, histories of the source, random states, set iteration orders and destinations", "why_tests_cant": "The property ranges over every interleaving with arbitrary writers, and depends on which statements the program sends in one transaction.", "anchors": ["subsetter/common.py:DatabaseConfig.database_engine", "subsetter/sampler.py:Sampler.sample", "subsetter/sampler.py:TempTableCreator.create", "subsetter/sampler.py:Sampler._copy_results"]}
{"id": "C115", "title": "Wider targets, fewer constraints and more source rows never remove rows from the sample", "statement": "Change the configuration so that the same targets take more rows (all of them, longer lists of values, fewer patterns or conditions, no amount) and the tables have fewer constraints, or let the source change in any way that keeps the rows of the old sample, or both: then the same tables are sampled, and every row of the old sample is in the new one; the same goes for the tables two such runs leave. In particular, a sample of a source does not shrink when rows are added to the source, if no target has an amount or a percentage.", "quantifier": "all configurations, schemas, pairs of sources, set iteration orders and random numbers", "why_tests_cant": "It compares two runs for all configurations and databases; each plan filters tables through chains of other samples.", "anchors": ["subsetter/planner.py:Planner._plan_internal", "subsetter/planner.py:Planner._plan_table", "subsetter/solver.py:order_graph"]}
{"id": "C116", "title": "A further target never removes rows from the sample", "statement": "Add a target to a configuration without amounts and percentages and leave everything else as it is: every row that was sampled before is still sampled.", "quantifier": "all configurations, further targets, schemas, sources, set iteration orders and random numbers", "why_tests_cant": "It compares two runs for all configurations and databases; a further target changes the order in which all tables are sampled.", "anchors": ["subsetter/planner.py:Planner._plan_internal", "subsetter/planner.py:Planner._plan_table", "subsetter/solver.py:order_graph"]}
{"id": "C117", "title": "The words of the command line mean what the usage says", "statement": "A command line made of options (in full, abbreviated as long as it is clear which one is meant, letters put together, values attached, after an equals sign or as the next word), a command and its options is carried out with exactly these settings: all configuration files in the order given, the last plan file or output file, truncation and creation only if switched on. No line has two readings. Any other line changes nothing and ends with status 2, or, asking for help, with status 0.", "quantifier": "all lists of words, all states of files and databases", "why_tests_cant": "There are infinitely many command lines, and options can be abbreviated, combined and mixed with values that look like options.", "anchors": ["subsetter/__main__.py:_parse_args", "subsetter/__main__.py:_add_plan_args", "subsetter/__main__.py:_add_sample_args", "subsetter/__main__.py:main"]}
{"id": "C118", "title": "Nothing is deleted or created unless the command line says so", "statement": "If no word of the command line is --truncate or a clear abbreviation of it, the program deletes no rows: every row that was in any table of any destination is still there, in its place, with new rows after the old ones; only if the configuration says 'replace' may another row stand in its place. (Files of an export are written anew.) If no word is --create, no table is created anywhere. This holds whatever the configuration files, plans, schemas and data, and however the program ends.", "quantifier": "all command lines, configuration files, plans, sources, destinations, random states, set iteration orders and failures", "why_tests_cant": "A destructive statement may be sent for one unforeseen combination of configuration, schema and failure.", "anchors": ["subsetter/__main__.py:_parse_args", "subsetter/__main__.py:main", "subsetter/sampler.py:Sampler.sample", "subsetter/sampler.py:DatabaseOutput.truncate", "subsetter/sampler.py:DatabaseOutput.create"]}
{"id": "C119", "title": "The sample of a sample is the sample", "statement": "Take what a run has left in its destination as the source of another run with the same plan configuration. If no target asks for less than 100 percent of its rows, the second run copies all of it: it leaves the same rows, in the columns of the source.", "quantifier": "all configurations, schemas, sources, set iteration orders and random numbers of both runs, orders in which the second source returns its rows", "why_tests_cant": "It needs every filter of every plan to accept each row that some earlier sample accepted, for all schemas and data.", "anchors": ["subsetter/planner.py:Planner._plan_internal", "subsetter/planner.py:Planner._plan_table", "subsetter/sampler.py:Sampler.sample"]}
{"id": "C120", "title": "A plan file means what it says", "statement": "There is one format of plan files: which entries each part of a plan may or must have, under which names, with which default values, and which words the tags and operators are. A file of this format is read as the plan it says, and it says one only; every other file is rejected. The file the planner writes says the plan that was made.", "quantifier": "all plan files (also those written or edited by hand), all plans the planner makes", "why_tests_cant": "Plans nest without limit, and a mistake shared by the writer and the reader does not show in any round trip.", "anchors": ["subsetter/plan_model.py:SubsetPlan", "subsetter/plan_model.py:SQLStatementSelect", "subsetter/plan_model.py:SQLTableQuery", "subsetter/__main__.py:_main_sample"]}
{"id": "C121", "title": "The order of the entries does not matter", "statement": "Write the entries of the planner configuration (targets, constraints, select patterns, ignored and passthrough tables, ignored and extra foreign keys) in any order, and let the database list its tables, foreign keys and UNIQUE constraints in any order: planning gives the same queries in the same order (but for the passthrough tables, which come first), or the same error.", "quantifier": "all configurations and schemas, all their rearrangements, all set iteration orders", "why_tests_cant": "It compares all rearrangements of all configurations and schemas.", "anchors": ["subsetter/planner.py:Planner._plan_internal", "subsetter/planner.py:Planner._plan_table", "subsetter/metadata.py:ForeignKey", "subsetter/metadata.py:DatabaseMetadata.from_engine"]}
{"id": "C122", "title": "Tables that are not chosen do not matter", "statement": "The plan depends only on the tables the configuration chooses. A further table in the database whose name matches no pattern, whatever it refers to, changes neither the plan nor the error; nor does any change to the tables that are not chosen.", "quantifier": "all configurations, schemas, further or changed tables, set iteration orders", "why_tests_cant": "It compares all pairs of schemas that agree on the chosen tables.", "anchors": ["subsetter/planner.py:Planner.plan", "subsetter/metadata.py:DatabaseMetadata.from_engine", "subsetter/metadata.py:DatabaseMetadata.infer_missing_foreign_keys", "subsetter/metadata.py:DatabaseMetadata.compute_reverse_keys"]}
{"id": "C123", "title": "Rows of other tables do not matter", "statement": "A run looks at the rows of those tables only that the queries of its plan mention. Whatever rows the other tables of the source hold, the run writes the same and ends the same way. For a plan made by the planner, these are the planned tables.", "quantifier": "all plans (also hand-written ones), sampler configurations, sources, destinations, random numbers, pairs of sources that agree on the mentioned tables", "why_tests_cant": "It compares runs on all pairs of sources that agree on the mentioned tables.", "anchors": ["subsetter/sampler.py:Sampler.sample", "subsetter/sampler.py:Sampler._materialize_tables", "subsetter/sampler.py:Sampler._copy_results", "subsetter/plan_model.py:SQLTableQuery"]}
{"id": "C124", "title": "Every sampled row belongs to a target's row", "statement": "A row of a table that is not a passthrough table is in the destination for a reason one can follow there: it is a row of a target table, or there is a row in the destination that refers to it or that it refers to, and that one belongs to a target's row in the same way, in finitely many steps. In particular, if the targets select nothing, nothing but the passthrough tables is sampled.", "quantifier": "all configurations, schemas, sources, set iteration orders, random numbers and destinations", "why_tests_cant": "It asks for a finite chain for each row of each sample.", "anchors": ["subsetter/planner.py:Planner._plan_internal", "subsetter/planner.py:Planner._plan_table", "subsetter/sampler.py:Sampler.sample"]}
{"id": "C125", "title": "The rows of the targets decide all others", "statement": "Chance decides which rows of the target tables are sampled, and nothing else: two runs of a plan on the same source that have sampled the same rows of the target tables have sampled the same rows of every table.", "quantifier": "all configurations, schemas, sources, set iteration orders, pairs of sequences of random numbers, destinations", "why_tests_cant": "It compares all pairs of runs with different random numbers.", "anchors": ["subsetter/planner.py:Planner._plan_table", "subsetter/plan_model.py:SQLStatementSelect", "subsetter/sampler.py:Sampler.sample"]}
{"id": "C126", "title": "Tables asked for whole arrive whole", "statement": "Every row of a passthrough table, and of a target for which all rows and no amount are asked for, is in the destination after the run, each one once, with the values of all columns of the source.", "quantifier": "all configurations, schemas, sources, set iteration orders, random numbers and destinations that are truncated or empty", "why_tests_cant": "Other constraints of the configuration or rows of other tables could keep a row out for one unforeseen combination.", "anchors": ["subsetter/planner.py:Planner._plan_internal", "subsetter/planner.py:Planner._plan_table", "subsetter/sampler.py:Sampler.sample"]}
{"id": "C127", "title": "Patterns choose tables as shell patterns do", "statement": "A pattern of the configuration chooses a table exactly if it stands for the table's full name as a shell pattern: an asterisk for any text, a question mark for any character, a list in brackets for one of the characters or ranges listed (or, with an exclamation mark, for any other), every other character for itself. In particular a full name without such characters chooses this table only, 'schema.*' all tables of the schema and no others, '*' all tables.", "quantifier": "all patterns, all databases", "why_tests_cant": "There are infinitely many patterns and names, and brackets nest with hyphens, exclamation marks and brackets in many ways.", "anchors": ["subsetter/metadata.py:DatabaseMetadata.from_engine"]}
{"id": "C128", "title": "Tables are found by their names, whatever these are", "statement": "A table of the database that is listed among the passthrough tables by its full name is in the plan, and a table that is in the plan is found when sampling, whatever characters its name contains.", "quantifier": "all configurations, plans and databases, all names of tables", "why_tests_cant": "Names may contain any characters, and names are also used as patterns.", "anchors": ["subsetter/planner.py:Planner.plan", "subsetter/sampler.py:Sampler.sample", "subsetter/metadata.py:DatabaseMetadata.from_engine"]}
{"id": "C129", "title": "Conditions of multiplex filters mean what they say", "statement": "A condition of a multiplex filter holds of the value of its column exactly if what it says is true: 'is' and '=' of an equal value (numbers are compared as numbers, whatever their type), 'in' of a value equal to one in the list, or of a text that is part of the text given, '<', '>', '<=', '>=' by the order of numbers and of texts, 'matches' of the texts the shell pattern stands for; 'is not', '!=', 'not in' are the opposites. A question that makes no sense for the value (comparing a text with a number, matching a number or NULL with a pattern) is an error. The filter of the first condition that holds is the one applied.", "quantifier": "all lists of conditions, all rows, all random generators, Faker implementations and plugins", "why_tests_cant": "The operators behave differently for every combination of types, and there are infinitely many values, lists and patterns.", "anchors": ["subsetter/filters.py:MultiplexCondition.match", "subsetter/filters.py:FilterMultiplex.filter_view"]}
{"id": "C130", "title": "Filters never stop a run", "statement": "Filters that were accepted when the run began can be applied to every row that is sampled: no value in the source makes a filter fail in the middle of a run, when tables may already have been emptied.", "quantifier": "all filter configurations, all rows, all runs", "why_tests_cant": "The offending value may be in one of millions of rows, of a type or NULL where no test expects it.", "anchors": ["subsetter/filters.py:MultiplexCondition.match", "subsetter/filters.py:FilterZero.filter_values", "subsetter/filters.py:FilterViewChain.filter_view", "subsetter/sampler.py:DatabaseOutput.output_result_set"]}
{"id": "C131", "title": "Foreign keys survive any history of runs", "statement": "Let a destination in which every foreign key holds be written by any number of runs, one after another: with different plans, sources and configurations, truncating or not, merging, skipping or replacing rows, each of them completed, failed or stopped at any statement, and with other programs at work in between that leave the foreign keys intact. If each run treats the foreign keys of the tables it writes as C104 asks for, then every foreign key of the destination, including those of tables created on the way, holds at the end.", "quantifier": "all histories of runs, all points at which runs are stopped, all destinations", "why_tests_cant": "Histories are unbounded, and each run starts from what stopped runs before it left.", "anchors": ["subsetter/sampler.py:Sampler.sample", "subsetter/sampler.py:DatabaseOutput.create", "subsetter/sampler.py:DatabaseOutput.truncate", "subsetter/sampler.py:DatabaseOutput.output_result_set"]}
{"id": "C132", "title": "Repeated runs lose nothing and never give a number twice", "statement": "Let a destination be written by any number of runs without --truncate that do not replace rows, whatever their plans, sources and configurations, each completed, failed or stopped at any statement. Then every table still has all the rows it had, in their order, with new ones after them. If the runs that write a table with an integer key merge rows into it under C44's conditions, then the keys of all rows added on the way are different from each other and greater than all keys that were there before: no key is ever given to two rows.", "quantifier": "all histories of runs, all points at which runs are stopped, all destination contents", "why_tests_cant": "Histories are unbounded; a run stopped half way leaves keys the next one must avoid.", "anchors": ["subsetter/sampler.py:DatabaseOutput.prepare", "subsetter/sampler.py:DatabaseOutput.output_result_set", "README.md:Merging"]}
{"id": "C133", "title": "Foreign keys survive runs that write at the same time", "statement": "Let several runs write to the same database at the same time, their statements interleaved in any way, each begun at any moment, some of them failing or stopped at any statement, while other programs write there, too, without removing or changing rows or breaking foreign keys. If no run truncates or creates tables, and each treats the foreign keys of the tables it writes as C104 asks for, then foreign keys that hold at first hold at every moment. If, moreover, rows are not replaced, no row that was there is lost, whatever the plans and configurations.", "quantifier": "all interleavings of any number of runs and other programs, all plans, sources, configurations and destinations", "why_tests_cant": "Schedules are unbounded, and each run acts on keys it read before the others wrote.", "anchors": ["subsetter/sampler.py:Sampler.sample", "subsetter/sampler.py:DatabaseOutput.prepare", "subsetter/sampler.py:DatabaseOutput.output_result_set"]}
{"id": "C134", "title": "Rows of runs at the same time are not mixed up", "statement": "When several runs write to the same database at the same time, none of them truncating or replacing rows, every row a run reports as written is there as that run wrote it, and a row written by a run refers to the rows of the same run, as in its source.", "quantifier": "all interleavings of any number of runs and other programs, all plans, sources, configurations and destinations", "why_tests_cant": "The keys a merging run will give are decided when it begins; another run may use them first in one of unboundedly many schedules.", "anchors": ["subsetter/sampler.py:DatabaseOutput.prepare", "subsetter/sampler.py:DatabaseOutput.output_result_set", "README.md:Merging"]}
{"id": "C135", "title": "A run follows the foreign keys of the planned tables", "statement": "Where a run renumbers, multiplies or shifts keys, the references that follow are those along the foreign keys that the source declares for the planned tables, and, if inference is on, along the columns named like the primary key of exactly one other planned table (of the same schema, in mode schema); no others. For a configuration without extra_fks and ignore_fks and with the same inference mode for planning and sampling, these are exactly the foreign keys the planner considered, provided that, with inference, all chosen tables are planned.", "quantifier": "all plans (also hand-written ones), schemas, inference modes, set iteration orders", "why_tests_cant": "A key is inferred by comparing all columns of all tables, and one more planned table can change the outcome.", "anchors": ["subsetter/sampler.py:Sampler.sample", "subsetter/metadata.py:DatabaseMetadata.infer_missing_foreign_keys", "subsetter/metadata.py:DatabaseMetadata.from_engine"]}
{"id": "C136", "title": "The way a configuration is written does not matter", "statement": "A configuration that is accepted means the same however it is written in full: with the options of each section in any order, flags written as true, yes, on, 1 and the like in capital or small letters, and numbers as integers, as decimals without fraction or in quotation marks. The values that rows are compared with or that columns are set to are not converted, but for true and false in comparisons, which are 1 and 0.", "quantifier": "all configuration files, all ways to write them", "why_tests_cant": "There are infinitely many configurations, and each has infinitely many ways to be written.", "anchors": ["subsetter/config_model.py:SubsetterConfig", "subsetter/common.py:DatabaseConfig", "subsetter/filters.py:FilterConfig", "subsetter/__main__.py:_get_config"]}
