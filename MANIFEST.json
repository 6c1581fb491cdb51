{
 "claims": [
  {
   "property": "C01",
   "status": "proved",
   "theorems": [
    "C01_toposort_order"
   ],
   "note": ""
  },
  {
   "property": "C02",
   "status": "proved",
   "theorems": [
    "C02_toposort_cycle"
   ],
   "note": ""
  },
  {
   "property": "C03",
   "status": "proved",
   "theorems": [
    "C03_reverse_graph",
    "C03_reverse_graph_keyerror"
   ],
   "note": ""
  },
  {
   "property": "C04",
   "status": "proved",
   "theorems": [
    "C04_toposort_reachable"
   ],
   "note": ""
  },
  {
   "property": "C05",
   "status": "proved",
   "theorems": [
    "C05_toposort_reachable_cycle"
   ],
   "note": ""
  },
  {
   "property": "C06",
   "status": "proved",
   "theorems": [
    "C06_order_graph_direction"
   ],
   "note": ""
  },
  {
   "property": "C07",
   "status": "proved",
   "theorems": [
    "C07_order_graph_component"
   ],
   "note": ""
  },
  {
   "property": "C08",
   "status": "proved",
   "theorems": [
    "C08_order_graph_cycle"
   ],
   "note": "A self-loop of the source itself is not reported (the source is in the ignore set); the planner's source has none."
  },
  {
   "property": "C09",
   "status": "proved",
   "theorems": [
    "C09_order_graph_deterministic"
   ],
   "note": "Stronger than stated: the two runs may also start from different representations of the same graph."
  },
  {
   "property": "C10",
   "status": "partial",
   "theorems": [
    "C10_order_graph_any_source_partial",
    "C10_order_graph_component_refuted",
    "C10_order_graph_direction_refuted"
   ],
   "note": "The docstring's claim is false for two-sided sources: both guarantees are refuted by witness runs. What remains true for every source is proved."
  },
  {
   "property": "C11",
   "status": "proved",
   "theorems": [
    "C11_plan_acyclic"
   ],
   "note": ""
  },
  {
   "property": "C12",
   "status": "proved",
   "theorems": [
    "C12_plan_covers"
   ],
   "note": ""
  },
  {
   "property": "C13",
   "status": "proved",
   "theorems": [
    "C13_foreign_keys_preserved"
   ],
   "note": ""
  },
  {
   "property": "C14",
   "status": "proved",
   "theorems": [
    "C14_children_maximal"
   ],
   "note": ""
  },
  {
   "property": "C15",
   "status": "partial",
   "theorems": [
    "C15_maximal_partial",
    "C15_maximal_refuted"
   ],
   "note": "False of the code: rows with a NULL foreign key are left out (inner joins); refuted by a witness. Proved for rows without NULLs in these foreign keys."
  },
  {
   "property": "C16",
   "status": "proved",
   "theorems": [
    "C16_parents_minimal",
    "C16_three_kinds"
   ],
   "note": ""
  },
  {
   "property": "C17",
   "status": "proved",
   "theorems": [
    "C17_target_filters"
   ],
   "note": ""
  },
  {
   "property": "C18",
   "status": "partial",
   "theorems": [
    "C18_all_partial",
    "C18_all_refuted"
   ],
   "note": "False of the code when 'amount' is also given: the limit is still applied; refuted by a witness. Proved for targets without an amount."
  },
  {
   "property": "C19",
   "status": "partial",
   "theorems": [
    "C19_referenced_target_partial",
    "C19_whole_table_partial",
    "C19_referenced_target_refuted"
   ],
   "note": "Containment of both parts is proved for all targets, exactness for targets with an amount. Without one, simplify merges the two selects and the whole table is sampled: proved, and refuted by a witness."
  },
  {
   "property": "C20",
   "status": "partial",
   "theorems": [
    "C20_constraints_partial",
    "C20_constraints_refuted"
   ],
   "note": "Proved for every planned table that is not a target. For targets the constraints are silently not applied: refuted by a witness."
  },
  {
   "property": "C21",
   "status": "proved",
   "theorems": [
    "C21_rejects",
    "C21_constraints"
   ],
   "note": ""
  },
  {
   "property": "C22",
   "status": "proved",
   "theorems": [
    "C22_edit_foreign_keys"
   ],
   "note": ""
  },
  {
   "property": "C23",
   "status": "partial",
   "theorems": [
    "C23_without_dependencies_partial",
    "C23_keyerror",
    "C23_without_dependencies_refuted"
   ],
   "note": "False of the code: a foreign key leaving the selection raises KeyError in compute_reverse_keys; proved in general and by a witness. Proved when no considered foreign key leaves the selection."
  },
  {
   "property": "C24",
   "status": "proved",
   "theorems": [
    "C24_from_engine_closed"
   ],
   "note": ""
  },
  {
   "property": "C25",
   "status": "proved",
   "theorems": [
    "C25_infer_exact",
    "C25_infer_idempotent"
   ],
   "note": ""
  },
  {
   "property": "C26",
   "status": "proved",
   "theorems": [
    "C26_reverse_keys",
    "C26_reverse_keys_raises"
   ],
   "note": ""
  },
  {
   "property": "C27",
   "status": "partial",
   "theorems": [
    "C27_simplify_where_partial",
    "C27_simplify_where_total",
    "C27_simplify_where_refuted"
   ],
   "note": "Proved for every clause whose nested unions are safe (in particular every clause without a sub-statement, hence every clause the planner emits). False for clauses with a nested union that simplify merges although a member has joins: refuted by a witness."
  },
  {
   "property": "C28",
   "status": "partial",
   "theorems": [
    "C28_simplify_statement_partial",
    "C28_simplify_select_list",
    "C28_simplify_statement_total",
    "C28_simplify_statement_refuted"
   ],
   "note": "Proved unless two members of a union read the same columns of the same table without a limit and one has joins; simplify then drops the joins: refuted by a witness."
  },
  {
   "property": "C29",
   "status": "proved",
   "theorems": [
    "C29_build_rows",
    "C29_half_unique_irrelevant"
   ],
   "note": ""
  },
  {
   "property": "C30",
   "status": "proved",
   "theorems": [
    "C30_plan_file",
    "C30_any_plan",
    "C30_sorted_file",
    "C30_no_fuel"
   ],
   "note": "For the planner's plans the plan is read back exactly, up to the order of its dict of queries. For arbitrary plans it is the same up to the order of dict keys (queries and query parameters). YAML itself is taken to be faithful up to key order."
  },
  {
   "property": "C31",
   "status": "proved",
   "theorems": [
    "C31_temp_names_distinct",
    "C31_one_name_each"
   ],
   "note": ""
  },
  {
   "property": "C32",
   "status": "partial",
   "theorems": [
    "C32_case_insensitive_partial",
    "C32_case_insensitive_refuted"
   ],
   "note": "False of the code: two tables whose names differ only in case, or only in characters that are dropped, can get names equal up to case; refuted by a witness. Proved for plans where that cannot happen (see the theorem's hypothesis)."
  },
  {
   "property": "C37",
   "status": "proved",
   "theorems": [
    "C37_copies_distinct",
    "C37_null"
   ],
   "note": ""
  },
  {
   "property": "C38",
   "status": "partial",
   "theorems": [
    "C38_referencing_columns_partial",
    "C38_copies_partial",
    "C38_copies_refuted"
   ],
   "note": "False of the code when a foreign key's columns are named differently from the columns they reference: the closure compares names. Refuted by a witness, proved for foreign keys whose columns carry the names they reference."
  },
  {
   "property": "C39",
   "status": "proved",
   "theorems": [
    "C39_multiplied_columns",
    "C39_terminates",
    "C39_disabled"
   ],
   "note": ""
  },
  {
   "property": "C44",
   "status": "proved",
   "theorems": [
    "C44_merge_fresh"
   ],
   "note": "Includes keys that are themselves references (one-to-one relationships), provided existing keys resolve; proper_keys states the README's requirement of non-negative integral keys."
  },
  {
   "property": "C45",
   "status": "partial",
   "theorems": [
    "C45_references_shifted_partial",
    "C45_others_unshifted",
    "C45_references_shifted_refuted"
   ],
   "note": "False of the code when the referenced key is itself a reference: its shift is overwritten, references to it keep the other shift and dangle; refuted by a witness with consistent databases. Proved for all other single-column references."
  },
  {
   "property": "C46",
   "status": "partial",
   "theorems": [
    "C46_merge_formula_partial",
    "C46_merge_formula_refuted"
   ],
   "note": "False of the code for empty tables, whose keys are not shifted at all: refuted by a witness. Proved for tables with a non-negative key."
  },
  {
   "property": "C47",
   "status": "partial",
   "theorems": [
    "C47_prepare_partial",
    "C47_merge_outside",
    "C47_create_outside",
    "C47_outside_refuted",
    "C47_create_refuted"
   ],
   "note": "False of the code: every merge run with a single-column foreign key leaving the plan, and every --create run with any, fails (proved in general, with witnesses). Proved: the shifts can be computed when no foreign key leaves the plan."
  },
  {
   "property": "C48",
   "status": "proved",
   "theorems": [
    "C48_rows_written"
   ],
   "note": ""
  },
  {
   "property": "C49",
   "status": "proved",
   "theorems": [
    "C49_crash_prefix"
   ],
   "note": ""
  },
  {
   "property": "C50",
   "status": "proved",
   "theorems": [
    "C50_parents_first"
   ],
   "note": ""
  },
  {
   "property": "C51",
   "status": "proved",
   "theorems": [
    "C51_truncation",
    "C51_others_untouched"
   ],
   "note": ""
  },
  {
   "property": "C52",
   "status": "partial",
   "theorems": [
    "C52_only_sampled_partial",
    "C52_only_sampled_refuted"
   ],
   "note": "False of the code: tables outside the plan that reference a sampled table are truncated too; refuted by a witness. Proved where such tables are sampled themselves."
  },
  {
   "property": "C53",
   "status": "partial",
   "theorems": [
    "C53_all_sampled_partial",
    "C53_all_sampled_refuted"
   ],
   "note": "False of the code without --create: a table missing at the destination is silently skipped; refuted by a witness. Proved with --create or when all tables exist."
  },
  {
   "property": "C54",
   "status": "proved",
   "theorems": [
    "C54_remap",
    "C54_remap_collision"
   ],
   "note": ""
  },
  {
   "property": "C55",
   "status": "partial",
   "theorems": [
    "C55_conflicts_partial",
    "C55_conflicts_refuted",
    "C55_sqlite_refuted"
   ],
   "note": "False of 'replace' on MySQL for tables with a further unique key and on SQLite for tables with columns that are not written: refuted by witnesses. Proved for all other runs, key by key."
  },
  {
   "property": "C56",
   "status": "partial",
   "theorems": [
    "C56_keys_given",
    "C56_omit_key_refuted"
   ],
   "note": "False of the code: omitting the primary key raises KeyError; refuted by a witness, and proved in general that no row is ever written without its primary key."
  },
  {
   "property": "C57",
   "status": "proved",
   "theorems": [
    "C57_directory",
    "C57_directory_failure"
   ],
   "note": ""
  },
  {
   "property": "C58",
   "status": "partial",
   "theorems": [
    "C58_sequence_past_partial",
    "C58_sequence_past_refuted"
   ],
   "note": "False of the code for tables whose names PostgreSQL reads differently without quotation marks (capital letters): another table's sequence is set, or the run fails after the rows were written; refuted by a witness. Proved for plain names and sessions whose own last value is not above the sequence's."
  },
  {
   "property": "C59",
   "status": "partial",
   "theorems": [
    "C59_sequence_forward_partial",
    "C59_sequence_kept",
    "C59_sequence_forward_refuted"
   ],
   "note": "False of the code: the sequence is read with currval, undefined in a new session, and set back to the largest written key; refuted by a witness. Proved when the names are plain and the session has used the sequence or the written keys are beyond it."
  },
  {
   "property": "C60",
   "status": "proved",
   "theorems": [
    "C60_validation_first",
    "C60_nothing_destroyed"
   ],
   "note": ""
  },
  {
   "property": "C61",
   "status": "proved",
   "theorems": [
    "C61_columns_tracked"
   ],
   "note": ""
  },
  {
   "property": "C62",
   "status": "proved",
   "theorems": [
    "C62_other_columns_unchanged"
   ],
   "note": ""
  },
  {
   "property": "C63",
   "status": "proved",
   "theorems": [
    "C63_hidden_columns_never_leak"
   ],
   "note": "Covers omit too."
  },
  {
   "property": "C64",
   "status": "partial",
   "theorems": [
    "C64_plugin_replaces_partial",
    "C64_plugin_leaks_refuted"
   ],
   "note": "False of the code: a plugin that returns fewer values than it was given leaves the original values of the remaining columns in place; refuted by a witness. Proved: each returned value replaces its column."
  },
  {
   "property": "C65",
   "status": "proved",
   "theorems": [
    "C65_omit_exact"
   ],
   "note": ""
  },
  {
   "property": "C66",
   "status": "proved",
   "theorems": [
    "C66_rejects_exactly",
    "C66_rejects_multiplex",
    "C66_rejects_chain"
   ],
   "note": "Exact also for the other reasons: constants of another length, an alphabet without characters, a plugin that does not load. Omit is never rejected."
  },
  {
   "property": "C67",
   "status": "proved",
   "theorems": [
    "C67_first_match"
   ],
   "note": ""
  },
  {
   "property": "C68",
   "status": "proved",
   "theorems": [
    "C68_zero"
   ],
   "note": ""
  },
  {
   "property": "C69",
   "status": "proved",
   "theorems": [
    "C69_random_string"
   ],
   "note": ""
  },
  {
   "property": "C33",
   "status": "proved",
   "theorems": [
    "C33_materialisation_order",
    "C33_order_exists",
    "C33_order_keyerror"
   ],
   "note": "Also: KeyError exactly when a query reads the sample of a table without a query."
  },
  {
   "property": "C34",
   "status": "proved",
   "theorems": [
    "C34_one_evaluation"
   ],
   "note": "For any plan (raw SQL included), any database and any compaction; with compaction the sample is the selected rows plus the internal id column."
  },
  {
   "property": "C35",
   "status": "proved",
   "theorems": [
    "C35_order_irrelevant"
   ],
   "note": "For plans that fit the schema (Spec/SampleSpec.v, runnable) without random choices; the other run is shown to succeed too."
  },
  {
   "property": "C36",
   "status": "partial",
   "theorems": [
    "C36_temporary_tables_partial",
    "C36_refuted"
   ],
   "note": "Refuted as stated: (1) a foreign key with two compacted columns raises KeyError on MySQL (one copy counted, two needed); (2) a table with a compacted key that refers to itself joins the temporary table it is read from. Proved for all other plans that fit the schema, together with success of the whole run."
  },
  {
   "property": "C40",
   "status": "proved",
   "theorems": [
    "C40_dense"
   ],
   "note": ""
  },
  {
   "property": "C41",
   "status": "proved",
   "theorems": [
    "C41_references_follow"
   ],
   "note": "Includes: every single-column foreign key to a compacted column holds between the written rows."
  },
  {
   "property": "C42",
   "status": "partial",
   "theorems": [
    "C42_composite_partial",
    "C42_refuted"
   ],
   "note": "Refuted: the columns of a composite foreign key are followed one by one, so a child row is duplicated and points to rows that do not exist. Proved: where the followed column alone is unique in the sample."
  },
  {
   "property": "C43",
   "status": "partial",
   "theorems": [
    "C43_no_foreign_key_partial",
    "C43_refuted"
   ],
   "note": "Refuted: with neither primary_keys nor auto_increment_keys, a foreign key column listed under columns is accepted. Proved when one of the flags is set."
  },
  {
   "property": "C70",
   "status": "proved",
   "theorems": [
    "C70_parse_table_name",
    "C70_parse_only",
    "C70_parse_fails"
   ],
   "note": ""
  },
  {
   "property": "C80",
   "status": "proved",
   "theorems": [
    "C80_compacted_columns"
   ],
   "note": ""
  },
  {
   "property": "C77",
   "status": "proved",
   "theorems": [
    "C77_foreign_keys_preserved"
   ],
   "note": "On the rows handed to the output; C87 carries it to the destination tables. Targets with both 'all' and 'amount' are excluded (see C18)."
  },
  {
   "property": "C81",
   "status": "proved",
   "theorems": [
    "C81_plans_run"
   ],
   "note": "For every plan the planner returns; the MySQL clause has the restriction stated in the property (see C36)."
  },
  {
   "property": "C78",
   "status": "proved",
   "theorems": [
    "C78_rows_from_source",
    "C78_passthrough_whole"
   ],
   "note": ""
  },
  {
   "property": "C79",
   "status": "proved",
   "theorems": [
    "C79_plan_deterministic"
   ],
   "note": ""
  },
  {
   "property": "C82",
   "status": "proved",
   "theorems": [
    "C82_created_tables"
   ],
   "note": "CHECK constraints and non-unique indexes are not modelled."
  },
  {
   "property": "C83",
   "status": "proved",
   "theorems": [
    "C83_run_again",
    "C83_truncating_run_forgets"
   ],
   "note": "The random state of filters and the source are the same in both runs."
  },
  {
   "property": "C71",
   "status": "partial",
   "theorems": [
    "C71_precedence_partial",
    "C71_precedence_refuted",
    "C71_resolved_unique"
   ],
   "note": "Proved for every setting but one: the URL of a MySQL connection never contains the configured database (witness). Empty strings in the configuration count as not set."
  },
  {
   "property": "C72",
   "status": "proved",
   "theorems": [
    "C72_tls"
   ],
   "note": "Any non-empty SSL_REQUIRE variable counts as true; verify values other than 'identity' and 'cert' mean no verification."
  },
  {
   "property": "C73",
   "status": "partial",
   "theorems": [
    "C73_args_fit_partial",
    "C73_args_fit_refuted"
   ],
   "note": "Refuted when the environment alone selects PostgreSQL: MySQL's arguments are passed. Proved when the configuration names the dialect or the environment names none or MySQL."
  },
  {
   "property": "C74",
   "status": "proved",
   "theorems": [
    "C74_search"
   ],
   "note": "Fuel is the number of objects plus one; termination is part of the theorem."
  },
  {
   "property": "C75",
   "status": "proved",
   "theorems": [
    "C75_last_file_decides",
    "C75_unmentioned",
    "C75_cases",
    "C75_empty_mapping"
   ],
   "note": "An empty file is YAML null, not an empty mapping, and replaces everything before it (Example C75_empty_file)."
  },
  {
   "property": "C76",
   "status": "proved",
   "theorems": [
    "C76_extra_fks"
   ],
   "note": ""
  },
  {
   "property": "C84",
   "status": "partial",
   "theorems": [
    "C84_environment_dialect_partial",
    "C84_environment_dialect_refuted"
   ],
   "note": "Refuted for sqlite: attached files and isolation level depend on the configured dialect only. Proved for MySQL, for PostgreSQL without TLS, and for sqlite when these settings do not matter."
  },
  {
   "property": "C85",
   "status": "proved",
   "theorems": [
    "C85_attached_files",
    "C85_literal_functional"
   ],
   "note": "The alias is not quoted by the program; the theorem is about the file name."
  },
  {
   "property": "C86",
   "status": "proved",
   "theorems": [
    "C86_destination_is_the_sample"
   ],
   "note": ""
  },
  {
   "property": "C87",
   "status": "proved",
   "theorems": [
    "C87_destination_consistent",
    "C87_columns"
   ],
   "note": ""
  },
  {
   "property": "C88",
   "status": "partial",
   "theorems": [
    "C88_unknown_options_partial",
    "C88_unknown_options_refuted"
   ],
   "note": "Refuted for connections, TLS and filters, whose sections ignore unknown options (witness). Proved for every other section."
  },
  {
   "property": "C89",
   "status": "proved",
   "theorems": [
    "C89_plan_command",
    "C89_plan_readable"
   ],
   "note": ""
  },
  {
   "property": "C90",
   "status": "proved",
   "theorems": [
    "C90_sampling_command"
   ],
   "note": ""
  },
  {
   "property": "C91",
   "status": "proved",
   "theorems": [
    "C91_two_steps_database",
    "C91_two_steps_directory"
   ],
   "note": ""
  },
  {
   "property": "C92",
   "status": "proved",
   "theorems": [
    "C92_accepted_configurations"
   ],
   "note": ""
  },
  {
   "property": "C93",
   "status": "proved",
   "theorems": [
    "C93_defaults_planner",
    "C93_defaults_target",
    "C93_defaults_sampler",
    "C93_defaults_multiplicity",
    "C93_defaults_compact",
    "C93_defaults_output"
   ],
   "note": ""
  },
  {
   "property": "C94",
   "status": "proved",
   "theorems": [
    "C94_plan_environment",
    "C94_sampling_environment",
    "C94_destination"
   ],
   "note": ""
  },
  {
   "property": "C95",
   "status": "proved",
   "theorems": [
    "C95_used_as_written",
    "C95_written_in_full"
   ],
   "note": "The keyword arguments of plugins and the 'echo' option are not part of the modelled configuration. The shipped example file is rejected by the code (Example C95_case)."
  },
  {
   "property": "C96",
   "status": "partial",
   "theorems": [
    "C96_renumbered_consistent_partial",
    "C96_columns",
    "C96_chain_refuted",
    "C96_extra_refuted",
    "C42_refuted"
   ],
   "note": "Refuted for a foreign key to a column that itself refers to a renumbered column, and for extra_fks, which the sampler does not know (witnesses; composite keys: C42). Proved for the foreign keys whose columns are renumbered in step, for runs without merging, multiplying and skipped conflicts."
  },
  {
   "property": "C97",
   "status": "partial",
   "theorems": [
    "C97_references_kept_partial",
    "C97_last_refuted"
   ],
   "note": "Refuted when a column refers to several renumbered columns: it follows the last foreign key only and the others lose their row (witness). Proved for the column that is followed."
  },
  {
   "property": "C98",
   "status": "partial",
   "theorems": [
    "C98_multiplied_consistent_partial",
    "C98_other_name_refuted"
   ],
   "note": "Refuted when the referring column has another name than the key: only columns of the same name follow (witness). Proved for foreign keys to primary key columns of the same names, without compaction."
  },
  {
   "property": "C99",
   "status": "partial",
   "theorems": [
    "C99_merged_consistent_partial",
    "C99_chain_refuted"
   ],
   "note": "Refuted for a foreign key to a column that itself refers to a merged key (witness). Proved for the references to a merged table's integer primary key that is not itself a reference."
  },
  {
   "property": "C100",
   "status": "partial",
   "theorems": [
    "C100_strategies_consistent_partial",
    "C100_unique_key_refuted"
   ],
   "note": "Refuted when a row clashes on another unique key (witness, skip and replace). Proved for foreign keys to primary keys of tables without other unique keys."
  },
  {
   "property": "C101",
   "status": "proved",
   "theorems": [
    "C101_alike_consistent"
   ],
   "note": ""
  },
  {
   "property": "C102",
   "status": "partial",
   "theorems": [
    "C102_directory_partial",
    "C102_database_partial",
    "C102_compaction_refuted",
    "C102_columns_refuted",
    "C102_merge_refuted"
   ],
   "note": "Refuted: an error in compact.columns is found only after the tables were emptied, a column missing at the destination only after other tables were written, and with merging a missing table only after the others were emptied (witnesses). Proved for files and databases, with and without merging, for configurations that name existing columns and destinations with the tables and columns that are copied (on PostgreSQL, with plain names where sequences are set)."
  },
  {
   "property": "C103",
   "status": "proved",
   "theorems": [
    "C103_export_completes",
    "C103_skipping_all_or_nothing"
   ],
   "note": ""
  },
  {
   "property": "C104",
   "status": "proved",
   "theorems": [
    "C104_every_moment"
   ],
   "note": ""
  },
  {
   "property": "C105",
   "status": "proved",
   "theorems": [
    "C105_enforced_keys"
   ],
   "note": ""
  },
  {
   "property": "C106",
   "status": "proved",
   "theorems": [
    "C106_lines",
    "C106_determined",
    "C106_unambiguous"
   ],
   "note": "Characters beyond U+00FF, infinite floats and integers beyond Python's digit limit are not modelled."
  },
  {
   "property": "C107",
   "status": "proved",
   "theorems": [
    "C107_database_completes",
    "C107_enforcing_completes"
   ],
   "note": ""
  },
  {
   "property": "C108",
   "status": "proved",
   "theorems": [
    "C108_hidden_values",
    "C108_planned"
   ],
   "note": ""
  },
  {
   "property": "C109",
   "status": "proved",
   "theorems": [
    "C109_repeated_skip",
    "C109_repeated_skip_run",
    "C109_repeated_replace"
   ],
   "note": ""
  },
  {
   "property": "C110",
   "status": "proved",
   "theorems": [
    "C110_resumed_skip"
   ],
   "note": ""
  },
  {
   "property": "C111",
   "status": "proved",
   "theorems": [
    "C111_each_table_at_one_moment",
    "C111_planned",
    "C111_unchanged"
   ],
   "note": "Statements see what is committed when they start (READ COMMITTED, the default); the schema does not change during the run."
  },
  {
   "property": "C112",
   "status": "partial",
   "theorems": [
    "C112_consistent_partial",
    "C112_removed_refuted",
    "C112_added_refuted"
   ],
   "note": "Refuted in general (common.py:187-192 chooses READ COMMITTED, and the tables are read by separate statements): rows removed during a run leave dangling references, and so do rows added if the referenced table is passed through. Proved for foreign keys whose referenced table is planned before, and, if what rows refer to is not taken away meanwhile, for those whose referenced table is neither passed through nor a target without an amount."
  },
  {
   "property": "C113",
   "status": "proved",
   "theorems": [
    "C113_reproducible_database",
    "C113_reproducible_directory"
   ],
   "note": ""
  },
  {
   "property": "C114",
   "status": "partial",
   "theorems": [
    "C114_one_state",
    "C114_consistent",
    "C114_mysql_partial",
    "C114_mysql_refuted"
   ],
   "note": "Proved for PostgreSQL (C114_one_state, C114_consistent). Refuted for MySQL at REPEATABLE READ, where filling temporary tables reads the latest rows and indexing them ends the transaction (sampler.py:129-150); proved there for foreign keys between tables whose samples no other query reads, such as passthrough tables. For sqlite, and MySQL at SERIALIZABLE, nothing is claimed beyond C111 and C112."
  },
  {
   "property": "C115",
   "status": "proved",
   "theorems": [
    "C115_wider_larger",
    "C115_settings",
    "C115_more_source",
    "C115_runs"
   ],
   "note": ""
  },
  {
   "property": "C116",
   "status": "partial",
   "theorems": [
    "C116_added_target_partial",
    "C116_added_target_refuted"
   ],
   "note": "Refuted in general: a table sampled through its parents is sampled by its own filters only once it is a target (planner.py:266-312), so its other rows are lost. Proved for the rows of those targets that no table referring to them is sampled before."
  },
  {
   "property": "C117",
   "status": "proved",
   "theorems": [
    "C117_command_line",
    "C117_one_meaning"
   ],
   "note": "argparse as in Python 3.11.10; what --verbose does (log output) is not modelled."
  },
  {
   "property": "C118",
   "status": "proved",
   "theorems": [
    "C118_only_when_asked"
   ],
   "note": ""
  },
  {
   "property": "C119",
   "status": "partial",
   "theorems": [
    "C119_sample_of_sample_partial",
    "C119_run_again_partial",
    "C119_sample_of_sample_refuted"
   ],
   "note": "Refuted in general: a target with an amount whose rows are also wanted by a table sampled before it gets the referenced rows and as many random ones (planner.py:266-312); of these, the next run may draw those that are referenced. Proved if targets with an amount are sampled before the tables that refer to them."
  },
  {
   "property": "C120",
   "status": "proved",
   "theorems": [
    "C120_reader",
    "C120_rejected",
    "C120_one_meaning",
    "C120_planned",
    "C120_written"
   ],
   "note": ""
  },
  {
   "property": "C121",
   "status": "proved",
   "theorems": [
    "C121_order_of_entries"
   ],
   "note": ""
  },
  {
   "property": "C122",
   "status": "proved",
   "theorems": [
    "C122_chosen_tables",
    "C122_more_tables"
   ],
   "note": ""
  },
  {
   "property": "C123",
   "status": "proved",
   "theorems": [
    "C123_mentioned_tables",
    "C123_planned_tables"
   ],
   "note": ""
  },
  {
   "property": "C124",
   "status": "proved",
   "theorems": [
    "C124_rows_linked",
    "C124_no_target_rows",
    "C124_runs"
   ],
   "note": ""
  },
  {
   "property": "C125",
   "status": "proved",
   "theorems": [
    "C125_targets_decide",
    "C125_runs"
   ],
   "note": ""
  },
  {
   "property": "C126",
   "status": "proved",
   "theorems": [
    "C126_whole_tables"
   ],
   "note": ""
  },
  {
   "property": "C127",
   "status": "partial",
   "theorems": [
    "C127_patterns_partial",
    "C127_patterns_refuted",
    "C127_name",
    "C127_schema",
    "C127_all"
   ],
   "note": "Proved for patterns none of whose sets begins with a range that runs backwards; '[z-a!x]' matches everything but x (a defect of Python's fnmatch)."
  },
  {
   "property": "C128",
   "status": "partial",
   "theorems": [
    "C128_passthrough_partial",
    "C128_passthrough_refuted",
    "C128_sampler_partial",
    "C128_sampler_refuted"
   ],
   "note": "Proved for names without '['. A name is used as a pattern, which a name with brackets does not match: such a passthrough table is left out, and a planned table makes sampling fail, with --truncate after other tables were emptied."
  },
  {
   "property": "C129",
   "status": "partial",
   "theorems": [
    "C129_conditions_partial",
    "C129_first_condition",
    "C129_is_refuted"
   ],
   "note": "Refuted for 'is' with anything but NULL, which asks whether two values are one object: 'is' with a text holds of no value read from a database. Proved for all other conditions (patterns as in C127) and values of all types but those that bring their own operators, such as Decimal."
  },
  {
   "property": "C130",
   "status": "partial",
   "theorems": [
    "C130_safe_filters_partial",
    "C130_runs_partial",
    "C130_null_refuted"
   ],
   "note": "Refuted: a NULL in a column that a multiplex condition compares with '<' or 'matches' raises TypeError in the middle of a run, after the tables have been emptied (witness run). Proved for null, constant, omit, uuid, random filters, zero (without values of further types) and multiplex with is, is not, =, != and lists."
  },
  {
   "property": "C131",
   "status": "proved",
   "theorems": [
    "C131_history_consistent"
   ],
   "note": "Histories are an inductive relation on destinations; a step is a run (any environment, plan, configuration) up to any of its statements, or a change by others that keeps foreign keys."
  },
  {
   "property": "C132",
   "status": "proved",
   "theorems": [
    "C132_nothing_lost",
    "C132_numbers_once"
   ],
   "note": "C132_nothing_lost needs no assumption on plan or configuration. C132_numbers_once has the assumptions of C44 for each run."
  },
  {
   "property": "C133",
   "status": "proved",
   "theorems": [
    "C133_shared_consistent",
    "C133_nothing_lost"
   ],
   "note": "Schedules are an inductive relation: a run begins, a statement of some run is executed, or something else happens. A run is the list of statements it would send when it began; each is executed against whatever the destination has become."
  },
  {
   "property": "C134",
   "status": "partial",
   "theorems": [
    "C134_own_rows_partial",
    "C134_own_references_partial",
    "C134_skipped_refuted"
   ],
   "note": "Holds for the tables where existing keys are errors: whatever has been inserted stays, as given, and the rows of a run that refer to such a table refer to rows of the same run, which are there. Refuted in general by C134_skipped_refuted: two runs merge with conflict_strategy skip at the same time; both count from the same greatest key, the second run's user is silently left out although reported as written, and its order refers to the first run's user."
  },
  {
   "property": "C135",
   "status": "proved",
   "theorems": [
    "C135_run_keys",
    "C135_schema_seen",
    "C135_planned_keys"
   ],
   "note": "C135_run_keys and C135_schema_seen say what the foreign keys mentioned in the theorems on renumbered, multiplied and merged keys (source_fk) are, in terms of the schema, the plan and the mode alone. C135_inference_differs shows that the proviso on chosen tables is needed; that extra_fks are not followed is C96_extra_refuted."
  },
  {
   "property": "C136",
   "status": "proved",
   "theorems": [
    "C136_ways",
    "C136_plain"
   ],
   "note": "Texts of numbers: a minus sign or none, digits, for decimals also a point with digits; other texts pydantic accepts are not modelled."
  }
 ]
}
