"""Prints MANIFEST.json: python3 tools/manifest.py > MANIFEST.json"""
import json
claims = []
def c(pid, status, theorems, note=""):
    claims.append({"property": pid, "status": status, "theorems": theorems.split(), "note": note})

c("C01", "proved", "C01_toposort_order")
c("C02", "proved", "C02_toposort_cycle")
c("C03", "proved", "C03_reverse_graph C03_reverse_graph_keyerror")
c("C04", "proved", "C04_toposort_reachable")
c("C05", "proved", "C05_toposort_reachable_cycle")
c("C06", "proved", "C06_order_graph_direction")
c("C07", "proved", "C07_order_graph_component")
c("C08", "proved", "C08_order_graph_cycle",
  "A self-loop of the source itself is not reported (the source is in the ignore set); the planner's source has none.")
c("C09", "proved", "C09_order_graph_deterministic",
  "Stronger than stated: the two runs may also start from different representations of the same graph.")
c("C10", "partial", "C10_order_graph_any_source_partial C10_order_graph_component_refuted C10_order_graph_direction_refuted",
  "The docstring's claim is false for two-sided sources: both guarantees are refuted by witness runs. What remains true for every source is proved.")
c("C11", "proved", "C11_plan_acyclic")
c("C12", "proved", "C12_plan_covers")
c("C13", "proved", "C13_foreign_keys_preserved")
c("C14", "proved", "C14_children_maximal")
c("C15", "partial", "C15_maximal_partial C15_maximal_refuted",
  "False of the code: rows with a NULL foreign key are left out (inner joins); refuted by a witness. Proved for rows without NULLs in these foreign keys.")
c("C16", "proved", "C16_parents_minimal C16_three_kinds")
c("C17", "proved", "C17_target_filters")
c("C18", "partial", "C18_all_partial C18_all_refuted",
  "False of the code when 'amount' is also given: the limit is still applied; refuted by a witness. Proved for targets without an amount.")
c("C19", "partial", "C19_referenced_target_partial C19_whole_table_partial C19_referenced_target_refuted",
  "Containment of both parts is proved for all targets, exactness for targets with an amount. Without one, simplify merges the two selects and the whole table is sampled: proved, and refuted by a witness.")
c("C20", "partial", "C20_constraints_partial C20_constraints_refuted",
  "Proved for every planned table that is not a target. For targets the constraints are silently not applied: refuted by a witness.")
c("C21", "proved", "C21_rejects C21_constraints")
c("C22", "proved", "C22_edit_foreign_keys")
c("C23", "partial", "C23_without_dependencies_partial C23_keyerror C23_without_dependencies_refuted",
  "False of the code: a foreign key leaving the selection raises KeyError in compute_reverse_keys; proved in general and by a witness. Proved when no considered foreign key leaves the selection.")
c("C24", "proved", "C24_from_engine_closed")
c("C25", "proved", "C25_infer_exact C25_infer_idempotent")
c("C26", "proved", "C26_reverse_keys C26_reverse_keys_raises")
c("C27", "partial", "C27_simplify_where_partial C27_simplify_where_total C27_simplify_where_refuted",
  "Proved for every clause whose nested unions are safe (in particular every clause without a sub-statement, hence every clause the planner emits). False for clauses with a nested union that simplify merges although a member has joins: refuted by a witness.")
c("C28", "partial", "C28_simplify_statement_partial C28_simplify_select_list C28_simplify_statement_total C28_simplify_statement_refuted",
  "Proved unless two members of a union read the same columns of the same table without a limit and one has joins; simplify then drops the joins: refuted by a witness.")
c("C29", "proved", "C29_build_rows C29_half_unique_irrelevant")
c("C30", "proved", "C30_plan_file C30_any_plan C30_sorted_file C30_no_fuel", "For the planner's plans the plan is read back exactly, up to the order of its dict of queries. For arbitrary plans it is the same up to the order of dict keys (queries and query parameters). YAML itself is taken to be faithful up to key order.")
c("C31", "proved", "C31_temp_names_distinct C31_one_name_each")
c("C32", "partial", "C32_case_insensitive_partial C32_case_insensitive_refuted",
  "False of the code: two tables whose names differ only in case, or only in characters that are dropped, can get names equal up to case; refuted by a witness. Proved for plans where that cannot happen (see the theorem's hypothesis).")
c("C37", "proved", "C37_copies_distinct C37_null")
c("C38", "partial", "C38_referencing_columns_partial C38_copies_partial C38_copies_refuted",
  "False of the code when a foreign key's columns are named differently from the columns they reference: the closure compares names. Refuted by a witness, proved for foreign keys whose columns carry the names they reference.")
c("C39", "proved", "C39_multiplied_columns C39_terminates C39_disabled")
c("C44", "proved", "C44_merge_fresh",
  "Includes keys that are themselves references (one-to-one relationships), provided existing keys resolve; proper_keys states the README's requirement of non-negative integral keys.")
c("C45", "partial", "C45_references_shifted_partial C45_others_unshifted C45_references_shifted_refuted",
  "False of the code when the referenced key is itself a reference: its shift is overwritten, references to it keep the other shift and dangle; refuted by a witness with consistent databases. Proved for all other single-column references.")
c("C46", "partial", "C46_merge_formula_partial C46_merge_formula_refuted",
  "False of the code for empty tables, whose keys are not shifted at all: refuted by a witness. Proved for tables with a non-negative key.")
c("C47", "partial", "C47_prepare_partial C47_merge_outside C47_create_outside C47_outside_refuted C47_create_refuted",
  "False of the code: every merge run with a single-column foreign key leaving the plan, and every --create run with any, fails (proved in general, with witnesses). Proved: the shifts can be computed when no foreign key leaves the plan.")
c("C48", "proved", "C48_rows_written")
c("C49", "proved", "C49_crash_prefix")
c("C50", "proved", "C50_parents_first")
c("C51", "proved", "C51_truncation C51_others_untouched")
c("C52", "partial", "C52_only_sampled_partial C52_only_sampled_refuted",
  "False of the code: tables outside the plan that reference a sampled table are truncated too; refuted by a witness. Proved where such tables are sampled themselves.")
c("C53", "partial", "C53_all_sampled_partial C53_all_sampled_refuted",
  "False of the code without --create: a table missing at the destination is silently skipped; refuted by a witness. Proved with --create or when all tables exist.")
c("C54", "proved", "C54_remap C54_remap_collision")
c("C55", "partial", "C55_conflicts_partial C55_conflicts_refuted C55_sqlite_refuted",
  "False of 'replace' on MySQL for tables with a further unique key and on SQLite for tables with columns that are not written: refuted by witnesses. Proved for all other runs, key by key.")
c("C56", "partial", "C56_keys_given C56_omit_key_refuted",
  "False of the code: omitting the primary key raises KeyError; refuted by a witness, and proved in general that no row is ever written without its primary key.")
c("C57", "proved", "C57_directory C57_directory_failure")
c("C58", "partial", "C58_sequence_past_partial C58_sequence_past_refuted",
  "False of the code for tables whose names PostgreSQL reads differently without quotation marks (capital letters): another table's sequence is set, or the run fails after the rows were written; refuted by a witness. Proved for plain names and sessions whose own last value is not above the sequence's.")
c("C59", "partial", "C59_sequence_forward_partial C59_sequence_kept C59_sequence_forward_refuted",
  "False of the code: the sequence is read with currval, undefined in a new session, and set back to the largest written key; refuted by a witness. Proved when the names are plain and the session has used the sequence or the written keys are beyond it.")
c("C60", "proved", "C60_validation_first C60_nothing_destroyed")
c("C61", "proved", "C61_columns_tracked")
c("C62", "proved", "C62_other_columns_unchanged")
c("C63", "proved", "C63_hidden_columns_never_leak", "Covers omit too.")
c("C64", "partial", "C64_plugin_replaces_partial C64_plugin_leaks_refuted",
  "False of the code: a plugin that returns fewer values than it was given leaves the original values of the remaining columns in place; refuted by a witness. Proved: each returned value replaces its column.")
c("C65", "proved", "C65_omit_exact")
c("C66", "proved", "C66_rejects_exactly C66_rejects_multiplex C66_rejects_chain",
  "Exact also for the other reasons: constants of another length, an alphabet without characters, a plugin that does not load. Omit is never rejected.")
c("C67", "proved", "C67_first_match")
c("C68", "proved", "C68_zero")
c("C69", "proved", "C69_random_string")
c("C33", "proved", "C33_materialisation_order C33_order_exists C33_order_keyerror",
  "Also: KeyError exactly when a query reads the sample of a table without a query.")
c("C34", "proved", "C34_one_evaluation",
  "For any plan (raw SQL included), any database and any compaction; with compaction the sample is the selected rows plus the internal id column.")
c("C35", "proved", "C35_order_irrelevant",
  "For plans that fit the schema (Spec/SampleSpec.v, runnable) without random choices; the other run is shown to succeed too.")
c("C36", "partial", "C36_temporary_tables_partial C36_refuted",
  "Refuted as stated: (1) a foreign key with two compacted columns raises KeyError on MySQL (one copy counted, two needed); (2) a table with a compacted key that refers to itself joins the temporary table it is read from. Proved for all other plans that fit the schema, together with success of the whole run.")
c("C40", "proved", "C40_dense")
c("C41", "proved", "C41_references_follow",
  "Includes: every single-column foreign key to a compacted column holds between the written rows.")
c("C42", "partial", "C42_composite_partial C42_refuted",
  "Refuted: the columns of a composite foreign key are followed one by one, so a child row is duplicated and points to rows that do not exist. Proved: where the followed column alone is unique in the sample.")
c("C43", "partial", "C43_no_foreign_key_partial C43_refuted",
  "Refuted: with neither primary_keys nor auto_increment_keys, a foreign key column listed under columns is accepted. Proved when one of the flags is set.")
c("C70", "proved", "C70_parse_table_name C70_parse_only C70_parse_fails")
c("C80", "proved", "C80_compacted_columns")
c("C77", "proved", "C77_foreign_keys_preserved",
  "On the rows handed to the output; C87 carries it to the destination tables. Targets with both 'all' and 'amount' are excluded (see C18).")
c("C81", "proved", "C81_plans_run",
  "For every plan the planner returns; the MySQL clause has the restriction stated in the property (see C36).")
c("C78", "proved", "C78_rows_from_source C78_passthrough_whole")
c("C79", "proved", "C79_plan_deterministic")
c("C82", "proved", "C82_created_tables", "CHECK constraints and non-unique indexes are not modelled.")
c("C83", "proved", "C83_run_again C83_truncating_run_forgets", "The random state of filters and the source are the same in both runs.")
c("C71", "partial", "C71_precedence_partial C71_precedence_refuted C71_resolved_unique",
  "Proved for every setting but one: the URL of a MySQL connection never contains the configured database (witness). Empty strings in the configuration count as not set.")
c("C72", "proved", "C72_tls", "Any non-empty SSL_REQUIRE variable counts as true; verify values other than 'identity' and 'cert' mean no verification.")
c("C73", "partial", "C73_args_fit_partial C73_args_fit_refuted", "Refuted when the environment alone selects PostgreSQL: MySQL's arguments are passed. Proved when the configuration names the dialect or the environment names none or MySQL.")
c("C74", "proved", "C74_search", "Fuel is the number of objects plus one; termination is part of the theorem.")
c("C75", "proved", "C75_last_file_decides C75_unmentioned C75_cases C75_empty_mapping", "An empty file is YAML null, not an empty mapping, and replaces everything before it (Example C75_empty_file).")
c("C76", "proved", "C76_extra_fks")
c("C84", "partial", "C84_environment_dialect_partial C84_environment_dialect_refuted", "Refuted for sqlite: attached files and isolation level depend on the configured dialect only. Proved for MySQL, for PostgreSQL without TLS, and for sqlite when these settings do not matter.")
c("C85", "proved", "C85_attached_files C85_literal_functional", "The alias is not quoted by the program; the theorem is about the file name.")
c("C86", "proved", "C86_destination_is_the_sample")
c("C87", "proved", "C87_destination_consistent C87_columns")
c("C88", "partial", "C88_unknown_options_partial C88_unknown_options_refuted", "Refuted for connections, TLS and filters, whose sections ignore unknown options (witness). Proved for every other section.")
c("C89", "proved", "C89_plan_command C89_plan_readable")
c("C90", "proved", "C90_sampling_command")
c("C91", "proved", "C91_two_steps_database C91_two_steps_directory")
c("C92", "proved", "C92_accepted_configurations")
c("C93", "proved", "C93_defaults_planner C93_defaults_target C93_defaults_sampler C93_defaults_multiplicity C93_defaults_compact C93_defaults_output")
c("C94", "proved", "C94_plan_environment C94_sampling_environment C94_destination")
c("C95", "proved", "C95_used_as_written C95_written_in_full", "The keyword arguments of plugins and the 'echo' option are not part of the modelled configuration. The shipped example file is rejected by the code (Example C95_case).")
c("C96", "partial", "C96_renumbered_consistent_partial C96_columns C96_chain_refuted C96_extra_refuted C42_refuted", "Refuted for a foreign key to a column that itself refers to a renumbered column, and for extra_fks, which the sampler does not know (witnesses; composite keys: C42). Proved for the foreign keys whose columns are renumbered in step, for runs without merging, multiplying and skipped conflicts.")
c("C97", "partial", "C97_references_kept_partial C97_last_refuted", "Refuted when a column refers to several renumbered columns: it follows the last foreign key only and the others lose their row (witness). Proved for the column that is followed.")
c("C98", "partial", "C98_multiplied_consistent_partial C98_other_name_refuted", "Refuted when the referring column has another name than the key: only columns of the same name follow (witness). Proved for foreign keys to primary key columns of the same names, without compaction.")
c("C99", "partial", "C99_merged_consistent_partial C99_chain_refuted", "Refuted for a foreign key to a column that itself refers to a merged key (witness). Proved for the references to a merged table's integer primary key that is not itself a reference.")
c("C100", "partial", "C100_strategies_consistent_partial C100_unique_key_refuted", "Refuted when a row clashes on another unique key (witness, skip and replace). Proved for foreign keys to primary keys of tables without other unique keys.")
c("C101", "proved", "C101_alike_consistent")
c("C102", "partial", "C102_directory_partial C102_database_partial C102_compaction_refuted C102_columns_refuted C102_merge_refuted", "Refuted: an error in compact.columns is found only after the tables were emptied, a column missing at the destination only after other tables were written, and with merging a missing table only after the others were emptied (witnesses). Proved for files and databases, with and without merging, for configurations that name existing columns and destinations with the tables and columns that are copied (on PostgreSQL, with plain names where sequences are set).")
c("C103", "proved", "C103_export_completes C103_skipping_all_or_nothing")
c("C104", "proved", "C104_every_moment")
c("C105", "proved", "C105_enforced_keys")
c("C106", "proved", "C106_lines C106_determined C106_unambiguous", "Characters beyond U+00FF, infinite floats and integers beyond Python's digit limit are not modelled.")
c("C107", "proved", "C107_database_completes C107_enforcing_completes")
c("C108", "proved", "C108_hidden_values C108_planned")
c("C109", "proved", "C109_repeated_skip C109_repeated_skip_run C109_repeated_replace")
c("C110", "proved", "C110_resumed_skip")
c("C111", "proved", "C111_each_table_at_one_moment C111_planned C111_unchanged", "Statements see what is committed when they start (READ COMMITTED, the default); the schema does not change during the run.")
c("C112", "partial", "C112_consistent_partial C112_removed_refuted C112_added_refuted", "Refuted in general (common.py:187-192 chooses READ COMMITTED, and the tables are read by separate statements): rows removed during a run leave dangling references, and so do rows added if the referenced table is passed through. Proved for foreign keys whose referenced table is planned before, and, if what rows refer to is not taken away meanwhile, for those whose referenced table is neither passed through nor a target without an amount.")
c("C113", "proved", "C113_reproducible_database C113_reproducible_directory")
c("C114", "partial", "C114_one_state C114_consistent C114_mysql_partial C114_mysql_refuted", "Proved for PostgreSQL (C114_one_state, C114_consistent). Refuted for MySQL at REPEATABLE READ, where filling temporary tables reads the latest rows and indexing them ends the transaction (sampler.py:129-150); proved there for foreign keys between tables whose samples no other query reads, such as passthrough tables. For sqlite, and MySQL at SERIALIZABLE, nothing is claimed beyond C111 and C112.")
c("C115", "proved", "C115_wider_larger C115_settings C115_more_source C115_runs")
c("C116", "partial", "C116_added_target_partial C116_added_target_refuted", "Refuted in general: a table sampled through its parents is sampled by its own filters only once it is a target (planner.py:266-312), so its other rows are lost. Proved for the rows of those targets that no table referring to them is sampled before.")
c("C117", "proved", "C117_command_line C117_one_meaning", "argparse as in Python 3.11.10; what --verbose does (log output) is not modelled.")
c("C118", "proved", "C118_only_when_asked")
c("C119", "partial", "C119_sample_of_sample_partial C119_run_again_partial C119_sample_of_sample_refuted", "Refuted in general: a target with an amount whose rows are also wanted by a table sampled before it gets the referenced rows and as many random ones (planner.py:266-312); of these, the next run may draw those that are referenced. Proved if targets with an amount are sampled before the tables that refer to them.")
c("C120", "proved", "C120_reader C120_rejected C120_one_meaning C120_planned C120_written")
c("C121", "proved", "C121_order_of_entries")
c("C122", "proved", "C122_chosen_tables C122_more_tables")
c("C123", "proved", "C123_mentioned_tables C123_planned_tables")
c("C124", "proved", "C124_rows_linked C124_no_target_rows C124_runs")
c("C125", "proved", "C125_targets_decide C125_runs")
c("C126", "proved", "C126_whole_tables")
c("C127", "partial", "C127_patterns_partial C127_patterns_refuted C127_name C127_schema C127_all", "Proved for patterns none of whose sets begins with a range that runs backwards; '[z-a!x]' matches everything but x (a defect of Python's fnmatch).")
c("C128", "partial", "C128_passthrough_partial C128_passthrough_refuted C128_sampler_partial C128_sampler_refuted", "Proved for names without '['. A name is used as a pattern, which a name with brackets does not match: such a passthrough table is left out, and a planned table makes sampling fail, with --truncate after other tables were emptied.")
c("C129", "partial", "C129_conditions_partial C129_first_condition C129_is_refuted", "Refuted for 'is' with anything but NULL, which asks whether two values are one object: 'is' with a text holds of no value read from a database. Proved for all other conditions (patterns as in C127) and values of all types but those that bring their own operators, such as Decimal.")
c("C130", "partial", "C130_safe_filters_partial C130_runs_partial C130_null_refuted", "Refuted: a NULL in a column that a multiplex condition compares with '<' or 'matches' raises TypeError in the middle of a run, after the tables have been emptied (witness run). Proved for null, constant, omit, uuid, random filters, zero (without values of further types) and multiplex with is, is not, =, != and lists.")
c("C131", "proved", "C131_history_consistent", "Histories are an inductive relation on destinations; a step is a run (any environment, plan, configuration) up to any of its statements, or a change by others that keeps foreign keys.")
c("C132", "proved", "C132_nothing_lost C132_numbers_once", "C132_nothing_lost needs no assumption on plan or configuration. C132_numbers_once has the assumptions of C44 for each run.")
c("C133", "proved", "C133_shared_consistent C133_nothing_lost", "Schedules are an inductive relation: a run begins, a statement of some run is executed, or something else happens. A run is the list of statements it would send when it began; each is executed against whatever the destination has become.")
c("C134", "partial", "C134_own_rows_partial C134_own_references_partial C134_skipped_refuted", "Holds for the tables where existing keys are errors: whatever has been inserted stays, as given, and the rows of a run that refer to such a table refer to rows of the same run, which are there. Refuted in general by C134_skipped_refuted: two runs merge with conflict_strategy skip at the same time; both count from the same greatest key, the second run's user is silently left out although reported as written, and its order refers to the first run's user.")
c("C135", "proved", "C135_run_keys C135_schema_seen C135_planned_keys", "C135_run_keys and C135_schema_seen say what the foreign keys mentioned in the theorems on renumbered, multiplied and merged keys (source_fk) are, in terms of the schema, the plan and the mode alone. C135_inference_differs shows that the proviso on chosen tables is needed; that extra_fks are not followed is C96_extra_refuted.")
c("C136", "proved", "C136_ways C136_plain", "Texts of numbers: a minus sign or none, digits, for decimals also a point with digits; other texts pydantic accepts are not modelled.")
print(json.dumps({"claims": claims}, indent=1))
