{
 "claims": [
  {
   "property": "C01",
   "status": "proved",
   "theorems": [
    "C01_fields_refused",
    "C01_fields_of_a_view",
    "C01_view_refused",
    "C01_dashboard_found",
    "C01_grants_are_a_conjunction",
    "C01_views_listed",
    "C01_dashboards_listed",
    "C01_fields_listed",
    "C01_view_lookup",
    "C01_dashboard_lookup",
    "C01_no_user_sees_everything"
   ],
   "note": "Listing and lookup of views, fields and dashboards characterised by iff; errors included, each both ways (C01_fields_refused, C01_view_refused, C01_dashboard_found). A user who lacks an attribute passes every grant on it: that is the coded rule and part of the statement."
  },
  {
   "property": "C02",
   "status": "proved",
   "theorems": [
    "C02_field_never_more_visible_than_view",
    "C02_denied_count_is_replaced_by_the_implicit_count"
   ],
   "note": "Finding recorded as C02_denied_count_is_replaced_by_the_implicit_count."
  },
  {
   "property": "C03",
   "status": "proved",
   "theorems": [
    "C03_shared_view_name_refuted",
    "C03_lookup_returns_the_only_match",
    "C03_ambiguity_is_an_error",
    "C03_missing_is_an_error",
    "C03_qualified_and_case_insensitive",
    "C03_independent_of_view_order"
   ],
   "note": "Existence, ambiguity, absence, qualification, case and view-order independence. The order of views is irrelevant when their names differ; with two views of one name it is not (C03_shared_view_name_refuted)."
  },
  {
   "property": "C04",
   "status": "partial",
   "theorems": [
    "C04_access_filters_of_mentioned_views_partial",
    "C04_conditions_are_conjoined",
    "C04_no_user_no_condition",
    "C04_filters_of_every_view_read_refuted",
    "C04_literal_where_escapes_access_filter_refuted",
    "C04_clause_implies_access_filter"
   ],
   "note": "Proved for the views mentioned by the requested fields. The full statement (every view the query reads) is false of the code: C04_filters_of_every_view_read_refuted."
  },
  {
   "property": "C05",
   "status": "partial",
   "theorems": [
    "C05_cached_answers_are_fresh_answers",
    "C05_join_graph_after_set_user_refuted",
    "C05_without_refresh_refuted",
    "C05_no_user_and_empty_user_refuted"
   ],
   "note": "Proved: after any history of operations with the refreshes the code performs, cached answers equal fresh ones. The unconditional statement is false: three refutations (join graph after set_user, no refresh, None versus empty user)."
  },
  {
   "property": "C06",
   "status": "partial",
   "theorems": [
    "C06_temporary_field_leaves_no_trace",
    "C06_adding_an_existing_name_changes_nothing",
    "C06_existing_field_is_deleted_refuted",
    "C06_exception_leaks_the_field_refuted"
   ],
   "note": "The statement as written is false of the code, so the claim is partial. Proved: the round trip for a new name, and that adding an existing name changes nothing. Refuted: with an existing name the removal deletes the project's own field; an exception in between leaks the temporary field."
  },
  {
   "property": "C07",
   "status": "proved",
   "theorems": [
    "C07_replace_objects_is_transactional",
    "C07_inside_the_block",
    "C07_blocks_nest"
   ],
   "note": "Transactional restore, also for nested blocks and for exceptions."
  },
  {
   "property": "C08",
   "status": "proved",
   "theorems": [
    "C08_fails_iff_two_views_share_a_copy_name",
    "C08_originals_then_copies",
    "C08_no_request_no_change",
    "C08_field_prefix",
    "C08_title",
    "C08_copy_name_may_clash_with_a_view_refuted"
   ],
   "note": "Full characterisation of success, failure and result."
  },
  {
   "property": "C09",
   "status": "partial",
   "theorems": [
    "C09_exactly_the_permitted_joins",
    "C09_best_relationship_kept",
    "C09_build_succeeds_iff",
    "C09_distinct_names_only_query_errors",
    "C09_duplicate_names_raise_query_error_refuted",
    "C09_duplicate_names"
   ],
   "note": "The statement as written is false of the code, so the claim is partial. Proved: iff for existence of a join, optimality of the kept one, iff for success of the build, QueryError only with distinct names. Refuted: duplicate names can give AttributeError instead of QueryError."
  },
  {
   "property": "C10",
   "status": "proved",
   "theorems": [
    "C10_derived_relationship_agrees_with_data",
    "C10_base_rows_not_multiplied",
    "C10_joined_rows_not_multiplied",
    "C10_reverse_laws"
   ],
   "note": "Derived relationships agree with every table content whose primary identifiers are unique; a many_to_one or one_to_one LEFT JOIN keeps each row once; one_to_one and one_to_many never repeat the joined view's rows; reversing is an involution and mirrors the data condition."
  },
  {
   "property": "C11",
   "status": "proved",
   "theorems": [
    "C11_same_join_graph_iff_mutually_joinable",
    "C11_unknown_view_is_an_error",
    "C11_join_graphs_of_a_view",
    "C11_joinable_views"
   ],
   "note": "networkx's component and edge_dfs calls are modelled by verified saturation."
  },
  {
   "property": "C12",
   "status": "proved",
   "theorems": [
    "C12_numbering_independent_of_enumeration",
    "C12_an_enumeration_exists",
    "C12_numbering_order"
   ],
   "note": "For every enumeration of the components."
  },
  {
   "property": "C13",
   "status": "partial",
   "theorems": [
    "C13_from_clause_well_formed",
    "C13_only_join_error",
    "C13_no_view_joined_twice",
    "C13_self_reference_joins_a_view_to_itself_refuted"
   ],
   "note": "The statement as written is false of the code, so the claim is partial. Proved for every graph the model builds, under the contracts of networkx's topological_sort and shortest_path (verified reference instances in JoinOrder_Nx.v), when no explicit join refers to its own view. Refuted: with such a join a view is joined to itself under one name."
  },
  {
   "property": "C14",
   "status": "proved",
   "theorems": [
    "C14_bridges",
    "C14_bridge_declared",
    "C14_hidden_bridge_refuted",
    "C14_cheapest_path",
    "C14_single_direct_join",
    "C14_join_error_only_when_unreachable",
    "C14_direct_join_need_not_be_cheapest_refuted",
    "C14_two_separate_joins_fail_although_joinable_refuted",
    "C14_many",
    "C14_many_refused",
    "C14_many_none",
    "C14_direct"
   ],
   "note": "Cheapest path, direct join and JoinError cases proved. Findings: a one-way direct join is used even when a cheaper path exists; with four views forming two separate joins JoinError is raised although a fifth view reaches all of them. Three or more views: with one head and no ring among the required views no other view is brought in and the head is the base (C14_direct); otherwise the plan begins at the first candidate join, in the order bridge / two required views / alphabet, from whose left view all required views can be reached (C14_many); it fails when there is none (C14_many_none), and only then or when two required views are heads (C14_many_refused). The bridges are characterised from the declared identifiers (C14_bridges): of the views that tie the same ones only the last counts."
  },
  {
   "property": "C15",
   "status": "partial",
   "theorems": [
    "C15_functional_key_unique_partial",
    "C15_many_to_one_trees",
    "C15_linear_chains",
    "C15_no_key_with_many_to_many",
    "C15_two_fan_outs_refuted",
    "C15_many_to_one_then_fan_out_refuted"
   ],
   "note": "Full statement is false of the code (two refutations with concrete tables: two one_to_many joins from one view; many_to_one followed by a fan-out that is not directly after it). Proved: for every table content and join kind, the functional key's view is never repeated when each one_to_many join starts at a view still at the grain; unconditional for many_to_one/one_to_one trees; none with many_to_many."
  },
  {
   "property": "C16",
   "status": "partial",
   "theorems": [
    "C16_symmetric_sum",
    "C16_symmetric_sum_precision",
    "C16_symmetric_count",
    "C16_symmetric_average",
    "C16_distinct_types",
    "C16_fan_out_invariant",
    "C16_texts",
    "C16_injective_hash_not_enough_refuted",
    "C16_small_values_lost_refuted",
    "C16_null_differs_from_plain_refuted"
   ],
   "note": "The statement as written is false of the code, so the claim is partial. Proved over every fan-out: symmetric sum equals the own rows' sum (no collisions of hash plus value, values whole in millionths), bounded error otherwise; count, average, sum_distinct and average_distinct likewise; duplicate-insensitivity for any hash. Refuted: an injective hash alone suffices; values below a millionth; NULL/0 differ from the plain aggregates."
  },
  {
   "property": "C17",
   "status": "partial",
   "theorems": [
    "C17_choice",
    "C17_measure_not_fanned_out",
    "C17_primary_key_count",
    "C17_refused",
    "C17_no_key_refused",
    "C17_unsupported_warehouse_double_counts_refuted",
    "C17_missing_functional_key_double_counts_refuted",
    "C17_two_fan_outs_double_counts_refuted",
    "C17_median_fanned_out_refuted"
   ],
   "note": "End-to-end theorem over every agreeing data content, join kind and row selection when C15's chained condition holds, the warehouse supports symmetric aggregates and the functional key's view has a key. Full statement is false: four refutations (unsupported warehouse, missing functional key, two fan-outs, median)."
  },
  {
   "property": "C18",
   "status": "partial",
   "theorems": [
    "C18_written_dates",
    "C18_one_day",
    "C18_forms",
    "C18_other_values",
    "C18_mixed_lists",
    "C18_text_read_as_dates_refuted",
    "C18_wildcards_not_escaped_refuted",
    "C18_integers_refuted",
    "C18_index_errors_refuted"
   ],
   "note": "The statement as written is false of the code, so the claim is partial. Proved: every documented form (NULL tests, booleans, six comparisons, text (in)equality, %-patterns and negations, comma lists, after/before/on/not on) yields one criterion with exactly the form's three-valued meaning under stated side conditions on the text; mixed lists refused; exactly which texts name a day (calendar dates year-month-day) and that every other text is refused. pd.to_numeric is a parameter. Refuted outside the side conditions: date words inside text, unescaped LIKE wildcards, Python integers, IndexErrors."
  },
  {
   "property": "C19",
   "status": "partial",
   "theorems": [
    "C19_until",
    "C19_until_last_day_refuted",
    "C19_until_refused",
    "C19_until_three_parts",
    "C19_ranges",
    "C19_selects_days",
    "C19_numbers",
    "C19_start_before_end",
    "C19_aligned",
    "C19_this_last",
    "C19_week_start",
    "C19_last_n",
    "C19_quarter_loses_last_day",
    "C19_quarter_end_refuted",
    "C19_to_date_excludes_today",
    "C19_zero_refuted",
    "C19_ago_to_date_overruns_refuted",
    "C19_double_space_refuted"
   ],
   "note": "The statement as written is false of the code, so the claim is partial. Proved: all canonical relative-date strings give the exact first and last day for every now, week start, unit and number; start<=end, alignment, adjacency, week start day; 'A until B' runs from the start of A to the end of B, with texts that name no day and three parts refused. Refuted: quarter ranges lose their last day, 0 units is empty, 'ago to date' overruns, double spaces drop the end bound; 'to date' excludes today; a range until a written day ends at that day's midnight."
  },
  {
   "property": "C20",
   "status": "partial",
   "theorems": [
    "C20_history_independent",
    "C20_histories",
    "C20_default_restored",
    "C20_success",
    "C20_exception_leaks_refuted"
   ],
   "note": "The statement as written is false of the code, so the claim is partial. Proved: results never depend on the global week setting left by other filters (any history); the default is restored whenever the date part parses. Refuted: an exception in the date part leaves the other week start behind."
  },
  {
   "property": "C21",
   "status": "proved",
   "theorems": [
    "C21_groups",
    "C21_with_literals",
    "C21_passes",
    "C21_operators",
    "C21_operators_in_clause",
    "C21_literal_verbatim"
   ],
   "note": "C21_groups: for all filter trees of any depth and all rows (comparison valuations), the clause pypika prints has exactly one SQL reading (AND over OR precedence, 3VL, unambiguity proved) and it equals the AND/OR tree. C21_with_literals adds the access filter and literals without unbracketed OR. C21_operators: unknown operators and empty groups at any depth are ParseError and nothing else is. C21_literal_verbatim. pypika printing rules are modelled (brackets iff comparator differs)."
  },
  {
   "property": "C22",
   "status": "proved",
   "theorems": [
    "C22_groups",
    "C22_plain_conditions_unchecked_refuted"
   ],
   "note": "C22_groups: any group in where/having, of any depth, with a measure and a dimension is QueryError; otherwise the list is kept. C22_plain_conditions_unchecked_refuted: outside groups nothing is checked."
  },
  {
   "property": "C23",
   "status": "partial",
   "theorems": [
    "C23_week_start",
    "C23_weeks_partition",
    "C23_week_index",
    "C23_bigquery_one_day_early",
    "C23_bigquery_refuted",
    "C23_sql_server_exact",
    "C23_sql_server_refuted",
    "C23_bigquery_week_index_refuted",
    "C23_week_of_month_refuted",
    "C23_refused",
    "C23_week_index_of",
    "C23_week_type"
   ],
   "note": "The statement as written is false of the code, so the claim is partial. Proved: for every week start day and all dates, weeks start on the configured day and partition the calendar on every warehouse but BigQuery and SQL Server/Synapse; for those the exact (wrong) value is proved. Refuted: BigQuery (one day early), SQL Server (last day of the week counted to the next), BigQuery week index, week of month."
  },
  {
   "property": "C24",
   "status": "proved",
   "theorems": [
    "C24_exactly_one",
    "C24_null",
    "C24_labels_distinct",
    "C24_empty",
    "C24_unsorted_refuted"
   ],
   "note": "Every value falls in exactly one bucket of sorted tiers, NULL in none, labels distinct; unsorted tiers refuted."
  },
  {
   "property": "C25",
   "status": "partial",
   "theorems": [
    "C25_filters",
    "C25_incomplete_filters_skipped",
    "C25_unreadable_refused",
    "C25_star_refused",
    "C25_non_additive_sum",
    "C25_non_additive_count",
    "C25_own_name_filter_ignored_refuted",
    "C25_own_name_filter_inconsistent_refuted",
    "C25_no_condition_left_refuted",
    "C25_non_additive_else_0_refuted",
    "C25_unreadable_filter_dropped_refuted"
   ],
   "note": "The statement as written is false of the code, so the claim is partial. Proved: the filters' conjunction selects exactly the aggregated rows; incomplete filters skipped; star refused; non-additive sums and counts. Refuted: a filter whose value raises AttributeError (any other integer than 0 and 1) silently removes all filters of the measure, because the property falls back to the sql of the definition; filters on the measure's own name are dropped or inconsistent, a filter list reducing to nothing, ELSE 0 in non-additive averages, maxima and minima."
  },
  {
   "property": "C26",
   "status": "proved",
   "theorems": [
    "C26_members",
    "C26_no_view",
    "C26_lookup",
    "C26_acyclic_terminates",
    "C26_cyclic_never",
    "C26_unqualified_set_of_other_view_refuted"
   ],
   "note": "Membership, no repetition and first-mention order for every set; expansion ends for well-founded references and never yields fields when a cycle is reachable (the code recurses until RecursionError, so 'terminates exactly when acyclic' holds as stated). Finding: an unqualified set name resolves across the whole project, not the set's own view."
  },
  {
   "property": "C27",
   "status": "proved",
   "theorems": [
    "C27_leaves_in_order",
    "C27_grouping_irrelevant"
   ],
   "note": "C27_leaves_in_order: the accumulator recursion returns exactly the leaves left to right, once per occurrence; C27_grouping_irrelevant."
  },
  {
   "property": "C28",
   "status": "proved",
   "theorems": [
    "C28_fallback",
    "C28_unknown_metric"
   ],
   "note": "For every outcome of the two sub-resolvers and every flag: which of them run, in what order, and what is returned (exception classes; message rewriting is not modelled). The sub-resolvers are arbitrary outcomes."
  },
  {
   "property": "C29",
   "status": "partial",
   "theorems": [
    "C29_dedup",
    "C29_always_conditions",
    "C29_final_where",
    "C29_unparsed_filter_drops_the_rest_refuted",
    "C29_join_as_history_refuted",
    "C29_text_where_fails_refuted",
    "C29_dict_where_keeps_logic_refuted"
   ],
   "note": "Proved for every history of earlier queries: when views do not share filter dicts and every filter of the selected views parses, exactly the always_filter conditions are collected, once, in order, and the user's own conditions are all kept (list where). The unconditional statement is false: one unparsable filter silently removes the view's others, a join_as copy shares and is corrupted by the original's dicts, a text or dict where raises AttributeError."
  },
  {
   "property": "C30",
   "status": "partial",
   "theorems": [
    "C30_only_mapped",
    "C30_only_mapped_refused",
    "C30_nameless",
    "C30_dateless",
    "C30_only_joined_refuted",
    "C30_active_graphs",
    "C30_choice",
    "C30_no_choice",
    "C30_resolved",
    "C30_forces_merge",
    "C30_most_measures",
    "C30_no_common_graph",
    "C30_repeated_name_refuted",
    "C30_text_substring_refuted",
    "C30_choices_do_not_join_together_refuted",
    "C30_lone_field_refuted",
    "C30_lookup_only_refuted"
   ],
   "note": "Choice of field characterised exactly; whole runs proved for list clauses and lists without repetition: every mapped name replaced by a field that fits, plain names untouched, no mapped name left; merged query forced exactly for differing canon dates. False as written: only the first occurrence in metrics/dimensions is replaced, text clauses are corrupted inside longer names, two mapped names may be given fields that do not join together, TypeError for a lone field without graphs. Queries of mapped names only: the field chosen for each name is characterised through the score of the pairs of canon-date graphs (C30_only_mapped), with the exact refusals; refuted that two mapped names are settled by fields that join wherever there are such, because only the first queryable field under each other name is looked at (C30_only_joined_refuted)."
  },
  {
   "property": "C31",
   "status": "partial",
   "theorems": [
    "C31_dates",
    "C31_dates_dimensions",
    "C31_undated",
    "C31_unmapped",
    "C31_attached",
    "C31_not_attached",
    "C31_lookup",
    "C31_order",
    "C31_order_refuted",
    "C31_single_date",
    "C31_single_date_drops",
    "C31_lone_undated",
    "C31_metrics_once",
    "C31_positions_partial",
    "C31_where_everywhere",
    "C31_where_kept",
    "C31_where_own_date",
    "C31_single_date_drops_metric_refuted",
    "C31_where_type_lost_refuted",
    "C31_where_moved_although_joinable_refuted",
    "C31_dimension_count_refuted",
    "C31_substring_mapping_refuted"
   ],
   "note": "Statement as written is false of the code. Proved: with at least two canonical dates every needed metric is computed in exactly one sub query, the one of its canonical date, and nothing else is computed; every sub query gets every where condition, with fields unchanged or replaced by a mapped field, and no other condition; conditions on a field of one joinable graph or on the own date stay on that field; dimensions are in matching positions when each has one counterpart per sub query (hypothesis, hence _partial). Refuted by witness: a single date drops the metrics, conditions differing only in value type are merged, a condition on a field joinable to several graphs is moved, two dimensions mapped to one field give different dimension counts, and subquery_1 matches subquery_12. The dates a merged query is split along are characterised (C31_dates, C31_dates_dimensions), as are the refusals (C31_undated, C31_unmapped, C31_lone_undated), the table of mapped fields (C31_lookup) and the order of the sub queries for at most ten groups of metrics (C31_order); refuted for eleven (C31_order_refuted). With a single date every dimension takes the metrics of its sub query away (C31_single_date_drops)."
  },
  {
   "property": "C32",
   "status": "partial",
   "theorems": [
    "C32_rows_per_combination",
    "C32_exactly_once",
    "C32_shared_dimension",
    "C32_mapped_dimension",
    "C32_metric_column",
    "C32_no_dimensions",
    "C32_third_sub_query_refuted",
    "C32_null_value_refuted",
    "C32_overwritten_dimension_refuted",
    "C32_unused_mapping_refuted",
    "C32_alias_collision_refuted",
    "C32_all_dimensions",
    "C32_cast",
    "C32_missing_dimensions",
    "C32_merged_column"
   ],
   "note": "Statement as written is false of the code. Proved for the emitted SELECT over full outer/cross join row semantics: the exact number of rows of every combination for any number of sub queries, exactly once for two sub queries (or when the first covers the others), the coalesced and mapped dimension columns, metric columns from their own sub query, and the no dimensions case. Refuted by witness: three or more sub queries, NULL dimension values, overwritten dimensions, unused mappings (IndexError) and alias collisions. Computed metrics get a column of their own text exactly when no metric, dimension or earlier computed metric has the same alias (C32_merged_column)."
  },
  {
   "property": "C33",
   "status": "partial",
   "theorems": [
    "C33_validate_iff",
    "C33_validate_result",
    "C33_validate_error",
    "C33_other_join_fields",
    "C33_validate_error_refuted",
    "C33_columns",
    "C33_join_errors",
    "C33_empty_refuted",
    "C33_group_refuted",
    "C33_only_output_columns",
    "C33_joins",
    "C33_join_types",
    "C33_condition_columns",
    "C33_rows",
    "C33_mapped_names",
    "C33_same_metric_refuted",
    "C33_lost_column_refuted",
    "C33_fan_out_refuted",
    "C33_unbound_mapping_refuted",
    "C33_stale_mapping_refuted"
   ],
   "note": "Proved: acceptance condition of the argument, columns, filters and orderings only on output columns, join columns are dimensions of the two queries, one output row per row of the first query when the other queries are unique on their join columns, meaning of mapped names. Missing or false as written: an argument that is not a list of dicts can raise other errors; the same metric in two queries appears once; a dimension an earlier query joined on is lost; other queries fan out when not unique; mapped names can be unbound or stale (see the _refuted theorems). That the caller's argument is not modified rests on the deepcopy contract."
  },
  {
   "property": "C34",
   "status": "partial",
   "theorems": [
    "C34_steps",
    "C34_persons",
    "C34_monotone",
    "C34_keys",
    "C34_window",
    "C34_window_complete",
    "C34_group_increase_refuted",
    "C34_events_increase_refuted",
    "C34_text_step_refuted",
    "C34_definition",
    "C34_no_steps_refuted",
    "C34_event_date",
    "C34_no_event_date",
    "C34_event_date_refuted"
   ],
   "note": "Proved for steps given as conditions (or texts without top-level OR): rows of a step = events ending a chain, who is counted, monotone person counts, each primary key once, window bounds from C51. Statement as written is false: counts of a group or of events may increase; text steps with OR escape the window; empty step lists raise UnboundLocalError; two metrics of one view without view_name are refused; cross-view default dates give a broken name (refuted theorems). How the base rows are made is not in this model; text steps name table columns that are not in scope, which the model does not see."
  },
  {
   "property": "C35",
   "status": "partial",
   "theorems": [
    "C35_spine",
    "C35_warehouses",
    "C35_spine_end_refuted",
    "C35_values",
    "C35_one_row",
    "C35_on_or_before",
    "C35_monotone",
    "C35_without_date",
    "C35_total_partial",
    "C35_total_refuted",
    "C35_date_condition_refuted",
    "C35_final",
    "C35_lost_refuted",
    "C35_separate",
    "C35_design_partial",
    "C35_design_refuted"
   ],
   "note": "The statement as written is false of the code. Proved: with the default date among the dimensions each result is the aggregate of exactly the rows of its group that pass the conditions and are dated in a period up to its own, each once, for every period of the spine up to today (C35_values, C35_one_row, C35_on_or_before), monotone for sums (C35_monotone); supported warehouses (C35_warehouses), the final joins (C35_final), the split of the metrics (C35_separate), the design after a successful sub query (C35_design_partial). Refuted: without a date dimension each row is aggregated once per spine day from its date on (C35_without_date states the value for all inputs, C35_total_refuted is a witness) and conditions on the date are ignored; results missing from the base are dropped and NULL groups get no value; a design without grouping is left grouping and a failing sub query leaves its lookup behind. Not modelled: the SQL text; cumulative_where and which field is a default date are C72."
  },
  {
   "property": "C36",
   "status": "partial",
   "theorems": [
    "C36_grouped",
    "C36_ungrouped",
    "C36_aliases_partial",
    "C36_same_view",
    "C36_aliases_refuted",
    "C36_dropped_column_refuted",
    "C36_kinds_refuted",
    "C36_number_metric_refuted",
    "C36_grain",
    "C36_grain_order_refuted"
   ],
   "note": "Statement as written is false. Proved: with GROUP BY, the grouped columns are exactly the selected non-aggregate ones; without it nothing is grouped; aliases distinct under the stated condition; the grain rule. Refuted: distinct aliases in general, a dropped column, wrong kinds of fields among the metrics, a number-typed metric, order dependence of the grain test."
  },
  {
   "property": "C37",
   "status": "partial",
   "theorems": [
    "C37_text",
    "C37_keyword_name_refuted",
    "C37_nulls_first_refuted",
    "C37_json",
    "C37_clauses",
    "C37_default",
    "C37_asked",
    "C37_default_exact"
   ],
   "note": "Statement as written is false for names containing 'asc' or 'desc' (C37_keyword_name_refuted, for all such names); proved for every other name, for the JSON form, the clause printing and the default."
  },
  {
   "property": "C38",
   "status": "partial",
   "theorems": [
    "C38_exactly_one",
    "C38_result",
    "C38_query_runs",
    "C38_mql_kind_refuted",
    "C38_query_not_run_refuted",
    "C38_query_says"
   ],
   "note": "Proved: exactly one resolver answers a request, the returned value is its query (with the asked extras), query() runs exactly that text on the connection it returns. Statement as written is false: return_query_kind with sql raises UnboundLocalError; query(sql=...) and query(merged_queries=...) never reach the warehouse because their connection is None (refuted theorems)."
  },
  {
   "property": "C39",
   "status": "partial",
   "theorems": [
    "C39_expansion",
    "C39_terminates",
    "C39_cycle",
    "C39_spaces_refuted",
    "C39_alias_table_refuted",
    "C39_dollar_refuted",
    "C39_alias"
   ],
   "note": "Statement as written is false. Proved: expansion equals the independent specification, terminates on acyclic references, and a cycle always fails. Refuted: text outside placeholders is unchanged (runs of spaces collapse), alias tables, dollar signs."
  },
  {
   "property": "C40",
   "status": "partial",
   "theorems": [
    "C40_valid_names",
    "C40_qualified_names_split",
    "C40_split_loses_nothing",
    "C40_equal_exact",
    "C40_id_is_recognised",
    "C40_timeframe_recovered",
    "C40_interval_recovered",
    "C40_timeframe_containing_the_name_refuted",
    "C40_column_alias_not_unique_refuted",
    "C40_id_determines_view_and_alias",
    "C40_deduplicate_fields"
   ],
   "note": "The statement as written is false of the code, so the claim is partial. Proved: valid names, qualified-name split round trip, identifier equality, timeframe/interval recovery with the exact side condition, alias determination and deduplication. Refuted: a timeframe containing the group's name is not recovered; column aliases are not unique across views."
  },
  {
   "property": "C41",
   "status": "partial",
   "theorems": [
    "C41_first_call",
    "C41_unexpanded",
    "C41_expanded",
    "C41_history_partial",
    "C41_history_refuted"
   ],
   "note": "Statement as written is false: the memo ignores the expansion flag (C41_history_refuted). Proved: the first call, and any history of calls that use the same expansion flag."
  },
  {
   "property": "C42",
   "status": "partial",
   "theorems": [
    "C42_refused",
    "C42_query_error",
    "C42_semicolon",
    "C42_unknown_warehouse_refuted"
   ],
   "note": "Statement as written is false for an unsupported warehouse string (KeyError: C42_unknown_warehouse_refuted). Proved for the other checks and for the semicolon."
  },
  {
   "property": "C43",
   "status": "partial",
   "theorems": [
    "C43_reserved",
    "C43_dates",
    "C43_dates_order",
    "C43_exact",
    "C43_references",
    "C43_symmetric",
    "C43_not_itself_partial",
    "C43_succeeds_iff",
    "C43_mixed",
    "C43_canon_date",
    "C43_entries",
    "C43_itself_refuted",
    "C43_repeated_refuted"
   ],
   "note": "Statement as written is false only for a field spelled in two ways, which references itself (C43_itself_refuted), and for a field listed twice (C43_repeated_refuted). Proved: exact references and their order, symmetry, accessibility, iff for success, reserved names, content and order of the calendar mappings. project.get_field, does_field_exist and the join graph hash are parameters."
  },
  {
   "property": "C44",
   "status": "partial",
   "theorems": [
    "C44_nulls_last",
    "C44_others_partial",
    "C44_nulls_refuted",
    "C44_text",
    "C44_dialects",
    "C44_dropped_order_refuted",
    "C44_kept_order",
    "C44_nothing"
   ],
   "note": "Statement as written is false: Druid, SQL Server and Synapse put NULLs first (C44_nulls_refuted) and three kinds of query drop ORDER BY but keep LIMIT (C44_dropped_order_refuted). Proved for the other dialects; row limit text for every dialect."
  },
  {
   "property": "C45",
   "status": "partial",
   "theorems": [
    "C45_complete_partial",
    "C45_order",
    "C45_dashboard_names",
    "C45_lost_refuted",
    "C45_unbound_refuted",
    "C45_stale_refuted",
    "C45_raises",
    "C45_tag_line",
    "C45_placed"
   ],
   "note": "Statement as written is false: one unbuildable model hides the other errors (C45_lost_refuted), unreadable references in the first view make validate raise UnboundLocalError (C45_unbound_refuted) and in later views repeat the previous view's references (C45_stale_refuted). Proved for every project whose checks can be made: exact set of messages, once each, in first-occurrence order; dashboard names without condition. The individual collect_errors results are parameters."
  },
  {
   "property": "C46",
   "status": "partial",
   "theorems": [
    "C46_filters_partial",
    "C46_shared_week",
    "C46_default_week",
    "C46_default_is_monday",
    "C46_element_filters",
    "C46_empty_refuted",
    "C46_no_model"
   ],
   "note": "Statement as written is false: a filter with an empty value is kept as an entry without condition (C46_empty_refuted). Everything else proved as an iff over the concrete filter parser of C13-C16."
  },
  {
   "property": "C47",
   "status": "proved",
   "theorems": [
    "C47_join_plan_independent_of_view_order",
    "C47_two_views",
    "C47_base_view_may_depend_on_set_order_refuted"
   ],
   "note": "Proved for any number of views but two, and for two views without ties; a tie witness shows the base view can depend on set iteration order."
  },
  {
   "property": "C48",
   "status": "partial",
   "theorems": [
    "C48_conditions",
    "C48_numbers",
    "C48_yesno",
    "C48_yesno_said",
    "C48_refused",
    "C48_stands_alone",
    "C48_times",
    "C48_matches",
    "C48_no_field",
    "C48_yesno_not_equal_refuted",
    "C48_null_test_refuted",
    "C48_field_name_value_refuted",
    "C48_wildcard_refuted",
    "C48_unknown_expression",
    "C48_empty_matches_refuted"
   ],
   "note": "Proved for every expression on fields of every type and for yes/no fields with equal_to. Statement as written is false: on yes/no fields every expression with a truth value is read as equal_to; NULL tests without a value key raise KeyError (yes/no fields; every field on BigQuery/Trino); texts naming a field become column references; % and _ act as wildcards (refuted theorems). The matches expression is C18/C19."
  },
  {
   "property": "C49",
   "status": "partial",
   "theorems": [
    "C49_parse",
    "C49_parse_funnel",
    "C49_text",
    "C49_lone_call",
    "C49_nested_call_refuted",
    "C49_string_constant_refuted",
    "C49_keyword_metric_refuted",
    "C49_order_by_blanks_refuted",
    "C49_funnel_keyword_refuted",
    "C49_funnel_word",
    "C49_funnel_other_keyword",
    "C49_then_alone",
    "C49_name_refused",
    "C49_limit_refused",
    "C49_list_of_limits_refused",
    "C49_word_alone",
    "C49_not_a_call",
    "C49_nothing"
   ],
   "note": "Proved for statements whose calls are distinct top-level tokens; the sqlparse token tree is the input. Statement as written is false: nested calls are not replaced, equal text in string constants is, keyword-named metrics, double blanks in ORDER BY and funnel keywords are lost (refuted theorems). What is refused or ignored is proved too: a call without its keyword, an unknown name or limit, a list of limits, an empty statement."
  },
  {
   "property": "C50",
   "status": "partial",
   "theorems": [
    "C50_fields_of_one_model",
    "C50_two_models",
    "C50_one_model",
    "C50_requested",
    "C50_mapped_only_refuted",
    "C50_mapping_of_other_model_refuted",
    "C50_mapped_only_first_model_refuted",
    "C50_warehouse",
    "C50_no_warehouse",
    "C50_mapped_name"
   ],
   "note": "Proved: requested/only/common model, two models refused, warehouse. Statement as written is false for queries of only mapped fields in projects with several models (refuted theorems)."
  },
  {
   "property": "C51",
   "status": "partial",
   "theorems": [
    "C51_durations",
    "C51_windows",
    "C51_refused",
    "C51_postgres_months",
    "C51_postgres_short_partial",
    "C51_postgres_refuted",
    "C51_bigquery_years_refuted",
    "C51_text",
    "C51_plural"
   ],
   "note": "Proved for nine warehouses and all units (BigQuery years excepted), windows, refusal. Statement as written is false: Postgres drops whole months from days/hours/minutes/seconds and misses parentheses (a day is 24 minutes, an hour 60 seconds); BigQuery counts ISO years (refuted theorems). Times are whole seconds; warehouse functions are specified from their documentation."
  },
  {
   "property": "C52",
   "status": "partial",
   "theorems": [
    "C52_exact_partial",
    "C52_ends_iff",
    "C52_no_field_refuted",
    "C52_no_model_refuted"
   ],
   "note": "Statement as written is false: a filter without field or an element without model raises (C52_no_field_refuted, C52_no_model_refuted). Proved: exact messages whenever the check ends, and an iff for when it ends."
  },
  {
   "property": "C53",
   "status": "partial",
   "theorems": [
    "C53_text",
    "C53_alias_text",
    "C53_timeframes_partial",
    "C53_same_everywhere_partial",
    "C53_month_index_refuted",
    "C53_second_refuted",
    "C53_bigquery_names_refuted",
    "C53_duckdb_names_refuted",
    "C53_bigquery_fiscal_refuted",
    "C53_zone_ignored_refuted",
    "C53_date_column_refuted",
    "C53_convert",
    "C53_unknown",
    "C53_names"
   ],
   "note": "Statement as written is false. Proved for every supported warehouse, timeframe (weeks are C23), datatype, offset, zone and instant outside the exceptions: the value is the calendar period or part, and it is the same in any two warehouses. Each exception is refuted for every instant: T-SQL month index uses EXTRACT; T-SQL second overflows an int after 1968; BigQuery writes full month/day names; DuckDB has no TO_CHAR; BigQuery cannot add months to a TIMESTAMP (fiscal timeframes); Druid, SQL Server and Synapse ignore the zone; a date column moves to the day before in zones behind UTC. What each piece of warehouse syntax returns is part of the trusted base (Timeframe_Spec.eval). The SQL text of every timeframe on every warehouse is that of tables taken from the source by a script (C53_text, C53_alias_text)."
  },
  {
   "property": "C54",
   "status": "partial",
   "theorems": [
    "C54_rows_once",
    "C54_window",
    "C54_sum",
    "C54_history",
    "C54_null_group_refuted",
    "C54_nulls_are_equal_refuted",
    "C54_other_view_refuted",
    "C54_same_name_refuted",
    "C54_two_spellings_refuted",
    "C54_history_refuted",
    "C54_unaware_refuted",
    "C54_join_condition",
    "C54_names"
   ],
   "note": "The statement as written is false of the code, so the claim is partial. Proved for all rows, stores and queries whose names satisfy `well_named`: every row stays exactly once through all joins, the CASE keeps exactly the extreme rows among comparable ones, sums over any group; independence of earlier queries unless a measure has an explicit empty list of window groupings. Refuted: NULL groups show 0; nulls_are_equal ignores NULL window groupings; a date of another view gives a missing column; measures of one name in two views share a sub query; two spellings give a repeated column; an empty window_groupings list keeps the dimensions of earlier queries; name-only test of timeframes. The texts of the generated names are given (C54_names)."
  },
  {
   "property": "C55",
   "status": "partial",
   "theorems": [
    "C55_merged_refused",
    "C55_refused",
    "C55_exact",
    "C55_names",
    "C55_join_graphs",
    "C55_mappings_have_no_measure",
    "C55_measures",
    "C55_mapped_pair",
    "C55_three_graphs",
    "C55_one_bad_date",
    "C55_history",
    "C55_joinable",
    "C55_three_graphs_refuted",
    "C55_joinable_refuted",
    "C55_second_model_refuted",
    "C55_edit_refuted",
    "C55_user_refuted"
   ],
   "note": "The statement as written is false of the code, so the claim is partial. Proved for all projects: the exact set of merged results of every field id and of join_graphs, injective names, the conditions under which two measures or a mapped dimension share one, the reasons for which join graphs are refused (C55_refused, C55_merged_refused), independence of earlier calls when all models asked for have the same mappings and nothing is edited. Refuted: measures of three join graphs never share a merged result with a dimension, so a mapped name is refused there; the graph of the first model asked is used for all models; after an edit or a change of user old answers stay; joinable_fields accepts a field sharing with only one of the given; one measure dated by a plain dimension makes join_graphs fail for every field."
  },
  {
   "property": "C56",
   "status": "proved",
   "theorems": [
    "C56_rows",
    "C56_from",
    "C56_answer",
    "C56_clauses_readable"
   ],
   "note": "End to end: C56_from (the FROM clause), C56_rows (which joined rows count), C56_answer (groups, cells, having), C56_clauses_readable (the clauses have one reading). The conditions named in the statement are hypotheses; the failures without them are the refutations of C15, C16, C17 and C21. Comparisons, the SQL text of fields and arithmetic are parameters (other properties say what they are). C56_case meets every hypothesis."
  },
  {
   "property": "C57",
   "status": "partial",
   "theorems": [
    "C57_only_views_of_fields",
    "C57_rows_restricted_partial",
    "C57_connecting_view_unfiltered_refuted"
   ],
   "note": "The statement as written is false of the code, so the claim is partial. Proved: the filters of the views of the requested fields restrict every row counted. Refuted: a view joined only to connect others is read without its access filters (C57_connecting_view_unfiltered_refuted), and in general only the filters of views of requested fields have any effect (C57_only_views_of_fields)."
  },
  {
   "property": "C58",
   "status": "partial",
   "theorems": [
    "C58_breakdown_keeps_total",
    "C58_one_side_refuted",
    "C58_one_to_one_refuted"
   ],
   "note": "The statement as written is false of the code, so the claim is partial. Proved: when both queries start at the metric's view and join only to the one side by left joins, and filters are on that view, the totals are equal for all data. Refuted: with the metric on the one side of a many_to_one join rows are lost or counted in two groups (C58_one_side_refuted); with a one_to_one join the query starts at the alphabetically first view and loses rows without a partner (C58_one_to_one_refuted)."
  },
  {
   "property": "C59",
   "status": "partial",
   "theorems": [
    "C59_shown",
    "C59_no_secret",
    "C59_bigquery",
    "C59_prints_partial",
    "C59_prints_exact",
    "C59_trino_refuted",
    "C59_shows_configured",
    "C59_prints_refuted"
   ],
   "note": "The statement as written is false of the code, so the claim is partial. Proved: for every class and every two configurations that differ only in secrets, the printed attributes are equal (C59_no_secret); of BigQuery's credentials only the project id is printed; every printed value is the configured one; what was configured and is no secret is printed (C59_shown); six classes can always be printed; Druid, SQL Server and Synapse exactly when a user and a password were given. Refuted: a Trino connection can never be printed (KeyError), a SQL Server connection without password neither."
  },
  {
   "property": "C60",
   "status": "partial",
   "theorems": [
    "C60_postgres_url_partial",
    "C60_postgres_password_refuted",
    "C60_type_partial",
    "C60_synapse_refuted",
    "C60_redshift_session",
    "C60_snowflake_session",
    "C60_postgres_database_refuted",
    "C60_dialect_is_connection_partial",
    "C60_same_name_refuted"
   ],
   "note": "The statement as written is false of the code, so the claim is partial. Proved: the type is the declared one in any letter case for all classes but Azure Synapse; with distinct names the dialect is that of the connection used; Redshift and Snowflake sessions get the configured values; the Postgres URL is read back to the configured login when the texts have no URL delimiters. Refuted: Azure Synapse gets the type of SQL Server; with two connections of one name the SQL is written for the last and run on the first; a Postgres password with an at sign changes the host; a Postgres database given as database is ignored."
  },
  {
   "property": "C61",
   "status": "partial",
   "theorems": [
    "C61_folders",
    "C61_folders_missing",
    "C61_kinds",
    "C61_view_keys",
    "C61_model_keys",
    "C61_field_order",
    "C61_fields_refused",
    "C61_target",
    "C61_round_trip_partial",
    "C61_default_target_found",
    "C61_nested_refuted",
    "C61_sibling_refuted",
    "C61_empty_file_refuted",
    "C61_no_project_file_refuted",
    "C61_venv_refuted",
    "C61_overwrite_refuted"
   ],
   "note": "The statement as written is false of the code, so the claim is partial. Proved: the round trip for every list of models and views written to distinct files that the reader finds, in a folder without other project files, for every reading order; the files dump chooses are found. Refuted: files in sub folders of a folder given without trailing slash are not read, those of folders whose name starts like it are; one empty file makes the load fail; a missing zenlytic_project.yml or a path with venv in it gives an empty project; two views of one name overwrite each other. YAML text itself is not modelled. Also given exactly (FilesOrder_Props): the folders read, the kind of each file, the file each object is written to, the order of fields and keys, and the fields that are refused."
  },
  {
   "property": "C62",
   "status": "partial",
   "theorems": [
    "C62_one_view_per_table_partial",
    "C62_searchable",
    "C62_names",
    "C62_white_space_refuted",
    "C62_two_schemas_refuted",
    "C62_letter_case_refuted",
    "C62_name_clash_refuted",
    "C62_druid_cardinality_refuted",
    "C62_dbt_mode_refuted",
    "C62_reads_the_table_partial",
    "C62_other_database_refuted",
    "C62_chosen",
    "C62_column_sql",
    "C62_modes"
   ],
   "note": "The statement as written is false of the code, so the claim is partial. Proved: when no two tables have one name in any letter case, there is one view per table, reading it, with one field per column in order and of its type; the name written in a view is that of the table in the chosen database (not Druid and Trino); text columns are searchable iff they have fewer than 100 values; names have only lower case letters, digits and underscores when the only white space is blanks. Refuted: tables of one name in two schemas are merged into one view; tables that differ in letter case each get the columns of both and one view name; two columns can get one name or an empty one; with Druid and Trino another database is forgotten; the cardinality query of Druid reads a database called None; the project file written inside a dbt project has a mode the loader refuses. Also given exactly: the rows kept for a schema and table, the SQL of each column and the modes the loader takes; other white space than blanks stays in names (refuted)."
  },
  {
   "property": "C63",
   "status": "partial",
   "theorems": [
    "C63_exact_partial",
    "C63_definition_kept",
    "C63_time_key_missing_refuted",
    "C63_intervals_missing_refuted",
    "C63_window_key_missing_refuted",
    "C63_cumulative_measure_refuted",
    "C63_empty_tiers_refuted",
    "C63_star_refuted",
    "C63_self_reference_refuted",
    "C63_text_filter_value_refuted",
    "C63_personal",
    "C63_prefix_once_refuted",
    "C63_timeframes_render",
    "C63_intervals_render",
    "C63_validation_changes_filters_refuted",
    "C63_returns_partial",
    "C63_cumulative_reported"
   ],
   "note": "The statement as written is false of the code, so the claim is partial. Proved: when validation ends, an error is reported iff the definition breaks its rule, for about ninety rules stated on the definition alone; no key is added or lost and only filters and the window of a measure are completed; validation returns for every definition of the right shape, whatever rules it breaks, in a project that answers every name with found or missing; errors of personal fields are warnings; timeframes and intervals of a field without errors have SQL on every warehouse. Refuted: validation raises for a time group without timeframes or sql, a duration without intervals, a window without name or choice, a cumulative measure whose measure is not a text, an empty list of tiers, a star with filters and a number that refers to itself; a filter value that is a text is never reported; some warnings of personal fields get the prefix twice; validating changes which filters the SQL of the field has."
  },
  {
   "property": "C64",
   "status": "partial",
   "theorems": [
    "C64_unreadable_fields",
    "C64_no_model",
    "C64_exact",
    "C64_clean",
    "C64_raises",
    "C64_event_dimension_raises_refuted",
    "C64_event_dimension_unchecked_refuted",
    "C64_two_tables_raise_refuted",
    "C64_measure_key_refuted",
    "C64_access_filter_raises_refuted",
    "C64_set_name_raises_refuted",
    "C64_later_identifiers_refuted",
    "C64_view_name_raises_refuted"
   ],
   "note": "The statement as written is false of the code, so the claim is partial. Proved: when validation returns and no identifier hits an ambiguous name, an error is reported iff the definition breaks its rule, for all rules stated on the definition and the answers of the project; it returns no error iff no rule is broken; unreadable fields or a missing model are reported alone; the exact condition under which validation raises. Refuted: it raises for an event dimension that names its view without a default date, two tables of which the first cannot be resolved, an access filter on an ambiguous name, a set or view name that is not a text; a qualified event dimension is never looked up; a measure marked as primary key hides the missing primary key; an ambiguous identifier hides the errors of the later ones."
  },
  {
   "property": "C65",
   "status": "partial",
   "theorems": [
    "C65_sound",
    "C65_exact",
    "C65_clean",
    "C65_raises",
    "C65_reserved",
    "C65_mapping_without_fields_refuted",
    "C65_no_grants_reported_refuted",
    "C65_mixed_values_refuted",
    "C65_grant_not_mapping_raises_refuted",
    "C65_later_mappings_refuted",
    "C65_name_raises_refuted",
    "C65_mapping_label_refuted"
   ],
   "note": "The statement as written is false of the code, so the claim is partial. Proved: the errors returned are exactly the broken rules whenever no mapped field is ambiguous (C65_exact, C65_clean), every error returned is a broken rule in all cases (C65_sound), the exact condition under which validation raises (C65_raises), reserved names for every iteration order (C65_reserved). Refuted: a mapping without fields raises KeyError, an empty list of grants is reported, mixed allowed values are not reported, a grant that is not a mapping raises, an ambiguous mapped field hides later mappings, a name that is not a text raises, the label of a mapping is never checked."
  },
  {
   "property": "C66",
   "status": "partial",
   "theorems": [
    "C66_condition",
    "C66_no_reference_left",
    "C66_errors_exact",
    "C66_validated_condition",
    "C66_no_view_refuted",
    "C66_kind_identifiers",
    "C66_kind_explicit",
    "C66_displaced_kind_refuted",
    "C66_identifiers_condition",
    "C66_cross_refuted",
    "C66_extra_argument_refuted",
    "C66_graph_errors",
    "C66_not_joined"
   ],
   "note": "The statement as written is false of the code, so the claim is partial. Proved: the condition is the declared one with references replaced (C66_condition, C66_no_reference_left), joins of identifiers are LEFT and equate the two clauses (C66_kind_identifiers, C66_identifiers_condition), a kept explicit join has its own kind and condition (C66_kind_explicit), errors are exactly the references that cannot be followed (C66_errors_exact, C66_graph_errors), a condition can be written iff it has no errors and the SQL of its fields can be made (C66_validated_condition). Refuted: an explicit join displaced by identifiers leaves its kind, a cross join is written with a condition, a reference without a view gives ON None, an explicit join with sql or foreign_key raises whenever used. Views nothing joins give KeyError (C66_not_joined)."
  },
  {
   "property": "C67",
   "status": "partial",
   "theorems": [
    "C67_operation_leaves_no_key",
    "C67_fetch_leaves_no_key",
    "C67_commands_have_the_key",
    "C67_only_the_branch",
    "C67_failed_write_refuted",
    "C67_done_but_raises_refuted",
    "C67_fetch_reason_refuted",
    "C67_clone_deleted",
    "C67_load_leaves_no_key",
    "C67_clone_left_refuted",
    "C67_branches",
    "C67_branch_name_refuted",
    "C67_remote",
    "C67_local",
    "C67_ssh_address_refuted",
    "C67_capital_address_refuted"
   ],
   "note": "The statement as written is false of the code, so the claim is partial. Proved, for every choice of failing calls: if writing and removing a file do not fail, no fetch, load or branch operation leaves a key file that was not there before, whether it returns or raises; an operation with a key that returns ran all its commands with the key in place and removed it; no operation changes a remote branch other than the one it names, and one that returns changed it; a load that returns left no clone; the branches offered are those of the remote when no reference has /heads/ inside its branch name; http, https and git@ addresses are remote and paths are local. Refuted: a write that fails (for instance a key given as str, the annotated type, to a file opened in binary mode) leaves the key file; when chmod fails an operation that pushed everything raises FileNotFoundError, and a fetch that cloned raises UnboundLocalError (the inner except clause unbinds e) and leaves the clone; a project that cannot be read or has an unknown mode leaves its clone; a branch a/heads/b is offered as b; an ssh:// address is taken for a local folder; a GIT@ address is remote but is cloned without the key."
  },
  {
   "property": "C68",
   "status": "partial",
   "theorems": [
    "C68_environment_last",
    "C68_environment_refuted",
    "C68_hyphen_refuted",
    "C68_environment_unknown",
    "C68_ref",
    "C68_double_quotes_refuted",
    "C68_ref_in_environment_refuted",
    "C68_node",
    "C68_node_missing",
    "C68_other_node_refuted",
    "C68_version_refuted",
    "C68_no_manifest",
    "C68_empty_schema_refuted",
    "C68_last_query_refuted",
    "C68_models",
    "C68_get_model",
    "C68_as_written"
   ],
   "note": "The statement as written is false of the code, so the claim is partial. Proved: a text without environment and reference is the table; the last environment of a text reads its table, for any number of environments before it; an environment the text does not name, or none, is refused; a reference in single quotes is looked up whatever is around it; it names the table of the node of that name when it is the only one, in the schema of the connection if there is one; a missing name is refused, exactly; without a manifest the name is read in the schema of the connection, which must not be empty; the listing of models and the look-up of a model are exact. Refuted: every environment but the last reads the words of its condition before its table (if dev  dev_db.t), because the whole match is used; if its table has a hyphen it reads all the text that follows; a reference inside an environment is not resolved; a reference in double quotes is refused; a node that is not a model and comes first is read instead of the model; a versioned model is found under its version only; with a manifest an empty schema is used; the table depends on the connection of the last query."
  },
  {
   "property": "C69",
   "status": "partial",
   "theorems": [
    "C69_partition",
    "C69_metric_any_history",
    "C69_metric_of_view",
    "C69_names_any_history",
    "C69_dimension_first",
    "C69_dimension_again_refuted",
    "C69_acts_as_its_user",
    "C69_shared_project_refuted",
    "C69_nothing_to_load_refuted",
    "C69_connections",
    "C69_added_connection_refuted",
    "C69_same_name_refuted",
    "C69_hidden_refuted",
    "C69_capitals_refuted"
   ],
   "note": "The statement as written is false of the code, so the claim is partial. Proved: metrics and dimensions split the fields; after any sequence of listings and look-ups get_metric answers with the first metric of that name that is not hidden, and StopIteration exactly when there is none, also when the view is named before it; after any sequence the same names are listed; the first time, a dimension is found by any of its names; a connection acts as the user it was last given, for any sequence of operations in which no project is given to a second connection; the connections listed are those given and those added, in order. Refuted: after a group of dimensions was looked up in one timeframe it is not found in another, because the look-up changes the cached field; a missing name raises StopIteration and not the promised message; an ambiguous name is answered with the first field where get_field refuses; a hidden metric is not found and a name with capitals is not found, where get_field finds both; a project given to two connections makes the first act as the user of the second; loading a connection with neither project nor location raises AttributeError; a connection added after loading is listed but unknown to the project. Dimensions with the view named before them are not covered."
  },
  {
   "property": "C70",
   "status": "partial",
   "theorems": [
    "C70_only_its_sql",
    "C70_rows",
    "C70_cursor",
    "C70_postgres_cursor_refuted",
    "C70_answers",
    "C70_unsupported",
    "C70_types_refuted",
    "C70_left_open_refuted",
    "C70_fetched_after_closing_refuted",
    "C70_timeout",
    "C70_zero_timeout_refuted",
    "C70_prepared",
    "C70_no_empty_text",
    "C70_schema_ignored_refuted",
    "C70_session",
    "C70_warehouse_only",
    "C70_small_letters_refuted",
    "C70_warehouse_name_refuted",
    "C70_quote_refuted"
   ],
   "note": "The statement as written is false of the code, so the claim is partial. Proved, for every choice of failing calls: nothing but the SQL is executed as a query and at most once; rows returned are those of the SQL, executed once in one session that was closed once; the same of a cursor, except with Postgres; when no call fails there is an answer for Snowflake, BigQuery, Redshift and Postgres, and the other types are refused before any call; the timeout reaches the warehouse, in milliseconds with Postgres; with Snowflake the query runs in the warehouse, database and schema of the connection, in upper case, from whatever session was opened, or not at all; starting the warehouse only leaves database and schema; no empty text is executed. Refuted: a query that fails leaves its session open; with Postgres a cursor is returned that has executed nothing and its session stays open; six of the ten types of connection cannot be run; except with Postgres the rows are fetched after the session was closed; a timeout of zero is no timeout with Postgres; only Snowflake uses the schema of the connection; a database whose name has a small letter is never the one used; a warehouse whose name must be quoted cannot be started; a quote in a name writes other statements."
  },
  {
   "property": "C71",
   "status": "partial",
   "theorems": [
    "C71_profile",
    "C71_profile_found",
    "C71_no_file",
    "C71_no_profile",
    "C71_no_target",
    "C71_no_default_refuted",
    "C71_name",
    "C71_snowflake",
    "C71_redshift_refuted",
    "C71_types_refuted",
    "C71_databricks_refuted",
    "C71_key_file",
    "C71_profile_of",
    "C71_hidden_profile_refuted",
    "C71_init_folders",
    "C71_init_read",
    "C71_init_dbt_refuted",
    "C71_init_replaces_refuted",
    "C71_kind",
    "C71_reader",
    "C71_two_files_refuted",
    "C71_seed_connection",
    "C71_only_connection",
    "C71_unknown_connection_refuted"
   ],
   "note": "The statement as written is false of the code, so the claim is partial. Proved: the connection of a profile is exactly the dictionary of the target, asked for or default, with the name of the profile and the folder of the profiles file; a missing file, profile or target is reported exactly then; the connection made has the name of the profile, with Snowflake every value the target writes, and a relative BigQuery key file is looked for beside the profiles file; which profile a command uses; init adds the missing folders only and a folder that is no dbt project can be read afterwards; which kind a repository has; a seed uses the first connection of the name given, or the only one. Refuted: a profile without default target is a KeyError; Redshift targets of dbt are refused, the types duckdb, sqlserver and synapse are unknown, and the token and catalog of Databricks are not used; a project file without profile hides that of the dbt project; init replaces the project file there is; a dbt project that was initialised cannot be read; with two project files the kind is not used; an unknown connection name is no error."
  },
  {
   "property": "C72",
   "status": "partial",
   "theorems": [
    "C72_same_as_fresh",
    "C72_any_history",
    "C72_write_stays_refuted",
    "C72_sub_queries",
    "C72_in_scope",
    "C72_where_text",
    "C72_where",
    "C72_two_timeframes_refuted",
    "C72_other_timeframe_refuted",
    "C72_date_condition_lost_refuted",
    "C72_other_conditions_refuted",
    "C72_no_default_date",
    "C72_joined",
    "C72_leaves_project_refuted",
    "C72_repeat_refuted",
    "C72_dimension_lost_refuted",
    "C72_date_missing_refuted",
    "C72_view_missing_refuted"
   ],
   "note": "The statement as written is false of the code, so the claim is partial. Proved: when the dates among the dimensions have one timeframe, a period, every metric is accumulated by its own default date over the periods of that timeframe, every dimension has its column, groups are the columns that are no aggregates, and every condition goes either to the rows or, on a date, to the periods when the query has a date (C72_sub_queries); the second sub query uses only columns of the first (C72_in_scope); every view of the first sub query is joined when the default dates and the fields of cumulative_where are of views mentioned otherwise (C72_joined); the text of cumulative_where for all texts and references (C72_where, C72_where_text); after any sequence of queries whose conditions do not follow the timeframe, the sub queries are those of an unused project (C72_same_as_fresh, C72_any_history); a view without default date is always an error (C72_no_default_date). Refuted: a view mentioned only by cumulative_where is not joined (C72_view_missing_refuted); a field of cumulative_where in another timeframe is changed in the project for all later queries, and a dimension of the query can change its name; two timeframes of a date both show the date of the periods of the first; a timeframe that is no period shows days and adds a date per metric; without a date among the dimensions conditions on the date are applied nowhere; two default dates in two timeframes give a missing column; groups of conditions and conditions in SQL are errors."
  },
  {
   "property": "C73",
   "status": "partial",
   "theorems": [
    "C73_single",
    "C73_funnel",
    "C73_cumulative",
    "C73_merged",
    "C73_order_refuted",
    "C73_cumulative_having_refuted",
    "C73_having_form_refuted",
    "C73_single_errors",
    "C73_merged_rows_refuted",
    "C73_cumulative_rows_refuted",
    "C73_single_rows_refuted",
    "C73_funnel_columns_refuted"
   ],
   "note": "The statement as written is false of the code, so the claim is partial. Proved, for all data and requests: a single query chooses among the rows of the request without clauses when the fields of having and order_by are of views it uses anyway (C73_single), it is refused exactly when nothing is grouped (C73_single_errors); a funnel, a query of cumulative metrics and a merged result do the same without order when the metrics of the having clause bring in no view, no first non cumulative metric and no sub query (C73_funnel, C73_cumulative, C73_merged); in each, sub queries are not limited and the columns are described exactly. Refuted: order_by is refused for cumulative metrics and funnels and ignored by merged results (C73_order_refuted); a having condition on a cumulative metric that is not requested, or where conditions cannot use the names of the select, names a column that does not exist (C73_cumulative_having_refuted); texts, and for cumulative metrics and funnels groups of conditions, are errors (C73_having_form_refuted); having adds or removes rows that it does not speak of when it brings in a view, a sub query or the first non cumulative metric (C73_single_rows_refuted, C73_merged_rows_refuted, C73_cumulative_rows_refuted); funnels show a metric twice, merged results show the metrics of having (C73_funnel_columns_refuted, C73_merged_rows_refuted)."
  },
  {
   "property": "C74",
   "status": "partial",
   "theorems": [
    "C74_rows",
    "C74_events",
    "C74_link",
    "C74_no_graph_refuted",
    "C74_two",
    "C74_without_funnel_refuted",
    "C74_no_step_refuted",
    "C74_having_group_refuted",
    "C74_two_metrics_refuted",
    "C74_other_rows_refuted",
    "C74_field_refuted"
   ],
   "note": "The statement as written is false of the code, so the claim is partial. Proved: the rows are exactly the visible rows of the joined views that meet the conditions on rows and on groups and whose customer has gone through the steps, with the meaning of C34, for every funnel whose later steps are lists of conditions, also with NULL customers and NOT IN (C74_rows); which rows are the events, and that link, date and fields of the steps are in the lookup (C74_events); the link is the only customer field in a join graph common to all fields of the funnel, when there is one (C74_link); two funnel conditions are refused. Refuted: the views of the funnel are joined in the query too, which leaves out rows, e.g. an order without lines of a customer who has converted; the field named by the condition is not used; a step that is not there gives a missing table; a condition without funnel is an AttributeError; a group of conditions in having is a KeyError; without a common join graph the only customer field is used all the same; two metrics are refused unless the funnel names a view. Missing: conditions as text, values that are fields, funnel conditions in merged and cumulative queries."
  },
  {
   "property": "C75",
   "status": "partial",
   "theorems": [
    "C75_empty_group",
    "C75_rows",
    "C75_joined",
    "C75_null",
    "C75_two_refuted",
    "C75_view_missing_refuted",
    "C75_missing",
    "C75_no_rows_refuted",
    "C75_nested_refuted"
   ],
   "note": "The statement as written is false of the code, so the claim is partial. Proved: without funnel condition the rows are exactly those visible rows of the joined views that meet every condition, a condition on groups being met when the value is there, the group has rows and the condition holds of the metric over them (C75_rows), C74_rows with one; every view used otherwise is joined (C75_joined); rows without group are never kept; what is missing is exactly the views of the groups; a group without conditions is refused. Refuted: two conditions on groups are always an error, a TypeError; the view of the group is not joined for the condition; a group without rows is not kept although the condition holds of no rows; in a group of conditions group_by is not used, or a KeyError. Missing: conditions as text; merged and cumulative queries."
  },
  {
   "property": "C76",
   "status": "partial",
   "theorems": [
    "C76_backslash_refuted",
    "C76_quote_refuted",
    "C76_cast_refuted",
    "C76_comment_refuted",
    "C76_case_labels",
    "C76_case_label_refuted",
    "C76_measure_filter",
    "C76_reference_refuted",
    "C76_value_spaces_refuted",
    "C76_template_refuted",
    "C76_reads",
    "C76_condition",
    "C76_same_shape"
   ],
   "note": "The statement as written is false of the code, so the claim is partial. Proved: the text of every nested where clause reads as the clause with each value as one literal, on every warehouse for the values its literals can hold with doubled quotes, which is every value on Postgres, Druid, DuckDB, SQL Server, Synapse and Trino (C76_reads); the reading of each kind of text condition (C76_condition); requests that differ only in texts give the same shape (C76_same_shape); filters of measures up to runs of spaces, for texts without a dollar (C76_measure_filter); labels without quotes (C76_case_labels). Refuted: a backslash before a quote ends the literal on Snowflake, Redshift, BigQuery and Databricks and the rest is read as SQL; a quote is lost on BigQuery and Databricks; matches on BigQuery and Trino writes the value unescaped in a CAST; a column whose SQL ends in a comment hides the condition; values of filters of measures that look like a reference, have two spaces or a template mark are changed; a label with a quote ends its literal. Missing: the rules of literals of the warehouses are written down by hand (rules_of)."
  },
  {
   "property": "C77",
   "status": "partial",
   "theorems": [
    "C77_parts",
    "C77_listed",
    "C77_cumulative",
    "C77_merged_said",
    "C77_merged",
    "C77_loses",
    "C77_required",
    "C77_views",
    "C77_terminates",
    "C77_cycle",
    "C77_number_view_refuted",
    "C77_chain_refuted",
    "C77_hidden_refuted",
    "C77_template_refuted"
   ],
   "note": "The statement as written is false of the code, so the claim is partial. Proved: the references found are exactly the fields a field is computed from and the names that are lost, at any depth (C77_parts, C77_listed); cumulative, merged and no longer joinable are exactly as stated (C77_cumulative, C77_merged, C77_loses); the needed views are exactly those of everything it depends on (C77_required); every needed view is in every join graph when dimensions keep to their view and metrics of type number use something of their own (C77_views); the recursion ends without a cycle and never answers with one. Refuted: a reference to a field of type number leaves no trace of its view, so the field is said to be in join graphs without it; dimensions are not looked through; a metric whose parts the user may not all see is not a merged result for them; a metric with template marks hides what it is computed from. Missing: the cumulative metric's own measure is looked at one level deep only, as in the code."
  },
  {
   "property": "C78",
   "status": "partial",
   "theorems": [
    "C78_list",
    "C78_list_errors",
    "C78_show",
    "C78_attributes",
    "C78_listed_shown",
    "C78_metric_shown",
    "C78_dimension_shown",
    "C78_group_shown_refuted",
    "C78_hidden_shown_refuted",
    "C78_status_refuted",
    "C78_profiles_refuted",
    "C78_validate",
    "C78_debug",
    "C78_debug_refuted",
    "C78_trino_refuted",
    "C78_printable_tried",
    "C78_same_name_refuted"
   ],
   "note": "The statement as written is false of the code, so the claim is partial. Proved: list prints the number and exactly the names visible to the user (C78_list), with the errors it can end with (C78_list_errors); show prints the attributes of the object with that name (C78_show, C78_attributes); every model, connection and view listed can be shown, every metric that is not hidden, every dimension that is no group (C78_listed_shown, C78_metric_shown, C78_dimension_shown); validate (C78_validate); debug tries every connection once, in order, each reported by its own answer, when the attributes of all can be printed, which C59 gives for six kinds of connection (C78_debug, C78_printable_tried). Refuted: dimension groups, hidden metrics and fields whose name two views have are listed and cannot be shown; an unknown type, an unknown connection and a validation with errors end with status 0; listing profiles always fails; one connection whose attributes cannot be printed (any Trino connection) and no connection is tried."
  },
  {
   "property": "C79",
   "status": "partial",
   "theorems": [
    "C79_names",
    "C79_fields",
    "C79_grouped_by",
    "C79_column",
    "C79_bare_column",
    "C79_selected",
    "C79_cast_refuted",
    "C79_capitals_refuted",
    "C79_newline_refuted",
    "C79_keyword_refuted",
    "C79_function_refuted",
    "C79_no_message_refuted",
    "C79_aggregate_refuted"
   ],
   "note": "The statement as written is false of the code, so the claim is partial. Proved: the names looked up are exactly the names of the text with their dots, in order (C79_names); a clause is accepted exactly when each is a field and uses exactly those fields (C79_fields); a text is grouped by what precedes its last spaced as, for every text in which no as directly follows an as (C79_grouped_by), so an expression without a spaced as is grouped by as written (C79_column, C79_bare_column, C79_selected). Refuted: words sqlparse takes for keywords are not looked up; a call of a function is refused; empty texts and a final dot end with an IndexError; a cast without alias is cut in its middle; as inside the expression, also in quotes, becomes AS in the group only; an alias on a new line is grouped with its expression; aggregates are grouped. Not modelled: the lexer (an oracle), and the outer selects of merged, cumulative and funnel queries, which do not show such columns."
  },
  {
   "property": "C80",
   "status": "partial",
   "theorems": [
    "C80_same_answer",
    "C80_more_is_answered",
    "C80_or_denied",
    "C80_hidden_key_refuted",
    "C80_seen_key",
    "C80_numbers_refuted",
    "C80_count_refuted",
    "C80_way_refuted",
    "C80_name_refuted",
    "C80_replaced_refuted"
   ],
   "note": "The statement as written is false of the code, so the claim is partial. Proved, for users who may see the same views and the same primary keys and names that each mean one field of the whole project: the same SQL whenever both are answered (C80_same_answer), the user who sees more is answered the same (C80_more_is_answered), and the user who sees less gets that answer or AccessDenied (C80_or_denied). With both keys seen a sum is taken by the text of the key of its view (C80_seen_key). Refuted: a key the user may not see turns the aggregates that count each row once into plain ones (C80_hidden_key_refuted, general; C80_numbers_refuted gives the two numbers), and a count of the key into a count of all rows (C80_count_refuted); a hidden view changes the joins (C80_way_refuted); a name without a view means another field (C80_name_refuted); a hidden count is replaced (C80_replaced_refuted). Whole grouped queries of Query_Model.v; not row level, merged, cumulative or funnel queries."
  },
  {
   "property": "C81",
   "status": "partial",
   "theorems": [
    "C81_read",
    "C81_again",
    "C81_repeated",
    "C81_lists",
    "C81_again_replaced",
    "C81_again_chosen",
    "C81_unchanged",
    "C81_other_rows_refuted",
    "C81_not_merged_refuted",
    "C81_reused_dimensions_refuted",
    "C81_reused_where_refuted",
    "C81_wrapped_twice_refuted",
    "C81_funnel_left_refuted",
    "C81_only_mapped_refuted"
   ],
   "note": "The statement as written is false of the code, so the claim is partial. Proved: exactly when the objects are as before (C81_unchanged); the lists are left with the chosen fields in the place of mapped names (C81_lists); asking again any number of times is answered with the same request, in which the conditions of always_filter are repeated (C81_again without mapped names in the lists, C81_again_replaced with mapped names in the lists only, C81_again_chosen with mapped names anywhere when one join graph holds all the fields of the answer), which keeps the same rows (C81_repeated). Refuted: the always_filter of a view reached by a mapped name applies only from the second time on (C81_other_rows_refuted); a query made a merged one by its date mapping is not one the second time (C81_not_merged_refuted); lists reused for another query (C81_reused_dimensions_refuted, C81_reused_where_refuted); conditions wrapped twice (C81_wrapped_twice_refuted); a funnel condition keeps the query built for it (C81_funnel_left_refuted); mapped names only (C81_only_mapped_refuted). Not modelled: what a call that fails leaves."
  },
  {
   "property": "C82",
   "status": "partial",
   "theorems": [
    "C82_same_partial",
    "C82_lost_partial",
    "C82_database_refuted",
    "C82_refused_refuted",
    "C82_synapse_refuted",
    "C82_no_user_refuted",
    "C82_types",
    "C82_required",
    "C82_enough",
    "C82_snowflake_user",
    "C82_defaults",
    "C82_credentials",
    "C82_project",
    "C82_user_unset"
   ],
   "note": "The statement as written is false of the code, so the claim is partial. Proved: Snowflake, Databricks, Redshift and Druid connections come back with all their settings, where None and an empty value count as the same (C82_same_partial); SQL Server loses exactly database and schema and BigQuery exactly schema (C82_lost_partial). Refuted: a configured database of SQL Server is gone (C82_database_refuted); the dictionary of every Postgres, DuckDB and Trino connection is refused with TypeError (C82_refused_refuted); a Synapse connection comes back as one of SQL Server (C82_synapse_refuted); without a user Druid, SQL Server and Synapse connections give no dictionary (C82_no_user_refuted). Also given exactly (ConnLoad_Props): the connection each type gives, the arguments needed and enough, the defaults, Snowflake's user, BigQuery's credentials and project, and the error of each refusal."
  },
  {
   "property": "C83",
   "status": "partial",
   "theorems": [
    "C83_nothing_else",
    "C83_other_database_refuted",
    "C83_all_partial",
    "C83_letter_case_refuted",
    "C83_quote_refuted",
    "C83_limit_refuted",
    "C83_refused",
    "C83_databricks_refuted",
    "C83_defaults",
    "C83_text",
    "C83_comment_partial",
    "C83_comment_refuted",
    "C83_counted",
    "C83_counts",
    "C83_model_partial",
    "C83_no_model",
    "C83_one_model_refuted",
    "C83_read_back_partial",
    "C83_empty_project_refuted",
    "C83_tables_text",
    "C83_tables_refused",
    "C83_no_folder"
   ],
   "note": "The statement as written is false of the code, so the claim is partial. Proved: only columns asked for are seen (C83_nothing_else), and all of them, each once and in order, when the names are spelled as the warehouse spells them, have no quote, and Snowflake has at most 10000 columns (C83_all_partial); exactly when seeding is refused (C83_refused); what is looked at by default (C83_defaults); the text of the queries (C83_text, C83_tables_text, C83_counts); counted columns are recognised for every name (C83_counted); the comment of a table whose name is its own (C83_comment_partial); the model of the views when the project has no model or several (C83_model_partial, C83_no_model); the folders written are folders read (C83_read_back_partial). Refuted: a schema typed in another letter case gives nothing; Snowflake drops the columns after 10000; a name with a quote gives nothing; Druid and Trino ignore the database; Databricks without a database is refused; a table of one name in another schema lends its comment; the only model of a project takes views of any connection; with an empty project file the views are never read."
  },
  {
   "property": "C84",
   "status": "partial",
   "theorems": [
    "C84_types_partial",
    "C84_unknown",
    "C84_time_of_day_refuted",
    "C84_letter_case_refuted",
    "C84_precision_refuted",
    "C84_missing_refuted",
    "C84_field",
    "C84_view",
    "C84_passes_partial",
    "C84_key_refuted",
    "C84_searchable_refuted",
    "C84_name_refuted",
    "C84_clash_refuted",
    "C84_model"
   ],
   "note": "The statement as written is false of the code, so the claim is partial. Proved: every type the lookup of a warehouse knows gives a field of the kind of its values, the time of day set aside (C84_types_partial), any other gives text (C84_unknown); exactly what the validation says of a seeded field (C84_field) and of a seeded view (C84_view), for columns without a dollar or percent sign in their names; with searchable tags, proper names and comments that fit only the warning of a missing primary key is left (C84_passes_partial); the seeded model passes (C84_model). Refuted: the time of day is a moment in Redshift, Databricks, SQL Server and Synapse; types are known in one letter case only, so every DuckDB type is text; a type with a length or precision is text; INTEGER of Redshift and others are missing; no seeded view has a primary key; without searchable tags every text column is an error; column names of signs alone and columns whose cleaned names clash are errors."
  },
  {
   "property": "C85",
   "status": "partial",
   "theorems": [
    "C85_reported",
    "C85_resolved",
    "C85_expands_partial",
    "C85_answers",
    "C85_true_alarm",
    "C85_self",
    "C85_located",
    "C85_circle_refuted",
    "C85_number_refuted",
    "C85_number_circle_refuted"
   ],
   "note": "The statement as written is false of the code, so the claim is partial. Proved: every missing reference and every template is reported (C85_reported), so with an empty report every reference names a field (C85_resolved); such a field is then written as one text for all large stacks when no circle and no metric of type number is behind it (C85_expands_partial), and otherwise it stops for exactly one of three reasons, a circle, a field without sql or a reference to a metric of type number (C85_answers); a field reported for a reference, a template or itself never has a text (C85_true_alarm, C85_self); the references the view could not locate are the same except for merged results (C85_located). Refuted: two dimensions that refer to each other pass and can never be written (C85_circle_refuted); so does a dimension that refers to a metric of type number (C85_number_refuted); fields of type number in a circle make the validation itself fail (C85_number_circle_refuted). Durations and the older case syntax are left out."
  },
  {
   "property": "C86",
   "status": "partial",
   "theorems": [
    "C86_names",
    "C86_columns",
    "C86_cumulative_partial",
    "C86_funnel_plain",
    "C86_funnel_key",
    "C86_funnel_partial",
    "C86_result",
    "C86_having_refuted",
    "C86_key_condition_refuted",
    "C86_filter_refuted",
    "C86_two_views_refuted",
    "C86_distinct_refuted"
   ],
   "note": "The statement as written is false of the code, so the claim is partial. Proved: exactly the columns the SQL of a metric names, through any depth of metrics of type number (C86_names), and exactly the columns of the rows read, each once (C86_columns); for cumulative metrics every named column is there unless a part has a distinct key (C86_cumulative_partial); in a funnel the dimensions, dates, link and step fields are there (C86_funnel_plain), the primary key of the view of the metric is there unless the query names it outside of its dimensions (C86_funnel_key), and so a metric whose parts have no filters and no distinct keys and are of its own view finds all its columns (C86_funnel_partial); the result has each name once exactly when no metric or dimension is listed twice (C86_result). Refuted: a condition on the primary key removes its column (C86_key_condition_refuted); the field of a filter of a metric is no column (C86_filter_refuted); neither is the key of another view in a metric of type number (C86_two_views_refuted) nor a distinct key (C86_distinct_refuted); a having on a selected metric puts it into the result twice (C86_having_refuted). Templates and cumulative metrics inside funnels are left out."
  },
  {
   "property": "C87",
   "status": "partial",
   "theorems": [
    "C87_restored",
    "C87_timezone",
    "C87_sets",
    "C87_model",
    "C87_joins_partial",
    "C87_joins_refuted",
    "C87_access",
    "C87_access_refuted",
    "C87_funnel",
    "C87_funnel_refuted",
    "C87_message",
    "C87_message_refuted",
    "C87_mapped",
    "C87_mapped_partial",
    "C87_date_refuted"
   ],
   "note": "The statement as written is false of the code, so the claim is partial. Proved for any two orders: what is sorted by place or by the alphabet is the same (C87_restored), and so are the timezone (C87_timezone), the fields of a set (C87_sets), the model of a query (C87_model), the joins unless two views tie in both directions (C87_joins_partial), the conditions of the access filters up to their order, hence the rows (C87_access), the rows a funnel reads and the columns of its result up to their order (C87_funnel), the names in the message about duplicate fields up to their order (C87_message), and the fields put for mapped names when the query has a metric (C87_mapped) or when no two dates of its fields belong to views with equally many measures (C87_mapped_partial). Refuted: with such a tie the mapped name date stands for another field in another process, which is another question (C87_date_refuted); the view after FROM (C87_joins_refuted), the order of the access conditions (C87_access_refuted), the order of the columns of a funnel with conditions on two metrics (C87_funnel_refuted) and the message about duplicate fields (C87_message_refuted) depend on the process too. The order in which files are found is C61; sets that are only asked for membership are left out."
  },
  {
   "property": "C88",
   "status": "partial",
   "theorems": [
    "C88_duration",
    "C88_duration_text",
    "C88_duration_refuted",
    "C88_symmetric_sum",
    "C88_symmetric_count",
    "C88_symmetric_average",
    "C88_symmetric_text",
    "C88_symmetric_count_text",
    "C88_symmetric_average_text",
    "C88_timeframe",
    "C88_raw",
    "C88_timeframe_references",
    "C88_week",
    "C88_week_of_month",
    "C88_week_of_month_refuted",
    "C88_timeframe_text",
    "C88_week_text",
    "C88_week_of_month_text",
    "C88_unique",
    "C88_one_meaning",
    "C88_number",
    "C88_reads_partial",
    "C88_dimension_partial",
    "C88_refused",
    "C88_errors",
    "C88_exact",
    "C88_merged_errors",
    "C88_join",
    "C88_identifier",
    "C88_merged",
    "C88_conditions_partial",
    "C88_condition",
    "C88_and",
    "C88_conditions",
    "C88_tier",
    "C88_measure_filters_partial",
    "C88_dimension_refuted",
    "C88_join_refuted",
    "C88_aggregate_refuted",
    "C88_measure_refuted",
    "C88_conditions_refuted",
    "C88_false_refuted",
    "C88_measure_filters_refuted"
   ],
   "note": "The statement as written is false of the code, so the claim is partial. Proved, against a grammar of SQL's operators with their precedence: a text has one reading (C88_unique) and a field one meaning (C88_one_meaning); a measure of type number reads as meant whenever the fields it refers to do, because references in it are put in brackets (C88_number); so do merged results (C88_merged); in a project whose dimensions can be given levels, so that each reference stands where a text of its level may, every field of any depth reads as meant (C88_reads_partial) and keeps its level when referred to (C88_dimension_partial); and levels are needed: when the fields referred to read as meant, a dimension or aggregate does exactly when such levels exist (C88_exact); what has a text refers to no measure of type number outside of one (C88_refused) and a field without a text has references that are endless, unknown or misplaced (C88_errors, C88_merged_errors); the condition of a join reads as meant exactly when such levels exist (C88_join), that of a shared identifier when both sides bind as tightly as an equation's do (C88_identifier); a condition reads as one exactly when its text binds tightly enough (C88_condition) and several hold together exactly when each does (C88_and), that is when each text has the level its condition asks for (C88_conditions), as the bounds of a tier do (C88_tier); conditions on texts that bind tightly enough hold together (C88_conditions_partial), also those of a measure's filters (C88_measure_filters_partial); a timeframe of a time dimension says what the dimension's sql says and can be put anywhere, in every warehouse, except for what stands bare before a fiscal interval (C88_timeframe) and the raw timeframe (C88_raw), weeks that begin on another day can be put no deeper than in a sum (C88_week), nor can weeks of the month (C88_week_of_month) and durations of postgres in several units, all others being primary (C88_duration), symmetric sums, counts and averages read as meant and can be put anywhere, whatever the text of the measure and its key (C88_symmetric_sum, C88_symmetric_count, C88_symmetric_average), references are replaced inside a timeframe as in any dimension (C88_timeframe_references), and the tokens these theorems speak of spell the texts the code writes (C88_timeframe_text, C88_week_text, C88_week_of_month_text, C88_duration_text, C88_symmetric_text, C88_symmetric_count_text, C88_symmetric_average_text). Refuted: half of a profit defined as a difference is the revenue less half of the cost (C88_dimension_refuted), also inside a sum (C88_aggregate_refuted); a join on a difference with the profit takes the profit apart (C88_join_refuted); an aggregate that refers to an aggregate is taken of what that one is taken of (C88_measure_refuted); a condition that a dimension written with OR is true lets rows through that the other conditions exclude (C88_conditions_refuted, C88_measure_filters_refuted), and that it is false keeps rows where it is true (C88_false_refuted); half of the week of the month halves only its last term (C88_week_of_month_refuted), and so does half of a duration in hours (C88_duration_refuted)."
  }
 ]
}