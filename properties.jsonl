{"id": "C01", "title": "Access grants are a conjunction and are enforced on every listing and lookup", "statement": "When a user is set on the project, a dashboard, view or field is listed (dashboards(), views(), fields()) or returned by a lookup (get_dashboard, get_view, get_field) only if every access grant it names is satisfied: the user does not carry the grant's attribute, or the carried value is one of the grant's allowed values. With no user set everything is visible. Naming an unknown grant raises QueryError rather than granting or hiding.", "quantifier": "all projects, all users (attribute maps), all objects, all grant lists", "why_tests_cant": "The decision ranges over every combination of grants, attributes and objects; a test only samples a few users.", "anchors": ["metrics_layer/core/model/project.py:_can_access_object", "metrics_layer/core/model/project.py:can_access_field", "metrics_layer/core/model/project.py:_all_views", "metrics_layer/core/model/project.py:get_view", "metrics_layer/core/model/view.py:_all_fields"]}
{"id": "C02", "title": "A field can never be more visible than its view", "statement": "No field lookup or listing (by name, qualified name, tag, view) returns a field whose own grants or whose view's grants deny the current user.", "quantifier": "all projects, users, field and view names", "why_tests_cant": "Needs every route from name to field, for every user, not a sample.", "anchors": ["metrics_layer/core/model/project.py:get_field", "metrics_layer/core/model/project.py:can_access_field", "metrics_layer/core/model/project.py:_matching_field_handler", "metrics_layer/core/model/view.py:_all_fields"]}
{"id": "C03", "title": "Field lookup is unambiguous", "statement": "get_field(name) returns a field only when exactly one visible field matches the (case-insensitive, optionally view-qualified) name; several matches always raise QueryError, none raises AccessDeniedOrDoesNotExistException (the only exception being the implicit 'count' of a named view). The answer does not depend on the order in which views with different names are listed.", "quantifier": "all projects and names", "why_tests_cant": "Ambiguity depends on the whole project; permutation independence is a statement about all orders.", "anchors": ["metrics_layer/core/model/project.py:get_field", "metrics_layer/core/model/project.py:_parse_field_and_view_name", "metrics_layer/core/model/project.py:_matching_field_handler", "metrics_layer/core/model/base.py:field_name_parts"]}
{"id": "C04", "title": "Row-level access filters are applied to every view a query reads", "statement": "For every query, each access filter of each view the query touches whose user attribute the user carries contributes a condition to the WHERE clause, all conditions are ANDed, and no user means no condition.", "quantifier": "all queries, projects, users", "why_tests_cant": "Security property over all queries and joins; a missing condition leaks rows only for particular join paths.", "anchors": ["metrics_layer/core/sql/query_design.py:get_access_filter", "metrics_layer/core/sql/query_generator.py:parse_definition", "metrics_layer/core/sql/query_design.py:required_views"]}
{"id": "C05", "title": "Cached answers are the answers a fresh project would give", "statement": "After any sequence of set_user, add_field, remove_field, refresh_cache and lookups, a lookup on the long-lived project returns exactly what an uncached project with the same content and user returns.", "quantifier": "all operation histories", "why_tests_cant": "Quantifies over all histories of calls; stale entries need specific interleavings.", "anchors": ["metrics_layer/core/model/project.py:__hash__", "metrics_layer/core/model/project.py:refresh_cache", "metrics_layer/core/model/project.py:fields", "metrics_layer/core/model/project.py:join_graph", "metrics_layer/core/model/project.py:add_field"]}
{"id": "C06", "title": "Temporary fields leave no trace", "statement": "Adding a temporary field to a view and removing it again (as non-additive queries do) leaves the view's field list as it was; adding an existing name changes nothing.", "quantifier": "all views and field names, all crash points between the add and the remove", "why_tests_cant": "Depends on name collisions (including case) and on exceptions between the two calls.", "anchors": ["metrics_layer/core/model/project.py:add_field", "metrics_layer/core/model/project.py:remove_field", "metrics_layer/core/sql/query_generator.py:_non_additive_cte"]}
{"id": "C07", "title": "replace_objects is transactional", "statement": "Inside replace_objects the replaced objects shadow exactly the same-named ones and everything else is unchanged; on leaving the block, normally or through any exception, models, views and dashboards equal their value on entry and no cached answer computed inside survives. Blocks nest.", "quantifier": "all projects, all replacement lists, all nested block programs, all exception points", "why_tests_cant": "All crash points and nestings.", "anchors": ["metrics_layer/core/model/project.py:replace_objects", "metrics_layer/core/model/project.py:validate_with_replaced_objects"]}
{"id": "C08", "title": "join_as creates exactly the requested view copies", "statement": "For every view with primary identifiers carrying join_as, the project gains exactly one view per distinct join_as name, with the same table, without measures unless include_metrics is set, carrying only the identifier that requested it (join_as removed), while the original loses every identifier of that name; all other views are unchanged; the same join_as on two different views raises QueryError.", "quantifier": "all view lists", "why_tests_cant": "Identifier lists are mutated while iterated; needs all lists.", "anchors": ["metrics_layer/core/model/project.py:_handle_join_as_duplication"]}
{"id": "C09", "title": "The join graph contains exactly the permitted joins", "statement": "There is an identifier join from view A to view B iff both carry an identifier of the same name, neither side's only_join excludes the other, and the relationship is not a fan-out or A's identifier explicitly allows fanning out to B; explicit joins are kept unless an identifier gives a strictly better relationship. The relationship kept for a pair is the best one available; duplicate view names raise QueryError.", "quantifier": "all projects", "why_tests_cant": "An extra or missing edge only shows for particular identifier combinations.", "anchors": ["metrics_layer/core/model/join_graph.py:build", "metrics_layer/core/model/join_graph.py:_allowed_join", "metrics_layer/core/model/join_graph.py:_is_fanout", "metrics_layer/core/model/join_graph.py:_reference_map"]}
{"id": "C10", "title": "Declared relationships are sound for the data", "statement": "If primary identifiers are unique in their tables, then a join classified many_to_one or one_to_one never multiplies base rows, and one_to_one/one_to_many never multiply joined rows; reversing a relationship twice is the identity and reversing agrees with deriving the relationship the other way round.", "quantifier": "all identifier type pairs and all table contents", "why_tests_cant": "A claim about all table contents.", "anchors": ["metrics_layer/core/model/join_graph.py:_derive_relationship", "metrics_layer/core/model/join_graph.py:_invert_relationship", "metrics_layer/core/model/join_graph.py:_edge_weight"]}
{"id": "C11", "title": "Join-graph identity means mutual reachability", "statement": "Two views get the same join graph name iff each can be joined from the other through graph edges; a view lists join graph g among its join graphs iff some (equivalently every) member of g reaches it; joinable views of v are exactly the other views sharing one of these.", "quantifier": "all graphs", "why_tests_cant": "Reachability is unbounded.", "anchors": ["metrics_layer/core/model/join_graph.py:join_graph_hash", "metrics_layer/core/model/join_graph.py:weak_join_graph_hashes", "metrics_layer/core/model/join_graph.py:get_joinable_view_names"]}
{"id": "C12", "title": "Join-graph numbering is deterministic", "statement": "The name subquery_i given to a set of mutually joinable views does not depend on the enumeration order of views or of components: larger components first, ties by first view name.", "quantifier": "all graphs, all enumeration orders", "why_tests_cant": "All permutations (set iteration order, hash seeds).", "anchors": ["metrics_layer/core/model/join_graph.py:_strongly_connected_components"]}
{"id": "C13", "title": "The FROM clause is well formed", "statement": "Whenever a query succeeds, the join list starts at one base view, every further join starts from a view already present, every join is an edge of the join graph, no view is joined twice, and every required view is present.", "quantifier": "all graphs and required-view sets", "why_tests_cant": "Malformed orders arise only for particular topologies.", "anchors": ["metrics_layer/core/sql/query_design.py:determine_join_order", "metrics_layer/core/sql/query_design.py:_validate_join_path", "metrics_layer/core/sql/query_design.py:_clean_view_pairs", "metrics_layer/core/model/join_graph.py:ordered_joins", "metrics_layer/core/sql/query_design.py:base_view_name"]}
{"id": "C14", "title": "Two-view queries use a cheapest join path and fail only when none exists", "statement": "For two views that are not directly orderable, the joins used form a path of minimal total weight between them in one of the two directions; JoinError is raised only if neither reaches the other.", "quantifier": "all weighted graphs of projects in which no view declares a join to itself", "why_tests_cant": "Minimality over all paths.", "anchors": ["metrics_layer/core/sql/query_design.py:_shortest_path_between_two", "metrics_layer/core/sql/query_design.py:determine_join_order"]}
{"id": "C15", "title": "Aggregates are computed at the right grain (functional primary key)", "statement": "If the query's functional primary key is view V's key, then in the joined rows that key is unique, for all table contents compatible with the declared relationships.", "quantifier": "all join lists and all table contents", "why_tests_cant": "A claim about all data.", "anchors": ["metrics_layer/core/sql/query_design.py:functional_pk", "metrics_layer/core/sql/query_design.py:_derive_primary_key_view"]}
{"id": "C16", "title": "Symmetric aggregates undo fan-out exactly", "statement": "When a measure is aggregated symmetrically, SUM, COUNT and AVERAGE over the fanned-out rows equal the same aggregate over the distinct rows of the measure's own view, for any fan-out, provided the key hash is injective on the keys involved.", "quantifier": "all row multisets, all fan-outs, all hash functions", "why_tests_cant": "A claim about all data and multiplicities.", "anchors": ["metrics_layer/core/model/field.py:_sum_symmetric_aggregate", "metrics_layer/core/model/field.py:_count_symmetric_aggregate", "metrics_layer/core/model/field.py:_average_symmetric_aggregate"]}
{"id": "C17", "title": "Symmetric aggregation is chosen whenever the grain differs", "statement": "A sum, count or average of a view whose primary key is not the query's functional key is always computed with fan-out protection, and a protected aggregate is never produced without a primary key.", "quantifier": "all measures, keys, warehouses", "why_tests_cant": "Interaction of warehouse, key presence and join shape.", "anchors": ["metrics_layer/core/model/field.py:_needs_symmetric_aggregate", "metrics_layer/core/model/field.py:_sum_aggregate_sql", "metrics_layer/core/model/field.py:_count_aggregate_sql", "metrics_layer/core/model/field.py:_average_aggregate_sql"]}
{"id": "C18", "title": "The filter mini-language means what it says", "statement": "For every filter value of the documented forms (=,<,>,<=,>=,<>,!=, comma lists, '-' negation, %-patterns, NULL, -NULL, TRUE, FALSE, on/before/after date) the produced condition accepts exactly the column values the form describes; mixed negated/plain lists raise QueryError.", "quantifier": "all strings", "why_tests_cant": "The grammar is over all strings; branch order matters.", "anchors": ["metrics_layer/core/model/filter.py:_filter_dict", "metrics_layer/core/model/filter.py:sql_query"]}
{"id": "C19", "title": "Relative date filters select the intended calendar range", "statement": "For every 'now', every interval, every n and every configured week start, 'this/last/n <interval>', '<n> <interval> ago', 'to date' and 'ago for' produce a start and an end with start<=end, aligned with the interval's boundaries; 'last' and 'this' ranges are adjacent with no gap or overlap, and weeks begin on the configured day.", "quantifier": "all dates, all n, all intervals, all week start days", "why_tests_cant": "Calendar arithmetic over all dates.", "anchors": ["metrics_layer/core/model/filter.py:_start_date", "metrics_layer/core/model/filter.py:_end_date", "metrics_layer/core/model/filter.py:_parse_n_interval", "metrics_layer/core/model/filter.py:_parse_n_interval_modifier", "metrics_layer/core/model/filter.py:_parse_n_interval_ago_for"]}
{"id": "C20", "title": "Parsing a filter leaves the process-wide week start unchanged", "statement": "After building any filter, successfully or not, the process-global week start/end is the default again, so one filter never changes another's meaning.", "quantifier": "all filter histories including failing ones", "why_tests_cant": "All histories and exception points.", "anchors": ["metrics_layer/core/model/filter.py:_set_week_start_day", "metrics_layer/core/model/filter.py:_reset_week_start_day", "metrics_layer/core/model/filter.py:_filter_dict"]}
{"id": "C21", "title": "Nested filter groups evaluate as written", "statement": "A filter group of any nesting depth produces a condition that holds of a row exactly when the boolean AND/OR tree does under SQL three-valued logic; AND is the default, unknown operators raise ParseError; a literal condition is kept verbatim.", "quantifier": "all trees, all rows", "why_tests_cant": "Unbounded depth and all rows.", "anchors": ["metrics_layer/core/sql/query_filter.py:group_sql_query", "metrics_layer/core/sql/query_filter.py:sql_query", "metrics_layer/core/sql/query_generator.py:_parse_filter_object"]}
{"id": "C22", "title": "Measures and dimensions are never mixed inside one filter group", "statement": "Every where or having group that contains both an aggregate and a non-aggregate field (at any depth) is rejected with QueryError; every accepted group is uniform.", "quantifier": "all filter trees", "why_tests_cant": "Unbounded nesting.", "anchors": ["metrics_layer/core/sql/single_query_resolve.py:parse_where", "metrics_layer/core/sql/single_query_resolve.py:parse_having", "metrics_layer/core/utils.py:flatten_filters"]}
{"id": "C23", "title": "Week truncation starts weeks on the configured day", "statement": "For every date and each of the seven week start days, the generated week expression yields the latest configured start day on or before the date; week-of-year style groupings are constant inside such a week.", "quantifier": "all dates, all start days, all warehouses", "why_tests_cant": "All dates.", "anchors": ["metrics_layer/core/model/field.py:_week_dimension_group_time_sql", "metrics_layer/core/model/field.py:_week_sql_date_trunc", "metrics_layer/core/model/field.py:_apply_week_start_day_offset_only"]}
{"id": "C24", "title": "Tier buckets partition the number line", "statement": "For every strictly increasing list of tiers each non-null value receives exactly one bucket label, the bucket contains the value, and labels are distinct; NULL maps to 'Unknown'.", "quantifier": "all tier lists, all values", "why_tests_cant": "All values and lists.", "anchors": ["metrics_layer/core/model/field.py:_translate_looker_tier_to_sql"]}
{"id": "C25", "title": "Measure filters restrict exactly the aggregated rows", "statement": "A measure with filters aggregates precisely the rows that satisfy all filters; rows failing any filter contribute nothing (0 for sums, not counted for counts).", "quantifier": "all rows, filters and aggregate types", "why_tests_cant": "A claim about all data.", "anchors": ["metrics_layer/core/model/filter.py:translate_looker_filters_to_sql", "metrics_layer/core/model/field.py:sql", "metrics_layer/core/model/field.py:_count_aggregate_sql"]}
{"id": "C26", "title": "Field sets expand to the documented list", "statement": "Set.field_names() lists each field once, contains a field iff some inclusion mentions it and no exclusion does, keeps first-mention order, and expanding nested sets terminates exactly when set references are acyclic.", "quantifier": "all set definitions", "why_tests_cant": "Unbounded nesting; cycles.", "anchors": ["metrics_layer/core/model/set.py:field_names", "metrics_layer/core/model/set.py:_internal_get_fields_from_set"]}
{"id": "C27", "title": "Flattening filters keeps every leaf", "statement": "flatten_filters returns exactly the leaf conditions of an arbitrarily nested filter, in left-to-right order, without conjunction nodes.", "quantifier": "all filter trees", "why_tests_cant": "Unbounded depth.", "anchors": ["metrics_layer/core/utils.py:flatten_filters"]}
{"id": "C28", "title": "Single-query / merged-query fallback is total and safe", "statement": "A query is answered by a single query if one is possible; it falls back to a merged query only when the single query fails with JoinError and single_query was not requested; any other error is reported unchanged; explicit merged requests never run as single queries.", "quantifier": "all outcome combinations of the sub-resolvers", "why_tests_cant": "All error combinations.", "anchors": ["metrics_layer/core/sql/resolve.py:get_query", "metrics_layer/core/sql/resolve.py:is_merged_result"]}
{"id": "C29", "title": "always_filter conditions are never lost", "statement": "For every query, each always_filter condition of every view whose fields are selected is present in the final where (unless an identical one is), the user's own conditions are all kept, and duplicates are removed without reordering.", "quantifier": "all queries and projects", "why_tests_cant": "Depends on the combination of views and on failures during collection.", "anchors": ["metrics_layer/core/sql/resolve.py:_apply_always_filter", "metrics_layer/core/sql/resolve.py:_deduplicate_always_where_filters"]}
{"id": "C30", "title": "Mapped names resolve to a joinable field", "statement": "A mapped name is replaced by a field that is joinable with the active join graphs if one exists, else by one mergeable with them, else an error is raised; the choice is the first in declaration order and every occurrence of the mapped name is replaced, nothing else.", "quantifier": "all mappings and queries", "why_tests_cant": "All combinations of mappings and join graphs.", "anchors": ["metrics_layer/core/sql/resolve.py:_resolve_mapped_fields", "metrics_layer/core/sql/resolve.py:determine_field_to_replace_with", "metrics_layer/core/sql/resolve.py:_replace_mapped_field", "metrics_layer/core/sql/resolve.py:_replace_dict_or_literal"]}
{"id": "C31", "title": "Merged queries distribute metrics and align dimensions", "statement": "In a merged query every requested metric is computed in exactly one sub query, all sub queries have the same number of dimensions in matching positions, and every where condition reaches every sub query that it can be resolved in.", "quantifier": "all merged queries", "why_tests_cant": "Grouping depends on all canonical dates, join graphs and mappings.", "anchors": ["metrics_layer/core/sql/merged_query_resolve.py:derive_sub_queries", "metrics_layer/core/sql/merged_query_resolve.py:_join_hash_contains_join_graph", "metrics_layer/core/sql/query_merged_results.py:_build_join_criteria"]}
{"id": "C32", "title": "Merged results lose and duplicate no rows", "statement": "Each combination of dimension values present in any sub query appears exactly once in the merged result with each metric taken from its sub query.", "quantifier": "all sub-query results, any number of sub queries", "why_tests_cant": "A claim about all data.", "anchors": ["metrics_layer/core/sql/query_merged_results.py:build_cte_from", "metrics_layer/core/sql/query_merged_results.py:get_select_columns"]}
{"id": "C33", "title": "Arbitrary merged queries are validated and keep columns unambiguous", "statement": "merged_queries is accepted iff every entry is a dict without funnel and every entry after the first has join fields with string names; the caller's argument is never modified; output column aliases are pairwise distinct, join columns of secondary queries are dropped and where/having/order_by may only mention output columns.", "quantifier": "all merged_queries arguments", "why_tests_cant": "All shapes of untyped input.", "anchors": ["metrics_layer/core/sql/arbitrary_merge_resolve.py:validate_arbitrary_merged_queries", "metrics_layer/core/sql/query_arbitrary_merged_queries.py:get_select_columns", "metrics_layer/core/sql/query_arbitrary_merged_queries.py:get_query"]}
{"id": "C34", "title": "Funnel steps count ordered chains", "statement": "A person is counted at step n iff they have a chain of n events with strictly increasing times, the i-th matching step i, within the window measured from the first; counts therefore never increase from step to step; membership at step n implies membership at step n-1.", "quantifier": "all event tables, any number of steps", "why_tests_cant": "All data.", "anchors": ["metrics_layer/core/sql/query_funnel.py:get_query", "metrics_layer/core/sql/query_funnel.py:get_step_n_cte", "metrics_layer/core/sql/query_funnel.py:_within_where"]}
{"id": "C35", "title": "Cumulative metrics are running totals", "statement": "For each period on the date spine the cumulative value is the aggregate of all rows dated on or before the period; it is monotone for non-negative sums; unsupported warehouses raise NotImplementedError; the query design is unchanged afterwards.", "quantifier": "all data, all spines, all exception points", "why_tests_cant": "All data; exception points.", "anchors": ["metrics_layer/core/sql/query_cumulative_metric.py:aggregate_cumulative_subquery", "metrics_layer/core/sql/query_cumulative_metric.py:_subquery", "metrics_layer/core/sql/query_cumulative_metric.py:date_spine"]}
{"id": "C36", "title": "Every ungrouped column is grouped", "statement": "In every generated query with aggregates, each selected non-aggregate column is in GROUP BY and nothing else is; select aliases are pairwise distinct; a query at primary key grain omits GROUP BY and aggregation consistently.", "quantifier": "all field lists", "why_tests_cant": "All combinations of fields.", "anchors": ["metrics_layer/core/sql/query_generator.py:get_query", "metrics_layer/core/sql/query_generator.py:get_select_columns", "metrics_layer/core/sql/query_generator.py:get_group_by_columns"]}
{"id": "C37", "title": "ORDER BY text is parsed to the field and direction written", "statement": "For every order_by string of comma separated items 'field', 'field asc' or 'field desc' the produced ordering has the same fields in the same order with the written direction (ascending by default).", "quantifier": "all strings of that form", "why_tests_cant": "All names, including names that contain the keywords.", "anchors": ["metrics_layer/core/sql/query_generator.py:_parse_order_by_object"]}
{"id": "C38", "title": "Dispatch of a query request", "statement": "get_sql_query answers through exactly one resolver: raw MQL if sql is given, else the metric resolver if metrics or dimensions are given, else merged queries, else QueryError; extra return values follow return_connection before return_query_kind.", "quantifier": "all argument combinations", "why_tests_cant": "All combinations.", "anchors": ["metrics_layer/core/query/query.py:get_sql_query"]}
{"id": "C39", "title": "Reference substitution is complete", "statement": "After expanding a field's SQL no ${...} placeholder of a resolvable field remains, each placeholder is replaced by the SQL of the field it names, text outside placeholders is unchanged; expansion terminates iff references are acyclic.", "quantifier": "all SQL strings and acyclic reference graphs", "why_tests_cant": "Unbounded nesting depth and arbitrary text.", "anchors": ["metrics_layer/core/model/field.py:replace_fields", "metrics_layer/core/model/field.py:get_replaced_sql_query", "metrics_layer/core/model/field.py:required_views", "metrics_layer/core/model/base.py:fields_to_replace"]}
{"id": "C40", "title": "Field names and qualified names round trip", "statement": "Splitting a qualified name built from parts returns the parts; a dimension group's alias is recognised by equal() with exactly its declared timeframes/intervals and yields back the timeframe.", "quantifier": "all names without dots; all timeframes", "why_tests_cant": "All names, e.g. names containing the timeframe text.", "anchors": ["metrics_layer/core/model/base.py:field_name_parts", "metrics_layer/core/model/field.py:alias", "metrics_layer/core/model/field.py:equal", "metrics_layer/core/model/field.py:get_dimension_group_name"]}
{"id": "C41", "title": "Listing a view's fields is independent of earlier calls", "statement": "View.fields(show_hidden, expand) depends only on its arguments: expanding gives one field per timeframe/interval, not expanding one per definition; hidden fields are excluded iff show_hidden is false.", "quantifier": "all call histories on one view object", "why_tests_cant": "Memoisation makes results history dependent.", "anchors": ["metrics_layer/core/model/view.py:fields", "metrics_layer/core/model/view.py:_all_fields"]}
{"id": "C42", "title": "Semantic query checks are complete before SQL is produced", "statement": "A query with a repeated field name, with both a funnel and a cumulative metric, with an incomplete funnel, or without a known warehouse never yields SQL but QueryError; the semicolon is absent exactly for warehouses that reject it or when not requested.", "quantifier": "all query arguments", "why_tests_cant": "All combinations of arguments.", "anchors": ["metrics_layer/core/sql/single_query_resolve.py:__init__", "metrics_layer/core/sql/single_query_resolve.py:get_query", "metrics_layer/core/sql/single_query_resolve.py:parse_input", "metrics_layer/core/sql/single_query_resolve.py:parse_funnel"]}
{"id": "C43", "title": "Model mappings are symmetric", "statement": "In a model's computed mappings, field g is referenced from field f iff f is referenced from g; no field references itself; only accessible fields occur; groups of mixed field types raise QueryError.", "quantifier": "all models", "why_tests_cant": "All mapping lists.", "anchors": ["metrics_layer/core/model/model.py:get_mappings", "metrics_layer/core/model/model.py:mappings"]}
{"id": "C44", "title": "Dialect ordering and limits", "statement": "ORDER BY null placement and row limits keep the same meaning in every warehouse dialect: NULLS LAST semantics wherever requested and at most the requested number of rows.", "quantifier": "all warehouses, all orderings", "why_tests_cant": "All combinations of dialect and ordering.", "anchors": ["metrics_layer/core/sql/query_dialect.py"]}
{"id": "C45", "title": "validate reports every distinct problem once", "statement": "validate() returns each distinct error message exactly once, in first-occurrence order, loses none, and reports every dashboard name used more than once.", "quantifier": "all projects", "why_tests_cant": "All error lists; early-break loop.", "anchors": ["metrics_layer/core/model/project.py:validate", "metrics_layer/core/model/project.py:_validate_dashboard_names"]}
{"id": "C46", "title": "Dashboard filters merge predictably", "statement": "A dashboard's parsed filters contain exactly the expanded conditions of its non-empty filters, in order; the week start is the one shared by all elements, else the default.", "quantifier": "all dashboards", "why_tests_cant": "All filter and element lists.", "anchors": ["metrics_layer/core/model/dashboard.py:parsed_filters", "metrics_layer/core/model/dashboard.py:metrics"]}
{"id": "C47", "title": "The join plan does not depend on the order of the required views", "statement": "The views a query needs are collected in a set. For any number of views other than two, every enumeration of that set gives the same joins or the same error; for two views it does unless the cheapest paths of both directions tie in weight and in concatenated names.", "quantifier": "all join graphs, all view sets and all their enumerations", "why_tests_cant": "String hashing is randomised per process, so a test sees one enumeration.", "anchors": ["metrics_layer/core/sql/query_design.py:required_views", "metrics_layer/core/sql/query_design.py:determine_join_order", "metrics_layer/core/sql/query_design.py:_add_missing_views", "metrics_layer/core/sql/query_design.py:_shortest_path_between_two"]}
{"id": "C48", "title": "Structured conditions mean what their expression says", "statement": "A condition {field, expression, value} of a query holds of a row exactly when the expression's meaning on that value holds of the field's value in the row (comparison, text search, list membership, NULL test, truth test), for yes/no and number fields as for the others; a condition without field, with an unknown expression or without a needed value is refused.", "quantifier": "all fields, all expressions, all values, all rows, all warehouses", "why_tests_cant": "The tests compare the text of a few generated conditions; whether every expression/type/value combination has its meaning on every row is not settled by texts.", "anchors": ["metrics_layer/core/sql/query_filter.py:78-152", "metrics_layer/core/sql/query_filter.py:247-273", "metrics_layer/core/model/filter.py:531-583"]}
{"id": "C49", "title": "MQL calls in SQL text are replaced by the SQL of the query they denote", "statement": "The SQL text returned for a text with MQL(...) calls is the same text with every call replaced by the SQL of the query it denotes (metrics, BY dimensions, WHERE, HAVING, ORDER BY, FOR/FUNNEL/THEN/WITHIN as written), in parentheses unless the text is the call alone, everything else unchanged, and a final semicolon added when missing.", "quantifier": "all SQL texts and all token sequences", "why_tests_cant": "Tests contain a few dozen statements; the token state machine and the textual replacement range over all statements.", "anchors": ["metrics_layer/core/convert/convert.py:78-118", "metrics_layer/core/convert/convert.py:120-243"]}
{"id": "C50", "title": "The model and the warehouse of a query", "statement": "A query is answered with the requested model, or the only model of the project, or the model all its fields belong to (a model defining them when all fields are mapped ones); fields of two models are refused with a QueryError; its warehouse is the requested query type or the type of the model's connection.", "quantifier": "all projects, all queries", "why_tests_cant": "Nearly all test projects have one model; the derivation has several branches over arbitrary sets of models.", "anchors": ["metrics_layer/core/sql/resolve.py:_get_model_for_query", "metrics_layer/core/sql/resolve.py:_derive_model", "metrics_layer/core/sql/single_query_resolve.py:_get_connection"]}
{"id": "C51", "title": "Durations and windows count elapsed units", "statement": "On every warehouse the SQL of a duration group (and of a funnel window) in unit u between two times evaluates to the number of units elapsed, up to one unit (truncation or boundary counting, as the warehouse does); hence a window of n units accepts everything up to n units apart and nothing n+1 units apart. Unknown units and warehouses are refused with a QueryError.", "quantifier": "all warehouses, all units, all pairs of times", "why_tests_cant": "Tests compare the generated text for some units; whether it evaluates to the duration needs the semantics of the text on all times.", "anchors": ["metrics_layer/core/model/field.py:dimension_group_duration_sql", "metrics_layer/core/sql/query_funnel.py:_within_where"]}
{"id": "C52", "title": "Dashboard checks report every reference that cannot be resolved", "statement": "For every dashboard, its collected errors contain one message for each filter field, metric, slice-by field and model that cannot be found, and no other; the check itself never raises.", "quantifier": "all dashboards and projects", "why_tests_cant": "All combinations of elements, filters and missing keys.", "anchors": ["metrics_layer/core/model/dashboard.py:collect_errors", "metrics_layer/core/model/dashboard.py:elements"]}
{"id": "C53", "title": "A timeframe means the same calendar period in every warehouse", "statement": "For a time dimension group queried with any timeframe other than the week ones, in any supported warehouse and at any instant, the SQL returned evaluates to the start of the second, minute, hour, day, month, quarter or year the instant is in, or to its month, quarter, hour or day number or short month or day name, all in the project's time zone; the fiscal timeframes give those of the month fiscal_month_offset months later; so changing the connection's type never changes the answer.", "quantifier": "for all warehouses, timeframes, column datatypes, fiscal offsets, time zones and instants", "why_tests_cant": "Tests compare generated text for a few timeframes; the meaning of that text ranges over every instant, zone, offset and warehouse, and warehouses differ in syntax, types and integer ranges.", "anchors": ["metrics_layer/core/model/field.py:1013-1382", "metrics_layer/core/model/field.py:369-387"]}
{"id": "C54", "title": "Non-additive measures aggregate the last (first) rows of their window", "statement": "A measure with a non-additive dimension aggregates exactly the rows whose date is the latest (window_choice max) or earliest (min) among the rows with the same values of its window groupings and, unless window_aware_of_query_dimensions is off, of the query's dimensions (if off, only of dimensions that are timeframes of that date). The sub queries joined for this neither drop nor repeat a row, each measure finds its own sub query's columns, and a query does not change the result of later queries.", "quantifier": "every project, measure, list of metrics and dimensions, table contents with NULLs, and every sequence of queries", "why_tests_cant": "the tests compare SQL texts for a few queries; which rows remain depends on all data, NULLs, name combinations and on queries run before in the same process", "anchors": ["metrics_layer/core/sql/query_generator.py:78-97", "metrics_layer/core/sql/query_generator.py:195-240", "metrics_layer/core/sql/query_generator.py:377-423", "metrics_layer/core/model/field.py:279-297", "metrics_layer/core/model/field.py:451-469", "metrics_layer/core/model/field.py:2675-2686"]}
{"id": "C55", "title": "A field's join graphs say which fields can be queried together", "statement": "Field.join_graphs() lists exactly the joinable parts of the data model reachable for every view the field refers to, and the merged results it belongs to: measures at the timeframes of their dates, the dates themselves, dimensions joinable from two parts, and dimensions mapped between two parts. Different merged results have different names. The answer depends only on the project and the current user, a mapped dimension works with all measures of the parts it is mapped in, and joinable_fields returns the fields that can be queried together with the given ones.", "quantifier": "every project, join graph, mapping, field, and sequence of calls, edits and user changes", "why_tests_cant": "the tests list the join graphs of a few fields of one project in a fresh process; exactness over all projects, name collisions and dependence on earlier calls cannot be enumerated", "anchors": ["metrics_layer/core/model/join_graph.py:193-295", "metrics_layer/core/model/field.py:2749-2794", "metrics_layer/core/model/field.py:408-432", "metrics_layer/core/model/project.py:491-498", "metrics_layer/core/model/project.py:48-73"]}
{"id": "C56", "title": "A grouped query answers the question asked", "statement": "For a query of metrics and dimensions with conditions in where (on dimensions) and having (on measures), run on tables that agree with the declared relationships, the SQL returned gives exactly one row for each combination of dimension values found among the joined rows for which every where condition and every access filter of the views of the asked fields is true, kept when every having condition is true of the group. Its cells are the combination and then each measure, computed over the rows of the measure's own view in that group, each counted once, however the joins repeat them; measures of type number are their formula over those values. The FROM clause joins every view that a requested field or an applied filter reads. This holds when conditions are on fields rather than literal SQL, every one_to_many join starts at a view still at the grain of the query, keys are unique and present, and, for a measure whose view is not the one carrying the query's grain, the warehouse supports symmetric aggregates and the group has a value.", "quantifier": "every project, join graph, request, table contents with NULLs, hash function without collisions on the data, and every filter tree", "why_tests_cant": "tests compare the SQL text of chosen queries; whether the text computes the measure asked for depends on the interplay of the join plan, the aggregates, the filters and all table contents", "anchors": ["metrics_layer/core/sql/query_generator.py:42-184", "metrics_layer/core/sql/query_generator.py:285-448", "metrics_layer/core/sql/query_design.py:38-295", "metrics_layer/core/model/field.py:496-838", "metrics_layer/core/sql/single_query_resolve.py:154-181"]}
{"id": "C57", "title": "Access filters restrict every view a query reads", "statement": "Every row counted by a query satisfies the access filters, for the current user, of every view in its FROM clause: the views of the requested fields and the views joined only to connect them.", "quantifier": "every project, user, request and table contents", "why_tests_cant": "tests query fields of the view that declares the filter; which other views a query joins depends on the shortest path in an arbitrary join graph", "anchors": ["metrics_layer/core/sql/query_design.py:262-288", "metrics_layer/core/sql/query_design.py:38-100", "metrics_layer/core/sql/query_generator.py:66-77"]}
{"id": "C58", "title": "Breaking a metric down keeps its total", "statement": "For a sum or count metric, adding dimensions to a query never changes the total: the values over all result rows add up to the value of the same query without dimensions.", "quantifier": "every project, sum or count metric, list of dimensions, where filter on the metric's view, and table contents that agree with the declared relationships", "why_tests_cant": "tests compare SQL texts; equality of totals of two different generated queries depends on the join plans of both and on all table contents, including unmatched rows", "anchors": ["metrics_layer/core/sql/query_design.py:38-170", "metrics_layer/core/sql/query_design.py:290-295", "metrics_layer/core/sql/query_base.py:50-68", "metrics_layer/core/sql/query_generator.py:154-184"]}
{"id": "C59", "title": "Printing a connection never reveals a secret", "statement": "The printable attributes of a connection (what the show command prints) do not depend on its password, token, client id or secret, authentication object or credentials (other than BigQuery's project id), show exactly values that were configured, and can be produced for every connection.", "quantifier": "all ten connection classes, all keyword configurations", "why_tests_cant": "tests print a few connections; independence of secrets quantifies over pairs of configurations, and printability over every combination of optional arguments", "anchors": ["metrics_layer/core/parse/connections.py:27-419", "metrics_layer/cli/cli_commands.py:207-236"]}
{"id": "C60", "title": "A query runs on the connection its SQL was written for", "statement": "A loaded connection has the warehouse type it was declared with; the dialect looked up for a connection name is the type of the connection returned for that name; and the session opened for it uses the configured user, password, host, port and database.", "quantifier": "all lists of connections, all configurations, all texts of users, passwords, hosts and databases", "why_tests_cant": "no test opens a session; the URL of a Postgres session depends on arbitrary password texts, and duplicate names need lists of connections", "anchors": ["metrics_layer/core/parse/project_loader.py:66", "metrics_layer/core/parse/project_loader.py:114-124", "metrics_layer/core/query/query.py:85-86", "metrics_layer/core/sql/query_runner.py:125-178", "metrics_layer/core/parse/connections.py:388-390"]}
{"id": "C61", "title": "Dumping a project and loading it gives the project back", "statement": "After a project's models and views are dumped to a folder, loading that folder gives the same models and views (up to the order of keys and fields), whatever order the files are read in; every YAML file below the configured folders is read.", "quantifier": "all models, views, folders and file orders", "why_tests_cant": "the reader visits files in the order of a set, and folders, names and nesting are arbitrary", "anchors": ["metrics_layer/core/parse/project_dumper.py:14-128", "metrics_layer/core/parse/project_reader_metrics_layer.py:7-58", "metrics_layer/core/parse/github_repo.py:28-63", "metrics_layer/core/parse/project_reader_base.py:121-133"]}
{"id": "C62", "title": "Seeding makes one view per table with one field per column", "statement": "Seeding a project from a warehouse makes exactly one view for every table of the chosen schema and table, reading that table, with exactly one field per column in order, of the column's type (time groups for dates), searchable iff the column has few values; names are distinct, non-empty and have only letters, digits and underscores.", "quantifier": "all results of the columns query, all warehouses, all type lookups and cardinalities", "why_tests_cant": "tests seed from a few fixed frames with one schema; schemas, letter case and special characters of names are arbitrary", "anchors": ["metrics_layer/cli/seeding.py:182-334", "metrics_layer/cli/seeding.py:336-497", "metrics_layer/cli/seeding.py:680-715"]}
{"id": "C63", "title": "Validating a field reports exactly the broken rules of its definition", "statement": "Validating a field never raises: it returns one error for each rule its definition breaks (names, types, options, lists, references, filters, dates, windows, grants, unknown keys) and no other error, leaves the definition as it was, and marks the errors of a personal field as warnings once; the timeframes and intervals of a field without errors can be queried on every warehouse.", "quantifier": "all YAML definitions, all views and projects the definition refers to", "why_tests_cant": "the rules interact over arbitrary YAML values, nested references and missing keys; tests try one wrong value per key", "anchors": ["metrics_layer/core/model/field.py:1481-2503", "metrics_layer/core/model/field.py:246-470", "metrics_layer/core/model/field.py:2505-2548", "metrics_layer/core/model/field.py:2701-2740", "metrics_layer/core/model/base.py:14-15"]}
{"id": "C64", "title": "Validating a view reports exactly the broken rules of its definition", "statement": "Validating a view never raises: it returns one error for each rule its definition breaks (name, table, default date, sets, always-applied filters, access filters, grants, event dimension, identifiers, primary key, fields, unknown keys) and no other error; it returns no error iff the definition breaks no rule.", "quantifier": "all YAML definitions of a view, all projects it refers to", "why_tests_cant": "the rules interact over arbitrary YAML values and over what the project answers for every name; tests try one wrong value per key", "anchors": ["metrics_layer/core/model/view.py:49-170", "metrics_layer/core/model/view.py:193-950", "metrics_layer/core/model/set.py:14-71", "metrics_layer/core/model/base.py:14-15"]}
{"id": "C65", "title": "Validating a model reports exactly the broken rules of its definition", "statement": "Validating a model never raises: it returns one error for each rule its definition breaks (name, connection, label, fiscal offset, week start day, timezone, default conversion, access grants, mappings and the fields they name, names reserved for dates, unknown keys) and no other error; it returns no error iff the definition breaks no rule.", "quantifier": "all YAML definitions of a model, all projects it belongs to, all orders in which the reserved names are tried", "why_tests_cant": "the rules range over arbitrary YAML values, any number of grants and mappings and whatever the project answers; the reserved names are a set iterated in an unspecified order", "anchors": ["metrics_layer/core/model/model.py:17-92", "metrics_layer/core/model/model.py:95-366", "metrics_layer/core/model/base.py:14-15"]}
{"id": "C66", "title": "Two views are joined by the declared kind of join on the declared condition", "statement": "The JOIN written between two views has the kind that the join used declares, LEFT if it declares none, and an ON condition that is the declared one with every reference replaced by the SQL of the field it names; nothing of a reference is left in it. A join of identifiers equates the clauses of the two identifiers, each in its own view. A cross join has no condition. Validation reports exactly the references of the conditions that name no view, an unknown view or an unknown field, and a join without such errors can be used.", "quantifier": "all sets of views with any number of identifiers and explicit joins, all conditions with any number of references, whatever the project answers", "why_tests_cant": "which join is used depends on every declaration between the two views and its order; conditions are arbitrary texts with any number of references", "anchors": ["metrics_layer/core/model/join.py:33-140", "metrics_layer/core/model/join.py:176-206", "metrics_layer/core/model/join_graph.py:121-191", "metrics_layer/core/model/join_graph.py:325-376", "metrics_layer/core/sql/query_generator.py:338-360", "metrics_layer/core/sql/query_base.py:56-68"]}
{"id": "C67", "title": "Working with a project in git leaves no private key and no clone on disk", "statement": "Fetching a repository, loading a project from it and every operation on its branches remove the private key file they write, whether they return or raise, and a load removes the clone it made. When an operation returns, each of its git commands ran while the key was in place, and it changed no other remote branch than the one it names. The branches offered are exactly the branches of the remote. Addresses of repositories are fetched and paths are read in place.", "quantifier": "all executions, that is all choices of which call of the operating system or of git fails, all states of the disk, all operations, all listings of references, all locations", "why_tests_cant": "every call may fail at any point and what is left depends on which ones do; tests run without a remote", "anchors": ["metrics_layer/core/parse/github_repo.py:82-240", "metrics_layer/core/parse/project_loader.py:17-107"]}
{"id": "C68", "title": "A view reads the table its definition names", "statement": "The table of a view is the text of its definition; if the text names environments, it is the table written for the environment of the project, and an environment the text does not name is refused; if the text refers to a dbt model, it is the table of the model of that name in the manifest, in the schema of the connection if it has one, or without a manifest the name in that schema, and a name that is not in the manifest is refused. Listing the models of a manifest gives exactly the tables of the models in the schema and with the name asked for.", "quantifier": "all texts with any number of environments, all tables and names of environments, all texts around a reference, all manifests, all connection schemas", "why_tests_cant": "the choice is made by regular expressions over the whole text, so it depends on the order of the environments and on the characters of every table; the tests only select the last environment", "anchors": ["metrics_layer/core/model/view.py:57-63", "metrics_layer/core/model/view.py:1008-1049", "metrics_layer/core/model/project.py:578-587", "metrics_layer/core/parse/manifest.py:4-57"]}
{"id": "C69", "title": "The catalogue of a connection, and the user it acts as, do not depend on what was asked before", "statement": "list_metrics and list_dimensions split list_fields: every listed field is in exactly one of them. get_metric and get_dimension find a field by any of its names, refuse a name that is missing, ambiguous or hidden as get_field does, and answer the same whatever was listed or looked up before. A connection runs its queries with the rights of the user last given to it, whatever other connections do, and knows the connections given to it and added later, in order.", "quantifier": "all projects, all views, all names, alone or after the name of a view, all sequences of listings and look-ups, all sequences of building projects, opening connections, setting users, loading and adding connections", "why_tests_cant": "the lists are cached and the look-up changes the fields in them, and projects are shared between connections; the tests look up one name on a new project and use one connection at a time", "anchors": ["metrics_layer/core/query/query.py:16-86", "metrics_layer/core/query/query.py:180-221", "metrics_layer/core/model/project.py:52-54", "metrics_layer/core/model/project.py:462-473", "metrics_layer/core/model/field.py:879-892"]}
{"id": "C70", "title": "Running a query executes its SQL once, in the session its connection describes", "statement": "Running a query on a connection executes exactly its SQL, once, in one session that is closed afterwards, whether the query succeeds or fails; the rows returned, or the cursor if one is asked for, are those of that SQL; the timeout reaches the warehouse; the query runs in the warehouse, database and schema named by the connection, or not at all; and every type of connection that can be made can be run.", "quantifier": "all texts, all connections of all types, all options, every combination of calls of the driver that fail, all sessions the driver may open", "why_tests_cant": "the tests replace the drivers by stubs that never fail and check the arguments of single calls; what is executed depends on the order of the calls and on which of them fails", "anchors": ["metrics_layer/core/sql/query_runner.py:31-122", "metrics_layer/core/sql/query_runner.py:158-171", "metrics_layer/core/parse/connections.py:14-24", "metrics_layer/core/parse/connections.py:441-452"]}
{"id": "C71", "title": "A command works on the folder and the connection its profile describes", "statement": "A command uses the profile given as an option, else that of the project file of its folder, else that of the dbt project. The connection it opens has the name of the profile and the values of the target, the one asked for or the default of the profile, and a target that works in dbt works here; a missing file, profile, target or connection is reported as such. init creates what is missing, keeps what is there and leaves a folder that can be read.", "quantifier": "all profiles files, all profile and target names, all targets, all folders with or without project files, all lists of connections", "why_tests_cant": "the tests replace the profiles file and the folder by one stub of each; whether a profile is found depends on the combination of files and options and on the keys each kind of target writes", "anchors": ["metrics_layer/core/parse/project_loader.py:126-148", "metrics_layer/core/parse/project_loader.py:46-52", "metrics_layer/cli/seeding.py:604-697", "metrics_layer/core/parse/github_repo.py:15-23", "metrics_layer/cli/cli_commands.py:21-25"]}
{"id": "C72", "title": "Cumulative metrics are accumulated by their own date, in the timeframe asked for", "statement": "In a query of cumulative metrics each metric is accumulated by the default date of its view, over periods of the timeframe in which the query asks for the date, days if it asks for none. Every dimension and the measure appear under their own names, the date being that of the period; every condition is applied once, conditions on the date to the periods and the others to the rows. The condition declared for a metric is applied with every field it mentions, in the timeframe of the query. Each step uses only columns that the step before it gives. The query leaves the project as it was, so asking again gives the same.", "quantifier": "all projects, all lists of cumulative metrics, dimensions and conditions, all declared conditions, all sequences of earlier queries", "why_tests_cant": "the tests compare the SQL of a few queries, each on a fresh project with one date; which timeframe, date or column is used depends on the combination of dimensions, metrics and declared conditions and on the queries made before", "anchors": ["metrics_layer/core/sql/query_cumulative_metric.py:43-57", "metrics_layer/core/sql/query_cumulative_metric.py:123-165", "metrics_layer/core/sql/query_cumulative_metric.py:203-354", "metrics_layer/core/model/project.py:462-506", "metrics_layer/core/model/project.py:540-568", "metrics_layer/core/model/field.py:471-474"]}
{"id": "C73", "title": "Having, order and limit only choose among the rows of a result", "statement": "The rows of a result are those that the same request gives without having, order_by and limit, restricted to those that meet every having condition, in the requested order, and at most limit many; the columns are the requested ones. Sub queries are neither limited nor filtered by the having conditions.", "quantifier": "all requests, all forms of having and order_by, single, cumulative, funnel and merged queries, all data", "why_tests_cant": "the clauses take different ways through four generators and their sub queries; the tests compare the SQL of some combinations, none looks at which rows and columns a having condition adds or removes", "anchors": ["metrics_layer/core/sql/query_generator.py:41-76", "metrics_layer/core/sql/query_generator.py:171-186", "metrics_layer/core/sql/query_generator.py:255-277", "metrics_layer/core/sql/query_cumulative_metric.py:43-111", "metrics_layer/core/sql/query_cumulative_metric.py:176-201", "metrics_layer/core/sql/query_funnel.py:38-101", "metrics_layer/core/sql/query_funnel.py:126-149", "metrics_layer/core/sql/merged_query_resolve.py:44-152", "metrics_layer/core/sql/query_merged_results.py:18-37", "metrics_layer/core/sql/query_base.py:18-36"]}
{"id": "C74", "title": "A funnel condition keeps the rows of the people it names", "statement": "A condition with the expression converted (dropped_off), a funnel and two of its steps keeps, among the rows the query would have without it, exactly those whose customer has gone through the first step and also (but not) through the second, where the events of the funnel are the rows that meet the other conditions of the query on rows; a condition without funnel, a step the funnel does not have and a second funnel condition are refused as such.", "quantifier": "all requests of one statement, all funnels and steps, all data, people without identifier included", "why_tests_cant": "who has gone through the steps is decided by joins of events of one person over time, and NOT IN depends on missing values; the two tests compare the SQL of one funnel on tables of which the view of the steps is already joined", "anchors": ["metrics_layer/core/sql/single_query_resolve.py:93-110", "metrics_layer/core/sql/query_generator.py:44-56", "metrics_layer/core/sql/query_generator.py:155-157", "metrics_layer/core/sql/query_generator.py:244-253", "metrics_layer/core/sql/query_filter.py:225-237", "metrics_layer/core/sql/query_filter.py:303-327", "metrics_layer/core/sql/query_funnel.py:126-149", "metrics_layer/core/sql/query_funnel.py:223-269", "metrics_layer/core/model/project.py:523-531"]}
{"id": "C75", "title": "A condition on groups keeps the rows of the groups that meet it", "statement": "A condition with group_by on a metric keeps exactly the rows whose value of group_by is there and whose group meets the condition, the group being all rows with that value that the user may see; any number of such conditions can be given, alone or in a group of conditions, and the views they need are joined.", "quantifier": "all requests of one statement, all conditions in where and having, all data", "why_tests_cant": "it relates the rows of a query to the groups of another query over other joins; the only test compares the SQL of one condition whose view the query joins anyway", "anchors": ["metrics_layer/core/sql/query_generator.py:41-66", "metrics_layer/core/sql/query_generator.py:171-198", "metrics_layer/core/sql/query_filter.py:159-196", "metrics_layer/core/sql/query_filter.py:225-237", "metrics_layer/core/sql/query_filter.py:275-301", "metrics_layer/core/sql/single_query_resolve.py:222-232"]}
{"id": "C76", "title": "A value in a condition is read by the warehouse as that value", "statement": "The text of a value in a condition reaches the warehouse as one string literal with exactly that value: for every condition in where and having, every filter of a measure and every label of a case, the warehouse reads the SQL of the column, the comparison and a literal equal to the value, whatever characters it contains; two requests that differ only in such values give SQL of the same shape.", "quantifier": "all values, all nested conditions, all warehouses with their own rules for string literals", "why_tests_cant": "it is about how another program reads the text, for every value; the tests compare the text for a handful of values without quotes or backslashes", "anchors": ["metrics_layer/core/model/filter.py:21-28", "metrics_layer/core/model/filter.py:486-529", "metrics_layer/core/model/filter.py:531-583", "metrics_layer/core/sql/query_filter.py:22-25", "metrics_layer/core/sql/query_filter.py:239-273", "metrics_layer/core/model/field.py:2632-2644", "metrics_layer/core/model/field.py:2550-2603"]}
{"id": "C77", "title": "What is said of a field takes in everything its SQL refers to", "statement": "A field is computed from the fields its SQL refers to, and through metrics of type number from what those refer to. The dictionary of such a metric lists exactly these fields; it is cumulative exactly when it depends on a cumulative metric; it is a merged result exactly when two of the measures it is computed from have different dates, for every user; and every view its query needs is in every join graph it is said to be in.", "quantifier": "all projects, all depths and orders of references, all users", "why_tests_cant": "references nest to any depth and cross views; the tests look at a few metrics of one project", "anchors": ["metrics_layer/core/model/field.py:389-433", "metrics_layer/core/model/field.py:818-862", "metrics_layer/core/model/field.py:2505-2548", "metrics_layer/core/model/field.py:2605-2614", "metrics_layer/core/model/field.py:2688-2698", "metrics_layer/core/model/field.py:2749-2776"]}
{"id": "C78", "title": "What a command prints is what the project says", "statement": "The list command prints how many models, connections, views, fields, metrics or dimensions there are and exactly the names the current user may see, in order; show prints the attributes of the object of that type with that name, and every name that list prints can be given to show. validate prints every message of the validation, or that the project passed exactly when there is none. debug tries every connection once, whatever the others answer, and reports the answer of each. A command that could not do what was asked ends with an error.", "quantifier": "for all projects, users, models, connections, types, names, views, flags, lists of errors and answers of warehouses", "why_tests_cant": "The names printed range over arbitrary projects, grants and visibility flags, and a failing connection can be anywhere among any number of others; tests run each command once on one project.", "anchors": ["metrics_layer/cli/cli_commands.py:50-235", "metrics_layer/core/query/query.py:74-86,180-243", "metrics_layer/core/model/field.py:863-877", "metrics_layer/core/model/view.py:175-180", "metrics_layer/core/model/model.py:372-375"]}
{"id": "C79", "title": "SQL text given by the caller is used as it is written", "statement": "A condition or an ordering given as SQL text uses exactly the fields it names, with or without their view: each name is looked up, in the order of the text, and a name that is no field stops the query with a message. A column given as SQL text is selected as written, after the fields, and the rows are grouped by the expression the text gives before its alias, or by all of it when it gives none.", "quantifier": "for all texts, tokens, names, projects, columns and cases of the word as", "why_tests_cant": "The text is arbitrary SQL: names, dots, keywords and the word as can stand anywhere in it, nested in casts and quotes; tests try a few short texts.", "anchors": ["metrics_layer/core/sql/query_base.py:37-52,70-87", "metrics_layer/core/sql/single_query_resolve.py:154-208", "metrics_layer/core/sql/query_generator.py:284-293,426-439"]}
{"id": "C80", "title": "A grant decides whether a query is answered, not what it answers", "statement": "Two users with the same values for the access filters who are both answered get the same SQL for the same request, whatever each of them may see besides. A user who may see more than another is answered wherever the other is, with the same SQL; and a user who may see less either gets that answer or is refused with the error of an object one may not see.", "quantifier": "for all projects, users, grants, requests, sql of fields, warehouses, sets of conditions and access filters", "why_tests_cant": "The claim compares two runs over every pair of users and every request; the grants change lookups, keys, joins and counts far from the field that carries them, and tests ask each query as one user.", "anchors": ["metrics_layer/core/model/project.py:391-436,462-576", "metrics_layer/core/model/view.py:193-195,970-996", "metrics_layer/core/model/field.py:246-262,557-573", "metrics_layer/core/sql/query_design.py:183-222,262-288", "metrics_layer/core/model/join_graph.py:133-191"]}
{"id": "C81", "title": "A query leaves what it was asked with as it was, and asking again gives the same", "statement": "Asking a query does not change the lists and dicts given as metrics, dimensions, where, having and order_by. So asking again with the same objects, any number of times, is answered every time, with the same fields and the same rows; and an object used for one query can be used for another as if it were new.", "quantifier": "for all projects, mappings, join graphs, requests, conditions nested to any depth and any number of askings", "why_tests_cant": "Tests build their lists anew for every query and look at the SQL, not at the lists afterwards; what is left in them shows only in a later query, and which fields are chosen then depends on every mapping and join graph.", "anchors": ["metrics_layer/core/sql/resolve.py:36-53,126-153,314-334,374-406,472-516", "metrics_layer/core/sql/single_query_resolve.py:97-130"]}
{"id": "C82", "title": "A connection built again from its own dictionary is the same connection", "statement": "Every connection can be written as a dictionary (to_dict), and loading that dictionary gives a connection of the same kind with the same settings: host, port, user, secrets, database, schema, role and warehouse. Nothing that was configured is lost and no dictionary a connection gives is refused.", "quantifier": "for all ten kinds of connections and all configurations accepted for them", "why_tests_cant": "Tests build each connection once and look at single attributes; that what to_dict writes is what the constructor reads has to hold for every kind, every optional setting and every falsy value.", "anchors": ["metrics_layer/core/parse/connections.py:33-452", "metrics_layer/core/parse/project_loader.py:114-124"]}
{"id": "C83", "title": "Seeding looks at exactly the tables asked for and files the views where they belong", "statement": "Seeding from a warehouse reads exactly the columns of the database, schema and table asked for (those of the connection where nothing is given), whatever the letter case they are typed in; each view carries the comment of its own table, and the text columns counted for searchable tags are recognised again by name. The views are filed under a model of the connection they were read from and in folders that the project reads when it is loaded again.", "quantifier": "for all warehouses, databases, schemas, tables, contents of the information schema, models and project files", "why_tests_cant": "Tests replace the warehouse by fixed frames per query text, so whether the query and the later filter together select what was asked, for every content of the warehouse, is never seen.", "anchors": ["metrics_layer/cli/seeding.py:34-45", "metrics_layer/cli/seeding.py:182-285", "metrics_layer/cli/seeding.py:419-592"]}
{"id": "C84", "title": "A seeded field has the kind of its column, and what seeding writes passes the project's own validation", "statement": "A column of numbers is seeded as a number, a yes/no column as yes/no, a date or a moment as a group of timeframes of that kind, a text as text, and the time of day never as a moment; this holds however the warehouse writes the type. The model, views and fields that seeding writes pass the validation of the project without an error or a warning.", "quantifier": "for all warehouses, tables, columns, comments, settings of the searchable tags and answers of the project", "why_tests_cant": "Tests seed a few fixed tables whose types are spelled as in the lookup tables and never validate what was written.", "anchors": ["metrics_layer/cli/seeding.py:46-180", "metrics_layer/cli/seeding.py:278-433", "metrics_layer/core/model/field.py:1481-2008", "metrics_layer/core/model/view.py:201-640", "metrics_layer/core/model/model.py:170-366"]}
{"id": "C85", "title": "A field that passes validation can be written as SQL, and a field reported for its references cannot", "statement": "When validate() reports nothing about the sql of the fields of a project, every reference in every field names a field, and every field that is no metric of type number is written as one SQL text when it is queried. A field that is reported for a reference, for a template or for being its own sql cannot be written. Validation reports a problem rather than failing itself.", "quantifier": "for all projects, fields, references between them and depths of the stack", "why_tests_cant": "Tests validate a handful of broken fields and query a handful of working ones; that the two agree is a statement over all graphs of references, circles included.", "anchors": ["metrics_layer/core/model/field.py:510-515", "metrics_layer/core/model/field.py:2480-2603", "metrics_layer/core/model/view.py:952-967", "metrics_layer/core/model/project.py:287-318"]}
{"id": "C86", "title": "Every column that a funnel or a cumulative metric names is a column of the query it reads from, once", "statement": "A funnel and a cumulative metric first read rows without groups and then aggregate them. Every column named by the second part - the metrics, their parts, the keys by which rows are counted once, the dimensions, the link and the dates - is a column of the first part, and no name is there twice. The result has each metric and dimension once.", "quantifier": "for all projects, metrics of all types (metrics of type number of any depth), dimensions, conditions and warehouses", "why_tests_cant": "Tests compare the SQL of a few funnels with fixed texts and never run them; that the names agree for every metric type, filter, key and nesting is a statement over all projects.", "anchors": ["metrics_layer/core/sql/query_funnel.py:81-162", "metrics_layer/core/sql/query_funnel.py:223-257", "metrics_layer/core/sql/query_generator.py:299-337", "metrics_layer/core/sql/query_cumulative_metric.py:144-237", "metrics_layer/core/model/field.py:494-803"]}
{"id": "C87", "title": "The same request has the same answer in every process", "statement": "Given the same project, user, warehouse and request, two Python processes produce the same SQL and the same messages, although each process lists its sets of texts in an order of its own.", "quantifier": "for all projects, users, requests and all orders in which a process may list a set", "why_tests_cant": "A test runs in one process with one hash seed, and compares with one text; that no other order of a set changes the answer is a statement over all orders.", "anchors": ["metrics_layer/core/sql/resolve.py:181-208", "metrics_layer/core/sql/query_design.py:39-53", "metrics_layer/core/sql/query_design.py:183-190", "metrics_layer/core/sql/query_design.py:261-295", "metrics_layer/core/sql/query_funnel.py:126-162", "metrics_layer/core/model/set.py:101-103", "metrics_layer/core/model/view.py:611-622", "metrics_layer/core/model/project.py:115-126", "metrics_layer/core/sql/merged_query_resolve.py:255-275"]}
{"id": "C88", "title": "A reference in a field's SQL stands for the value of the field it refers to", "statement": "Where the SQL of a field or the condition of a join refers to another field, the SQL that is run computes with the value of that field, whatever operators the other field is written with; and a condition on a field is a condition on its value, that holds together with the other conditions of the query or measure.", "quantifier": "for all projects, all texts of fields made of operators, functions, brackets and case expressions, references of any depth, and all conditions", "why_tests_cant": "Tests compare the SQL of a few fields with a text; that a text put inside another is read as one operand depends on the operators of both, over all texts and depths.", "anchors": ["metrics_layer/core/model/field.py:496-557", "metrics_layer/core/model/field.py:799-816", "metrics_layer/core/model/field.py:2572-2603", "metrics_layer/core/model/filter.py:487-583", "metrics_layer/core/sql/query_filter.py:195-212", "metrics_layer/core/sql/query_filter.py:247-273", "metrics_layer/core/model/join.py:177-204", "metrics_layer/core/model/join_graph.py:346-368", "metrics_layer/core/model/field.py:2616-2631", "metrics_layer/core/model/field.py:1013-1468", "metrics_layer/core/model/field.py:911-1010", "metrics_layer/core/model/field.py:603-773"]}
