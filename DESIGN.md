# Formal model of metrics_layer: design

Everything lives in `/verif/rocq/theories` (logical path `Verif`). The model is a set of shallow, total,
computable Gallina functions that mirror the Python functions branch by branch. Exceptions are values
(`PyBase.res`). Every definition of a `*_Model.v` file carries a comment citing the Python file and lines,
and says where it simplifies. For each area there are up to four files:

* `X_Model.v`: the model only (it still computes if a proof breaks);
* `X_Spec.v`: a small independent specification (relations, row semantics, calendars) when one is needed;
* `X_Proofs.v`: lemmas and proofs;
* `X_Props.v`: the property theorems, with `Print Assumptions` and an `Example` showing a concrete non-trivial
  case that meets the hypotheses. Smaller areas keep specification and lemmas in this file too.

If the code violates a property, the full statement is refuted by a theorem named `..._refuted`, by a witness or
for every input of a class, and the part that does hold is proved beside it (suffix `_partial` where the theorem
states less than the property). `properties.jsonl` keeps the full statement; `MANIFEST.json` says what is proved.

Naming: a theorem of property Cnn is called `Cnn_...`. `C53_same_everywhere_partial` belongs to C53.

## 1. Plan per property

| Id | Modelled | How proved |
|----|----------|-----------|
| C01 | grants, users, dashboards/views/fields listing and lookup | characterisation of visibility, by induction over lists |
| C02 | every lookup route over the same project model | soundness of each route; membership induction |
| C03 | get_field + name parsing + match handler | case analysis; permutation invariance |
| C04 | get_access_filter + required views | exact set of conditions; refutation for joined-only views |
| C05 | project as a state machine with lru caches keyed by (content hash, user) and the join graph memo | invariant over op lists; refutation for the stale memo and for refresh_cache=False |
| C06 | add_field/remove_field on view records | algebraic laws; refutations on name collision and on exceptions |
| C07 | replace_objects as a bracket over a small command language | induction over programs with exceptions and nesting |
| C08 | _handle_join_as_duplication | loop characterisation by induction |
| C09 | JoinGraph.build over identifier lists | edge iff permitted, best relationship kept, by induction |
| C10 | relationship functions + relational row semantics | counting lemmas on tables |
| C11 | strongly connected components by reachability, hashes | iff with inductive `reach` |
| C12 | sorting of components | permutation invariance of a sort with a total key |
| C13 | determine_join_order with graph-library calls as oracles | path invariants by induction |
| C14 | _shortest_path_between_two | minimality given the library's shortest-path contract |
| C15 | functional_pk + relational join semantics | uniqueness by induction over joins; refutation for two fan-out branches |
| C16 | symmetric aggregate arithmetic over Z | algebra over row lists; refutation on hash collision |
| C17 | decision functions | case analysis; refutations per warehouse |
| C18 | _filter_dict on strings, criterion semantics | per form theorems over all strings |
| C19 | calendar on day numbers, date ranges | arithmetic with lia |
| C20 | global week start as state | invariant over histories; refutation on raise |
| C21 | filter trees, three valued logic | structural induction |
| C22 | flatten + parse_where check | structural induction |
| C23 | week arithmetic on day numbers | lia |
| C24 | tier CASE expression over Z | induction over tier list |
| C25 | filtered aggregate semantics | induction over rows |
| C26 | Set.field_names | induction; refutation on cyclic sets |
| C27 | flatten_filters | structural induction |
| C28 | resolver control flow with sub-resolvers as oracles | case analysis over all outcomes |
| C29 | _apply_always_filter, dedupe | induction |
| C30 | mapped-field resolution | induction; refutation for repeated / literal text |
| C31 | derive_sub_queries distribution | induction, partial |
| C32 | full outer join chain on row lists | proof for two sub queries; refutation for three |
| C33 | validation and select columns | induction |
| C34 | funnel CTE semantics over event lists | induction over steps |
| C35 | cumulative CTE semantics | induction over rows |
| C36 | select/group by lists | induction |
| C37 | order_by literal parser on strings | string induction; refutation for names containing asc/desc |
| C38 | get_sql_query dispatch | case analysis |
| C39 | placeholder substitution on token lists / strings | induction; refutation for re-substitution |
| C40 | names on strings | string induction |
| C41 | View.fields memo | invariant; refutation |
| C42 | SingleSQLQueryResolver checks | case analysis |
| C43 | get_mappings | induction |
| C44 | ORDER BY rendering per dialect | case analysis over all dialects |
| C45 | validate's clean-up, dashboard names | induction |
| C46 | dashboard filters | induction |
| C47 | required views given in any order, joins() | permutation invariance of the join order; witness for a tie of two views |
| C48 | MetricsLayerFilter on one structured condition | case analysis over all expressions and field types against three-valued row truth |
| C49 | MQLConverter over sqlparse's token tree | induction over tokens; witnesses for replaced constants and nested calls |
| C50 | model and connection derivation | case analysis, invariance under set order |
| C51 | duration SQL trees, warehouse DATEDIFF semantics | arithmetic on instants |
| C52 | dashboard and element error collection | iff between messages and unresolvable references |
| C53 | timeframe tables as expression trees, fiscal offset, zone | evaluation of the trees against the calendar, for all instants |
| C54 | non-additive sub queries, their joins and CASE conditions, definitions as shared state | refinement to a row specification (left join with at most one match), invariant over query sequences; refutations |
| C55 | merged results graph, Field.join_graphs, joinable_fields, kept graph and lru cache | exact characterisation by an inductive membership relation, injective names, invariant over calls; refutations |
| C56 | the whole grouped query: fields, views, joins, keys, aggregates, WHERE, GROUP BY, HAVING | composition of C13, C15, C17 and C21 to a specification of the answer on arbitrary tables |
| C57 | get_access_filter within the whole query | corollary of C56; independence of other views' filters; refutation |
| C58 | two runs of the whole query, with and without dimensions | partition of the joined rows, row bijection along left joins; refutations |
| C59 | all connection classes as functions of keyword arguments, to_dict, printable_attributes | non-interference over pairs of configurations; exact conditions; refutations |
| C60 | load_connections, connection lookup, sessions of the query runner | case analysis; URL round trip against a reader of URLs; refutations |
| C61 | project dumper, file search and reader over a file system | permutation of files and fields; round trip; refutations |
| C62 | seed, make_view, make_fields, clean_name | induction over the rows of the columns query; refutations |
| C63 | Field.collect_errors and the properties it reads, over YAML values | reflection of each check to a declarative rule; exactness; raising definitions as refutations |
| C64 | View.collect_errors with its helpers, Set.collect_errors, over YAML values | reflection of each check to a declarative rule; exactness; exact condition of raising; refutations |
| C65 | Model.collect_errors, access_grants, mappings, AccessGrant.collect_errors, over YAML values | reflection of each check to a declarative rule; exactness; exact condition of raising; any iteration order of the reserved names; refutations |
| C66 | the join graph with the keys that stay on an edge, Join.validate, replaced_sql_on, collect_errors, get_join_query_from | erasure of the richer graph to JoinGraph_Model (so C09 applies); segments of a condition; exactness of the errors; refutations |
| C67 | GithubRepo (fetch, branch operations, key files, branch options), ProjectLoader._load_project and _is_local, over a disk on which any call may fail | Hoare style case analysis of each call for every choice of failing calls; refutations |
| C68 | View.resolve_sql_table_name with its regular expressions, Project.resolve_dbt_ref, Manifest | texts generated from a list of environments; scanning lemmas for both patterns; exact look-up in the manifest; refutations |
| C69 | the catalogue of MetricsLayerConnection (list_*, get_metric, get_dimension) over the cached lists of Project.fields, and the life of connections over shared projects | invariant of the cache over all sequences of calls; invariant of the heap of projects over all sequences of operations; refutations |
| C70 | QueryRunner as a sequence of calls of a driver, any of which may fail; the text of the Snowflake preparation | case analysis for every choice of failing calls; the text read back by an independent reader of USE statements (round trip); refutations |
| C71 | get_connections_from_profile, the profile and the initialisation of a folder, get_repo_type, the connection of a seed | exact conditions for success and for each message; composition with the construction of connections (C60); refutations |
| C72 | the plan of a query of cumulative metrics (dates, spine, columns, groups, conditions, cumulative_where) over a state of cached fields | simulation of the cached state by a memoryless one over all sequences of queries; description of every sub query; the text by induction over its pieces; refutations, general where possible |
| C73 | the clauses of a request in the four generators, over oracles for the rows, groups and values of joined views | refinement to: filter, order and cut the rows of the request without clauses; explicit form of every generator; refutations, general for order, form and scope |
| C74 | conditions of a request in a query of one statement, the base of the funnel of a condition (link, date, lookup), the set of people; composed with the steps of C34 | refinement to chains of events of one person; NULL and NOT IN handled through monotonicity; refutations, general where possible |
| C75 | the sub query of a condition on groups, its place in the query, groups of conditions | refinement to groups of visible rows; induction over conditions; refutations, general for the number of conditions and the missing view |
| C76 | the text of conditions as pypika prints them, of filters of measures through expansion, of cases; a reader of SQL text with the literal rules of each warehouse | refinement of the text to tokens by a state machine; induction over clauses; refutations, general for backslashes and comments |
| C77 | referenced fields of a field, and the answers computed from them: listed fields, merged, cumulative, joinable, views of join graphs, required views | refinement to an inductive relation over references; well-founded induction for termination; refutations, general for fields of type number and templates |
| C78 | the commands list, show, validate and debug, over the catalogue and the printable attributes | refinement of the printed lines to the visible objects; induction over connections; refutations, general for exit statuses, groups and Trino |
| C79 | names in clauses given as text, alias stripping of columns given as text | induction over tokens, and over the ases of a text, with an independent grammar of both; refutations, general |
| C80 | one grouped query for two users: lookup, keys, counts, joins and access filters per user | relational induction over the whole generator for any relation its steps keep, instantiated three times; refutations, general for keys and counts |
| C81 | the caller's lists and dicts along SQLQueryResolver.__init__, the replacement of mapped names and parse_where | induction over the askings with an invariant of the objects, over the replacements of a run, over nested conditions; refutations |
| C82 | the constructors, to_dict and load_connections | case analysis over the kinds, symbolic evaluation for all configurations; refutations for all connections of a kind |
| C83 | columns_query, table_query, the filter of seed, get_model_name, the folders written | the query in parts, read by a small model of the warehouse (source, literal, limit); list lemmas over all catalogues; induction over the text of a literal |
| C84 | the eight tables of data types, make_fields, make_view and make_models with the checks of Field, View and Model | the dictionaries written are run through the models of the checks for all columns: symbolic evaluation per kind, induction over the columns; table facts by computation over the tables, lifted to all types |
| C85 | collect_sql_errors and View.referenced_fields, with the references of Deps and the expansion of Subst | the two readings of one graph of references are related by induction on the stack and by well-founded induction; refutations for all stacks |
| C86 | Field.sql_query by alias, the select list without groups, _enrich_query_design, cumulative_subquery | names and columns are each characterised by an inductive relation over references (induction on fuel), then compared; refutations on concrete projects |
| C87 | every place where a set of texts is listed: mapped dates, field sets, model, joins, access filters, funnels, messages | the listing is a parameter with the two laws of a set; equality or permutation of the results for any two of them, by induction over queries and lookups; refutations with two listings |
| C88 | raw_sql_query, replace_fields, the timeframes and weeks of time dimensions, the aggregates, _number_aggregate_sql, strict_replaced_query, Filter.sql_query, translate_looker_filters_to_sql, get_replaced_sql_on, _identifier_to_join, the bounds of tiers over tokens | a layered grammar as the specification of reading; one reading by a deterministic parser that every derivation runs through; substitution lemma by induction on derivations; induction on the depth of references; refutations evaluated on a row |


## 2. Trusted base

1. **Coq 8.16.1's kernel** (`coqc`, re-checked by `coqchk`). No axiom, parameter or admitted proof of ours; no
   kernel check is switched off.
2. **Print Assumptions.** Run for every theorem named in `MANIFEST.json` (`Print Assumptions` stands beneath the
   theorems in the `_Props.v` files): each one answers *Closed under the global context*. No axiom of the standard
   library is used by any of them. `coqchk` also lists constants of `Coq.ssr.ssrunder` because `Lia` loads ssreflect's
   plugin files; no theorem depends on them.
3. **The reading of the Python code.** The code is not executed; the models were written from the text of the pinned
   commit. Each definition cites its lines so that the reading can be checked.
4. **The specifications** (`*_Spec.v` and the definitions before the theorems): what SQL, a calendar, a join, a
   visible object mean. In particular section 4's contracts of warehouses and libraries.
5. **Oracles.** External calls are Section variables, so each theorem holds for every possible behaviour of the
   call, except where a hypothesis (listed in section 4) restricts it.

## 3. What is modelled

Paths are relative to `/repo/metrics_layer`. "Not modelled" lists what the file contains beside it.

| Module | Code | Not modelled there |
|---|---|---|
| Core, Access | core/model/project.py lookups, grants and user (231-540), view.py and field.py as far as names and grants go | values of user attributes other than text; caching (see ProjectState) |
| AccessFilter | sql/query_design.py 183-193, 262-288; query_generator.py 42-55, 99-118 | text of conditions |
| ProjectState | project.py 48-134, 185-225, lru caches at 462, 500, 515; query_generator.py 393-423 | eviction of the lru caches (sizes), threads |
| ViewFields | view.py 970-996 | contents of a Field |
| JoinAs | project.py 136-183 | identifiers without type or name |
| JoinGraph | core/model/join_graph.py 18-191, 297-423 | merged-results graph (MergedGraph) |
| JoinOrder, JoinPick, Bridge | sql/query_design.py 39-181, 290-295; join_graph.py 310-323 | text of ON conditions |
| Rel | query_design.py 195-251 | view without primary key (in Agg) |
| Agg | field.py 517-797 | type number (Subst), alias-only queries |
| MeasureFilter | filter.py 486-529, field.py 262-301, 575-582 | text of conditions |
| Names | base.py 23-28, field.py 831-910, id/alias, project.py name splitting | characters outside ASCII |
| Filter, FilterDate, DateText | core/model/filter.py (all of the mini-language and relative dates) | zones with changing offset; pendulum parsing beyond the documented forms |
| Clause | sql/query_filter.py 41-212, query_generator.py 42-118, 172-184, single_query_resolve.py 97-152, 223-242, utils.py 19-34 | sqlparse reading of text conditions |
| Cond | query_filter.py 22-25, 41-62, 101-152, 247-273 | alias queries |
| Week | field.py 1384-1468 and the week rows of 1013-1341 | times of day |
| Timeframe, TimeText | field.py 370-387, 1013-1382 | week rows (Week), NULL columns; the texts of TimeText_Spec were copied from the f-strings by a script |
| Duration | field.py 911-1010, filter.py 94-96 | |
| Tier | field.py 2616-2630 | |
| Set | core/model/set.py 73-125, project.py 441-460, view.py 1049-1056 | |
| Subst | field.py 510-515, 2550-2603 | duration groups' two texts, Jinja in SQL |
| Single | sql/single_query_resolve.py, select and group by of query_generator.py | non-additive dimension CTEs (NonAdditive) |
| OrderBy | query_generator.py 72-76, 120-149, 255-277, query_dialect.py | |
| MergedGraph | join_graph.py 193-295, field.py 408-432, 2688-2698, 2749-2794, project.py 491-498 | _field_memo (repeats lookups), hash collisions of lru_cache keys |
| Query | query_design.py 38-52, 183-222, 262-295; query_generator.py 42-118, 154-184, 285-300, 339-368, 426-448; field.py 496-536, 797-838 | row level queries (Single), ORDER BY and LIMIT (OrderBy), conditions with group_by or funnels, non additive measures (NonAdditive), select_raw_sql, derived tables; comparisons and SQL texts are parameters |
| NonAdditive | query_generator.py 78-97, 195-240, 377-423, field.py 279-297, 451-469, 2675-2686 | joins inside the sub query (its rows are a parameter), text of SQL |
| Resolve | sql/resolve.py 42-92, 472-516 | |
| Mapping, MappedOnly | resolve.py 126-406, single_query_resolve.py 189-232 | messages |
| Dispatch | core/query/query.py 89-178, resolve.py 405-470, 523-524 | database drivers |
| Merged, MergedRows | sql/query_merged_results.py | WITH text, HAVING, LIMIT |
| MergedDerive, MergedDates | sql/merged_query_resolve.py 112-404 | funnel in merged queries, text where |
| ArbMerge | sql/arbitrary_merge_resolve.py, sql/query_arbitrary_merged_queries.py | text of sub queries, messages |
| Mql | core/convert/convert.py 70-242 | sqlparse |
| Funnel | sql/query_funnel.py 38-221, single_query_resolve.py 164-217 | making of the base query |
| Cumulative | sql/query_cumulative_metric.py | aggregate functions themselves |
| ModelMap | core/model/model.py 144-170, 377-429 | |
| Validate | project.py 231-342 | checks inside each object (collect_errors are inputs) |
| Dashboard | core/model/dashboard.py 20-185 | |
| Connections, ConnDict, ConnLoad, ConnShown, Session | core/parse/connections.py, project_loader.py 66, 114-124, query.py 85-86, sql/query_runner.py 125-170 | values other than None, text, integers and dicts; the database drivers; json and files of credentials are parameters |
| Seed | cli/seeding.py 182-334, 336-433, 479-497, 680-715 | pandas frames as lists of rows; the type tables are a parameter |
| SeedQuery | cli/seeding.py 34-45, 182-285, 419-592 | what the warehouse answers is read off the parts of the query: source, conditions as SQL literals, limit; databases are equal when their names are; custom_sql_base and aliases of the cardinality query are not modelled |
| SeedCheck | cli/seeding.py 46-180, 278-433 | what is written, as the dictionaries the checks of FieldCheck, ViewCheck and ModelCheck read; the project's answers to the checks (fields of the view, where the default date is found) are their oracles; e_paren of a text is assumed to be that text |
| FieldCheck | core/model/field.py 182-470 (properties read), 1481-2503, 2505-2548, 2646-2651, 2701-2740; core/model/base.py 14-15 | text and position of messages; lookups in the project, sets, the filter translation and case/tier SQL are parameters |
| ViewCheck | core/model/view.py 49-170, 193-950; core/model/set.py 14-71 | text and position of messages; lookups in the project, errors of the fields, the filter translation and resolution of the table are parameters; floats used as names are never equal |
| ModelCheck | core/model/model.py 17-366 | text and position of messages; keys of mappings are texts; the canon dates of the project, lookups of fields, time zones and str are parameters; an ambiguous mapped field is not the one that misses a required key |
| JoinSql | core/model/join.py 33-140, 176-206; join_graph.py 111-191, 325-376; sql/query_generator.py 338-360; sql/query_base.py 56-68 | the other keys of an explicit join; the view and field lookups and the SQL of a field are parameters; a condition is read as texts and references without nested braces |
| Repo | core/parse/github_repo.py 82-250; core/parse/project_loader.py 25-28, 44-70, 90-93, 109-112 | git, the operating system and the readers are calls that may fail at any point (an oracle); a clone that fails may leave its folder; the other keyword arguments; LocalRepo; the environment variables; a git command that fails has no effect on the remote |
| TableName | core/model/view.py 57-63, 1008-1049; core/model/project.py 78-79, 578-587; core/parse/manifest.py 4-57 | the answer of the search for a condition with characters special in a regular expression is a parameter; every node of the manifest has the keys read; str() of a table name that is not a text |
| Catalogue | core/query/query.py 16-86, 180-221; core/model/project.py 52-54, 75-76, 462-473; core/model/field.py 879-892 | the cache is followed for one user (the hash of a project includes its user); the loader works or raises; a connection is its name; dimensions named with a view are looked up by the model but not covered by the theorems |
| Runner | core/sql/query_runner.py 31-122, 158-171; core/parse/connections.py 14-24, 441-452 | what the drivers and pandas do with a call (that a cursor of a closed session still has its rows is not assumed); connecting is one call, so a missing module is one of its failures; the reader of USE statements is part of the specification; text is ASCII |
| Profile | core/parse/project_loader.py 46-52, 126-148; cli/seeding.py 604-697; core/parse/github_repo.py 15-23; cli/cli_commands.py 21-25, 43-44 | reading YAML (values are those of Connections); the file system (a folder is its two project files and its directories); a list of one path is written as the path; click, environment variables and profiles_path |
| CumDate | core/sql/query_cumulative_metric.py 43-57, 123-165, 176-354; core/sql/query_design.py 185-192; core/model/project.py 462-506, 540-568; core/model/field.py 471-474, 482-494, 879-892 | the SQL text around the columns; the look-ups made by the inner query of a sub query; the field called count that every view has; durations are fields without timeframe |
| Result | core/sql/query_generator.py 41-76, 171-186, 255-277; core/sql/query_cumulative_metric.py 43-111, 144-201, 373-391; core/sql/query_funnel.py 38-101, 126-149, 223-257; core/sql/merged_query_resolve.py 44-152; core/sql/query_merged_results.py 18-94, 131-139; core/sql/query_base.py 18-36; core/utils.py 20-36 | the data (rows, groups, values: section variables that depend on the set of joined views); group_by and funnel conditions; sub queries of a merged result with dimensions only; the merged join gives every combination once (C32 says when); NULL in joins of cumulative metrics (C35) |
| Users | core/model/view.py 193-195; core/model/field.py 250-262; join_graph.py 141-191 and query_design.py 262-288 as far as they depend on the user, over Core_Model and Query_Model | the sql of a field after substitution with its references, the identifiers of a view and the conditions of an access filter for a value are functions of the definition (C39, C15, C04); filters of a count; caches; what Query leaves out |
| SetFilter | core/sql/single_query_resolve.py 89-130, 151-181, 189-242; core/sql/query_generator.py 41-66, 155-157, 171-198, 244-253; core/sql/query_filter.py 60-120, 159-205, 225-237, 275-327; core/sql/query_funnel.py 126-149, 164-180, 223-269; core/model/project.py 523-531, 551-576 | conditions given as text; values that are fields; group_by on a group of conditions; order, limit and conditions on groups (Result) |
| SqlText | core/model/filter.py 21-28, 486-583; core/sql/query_filter.py 22-25; core/model/field.py 2632-2644; the printing of pypika 0.48 for those terms | other terms of pypika; characters outside ASCII |
| Cli | cli/cli_commands.py 50-235; core/query/query.py 74-86, 180-243; core/model/field.py 863-877, view.py 175-180, model.py 372-375 | colours; click's parsing of arguments; profiles (Profile) |
| RawText | core/sql/query_base.py 37-52, 70-87; core/sql/single_query_resolve.py 154-208; core/sql/query_generator.py 284-293, 426-439 | the lexer of sqlparse (a parameter); text of messages |
| Deps | core/model/field.py 390-433, 818-838, 852-862, 2505-2548, 2688-2698, 2751-2776 | the text of a field's sql after its filters; which of its names are fields is the project's answer; caches |
| Checked | core/model/field.py 2480-2503 (called at 1819, 2007, 2183), core/model/view.py 952-967 | the texts of the messages; the ends of durations; the prefix of personal fields |
| Columns | core/model/field.py 494-803 and 2524-2603 with alias_only, core/sql/query_generator.py 299-337, core/sql/query_funnel.py 81-162 and 223-257, core/sql/query_cumulative_metric.py 144-201 and 221-237 | the texts around the names; columns after ${TABLE}; templates; cumulative metrics as parts; the order of the columns |
| Process | core/sql/query_generator.py 209-211, core/sql/merged_query_resolve.py 257, 272, 351 and 399, core/model/project.py 115-126, core/sql/query_funnel.py 132-133, 152-155 and 225-227, core/model/view.py 613-622 | the keys a funnel adds are given; sets used for membership only |
| Prec | core/model/field.py 496-557, 584-595, 707-716, 742-748, 775-816, 2550-2603 and 2616-2631, core/model/filter.py 487-583, core/model/join.py 177-204, core/model/join_graph.py 346-368 as token texts with and without brackets | the dispatch of aggregates, which is in Agg_Model (timeframes are in PrecTime, durations in PrecDuration_Props over Duration_Model, symmetric aggregates in PrecSymmetric_Props over Agg_Model); comparisons group to the left, which some warehouses refuse; finding references is PyRefs, their order Subst |
| PrecTime | core/model/field.py 1013-1468 as token texts around the dimension's sql | a function with its constant arguments is one call named by its text; week_of_month as in snowflake, the casts of the other warehouses being calls too |
| Args | core/sql/resolve.py 36-53, 374-406, 502-516; single_query_resolve.py 97-130 as far as they change the caller's objects, over Mapping_Model | the lists given are different objects; a call that fails; merged queries, which are asked in parts; order_by as one dict; the conditions of always_filter are a function of the names (C29) |
| Files, FilesOrder | core/parse/project_dumper.py, project_reader_metrics_layer.py, github_repo.py 28-63, project_reader_base.py 121-133 | YAML text, creation of folders, glob characters in names, git |

Not modelled at all: the command line (`cli/`) except where a row says so, dbt/metricflow projects (`core/parse/`,
`core/convert` beyond MQL), drivers (`core/sql/...` execution, `run_query`), topics, logging, messages of exceptions (unless a property is about them),
Jinja and personal fields' warning texts.

Python values: text is ASCII; integers are Z or nat; rationals stand for floats; dict order is list order; `set`
enumeration is an arbitrary function (`enum`) that lists each element once; deepcopy is the identity on values;
recursion carries fuel whose exhaustion is `RecursionError`, an error value that the statements exclude.

## 4. Contracts of libraries and warehouses (oracles and hypotheses)

| What | Where | Assumed |
|---|---|---|
| networkx topological_sort of a line graph | JoinOrder_Spec | returns a topological order, or fails on a cycle; an instance is given (JoinOrder_Nx) |
| networkx shortest_path | JoinOrder_Spec | a path of least weight, None if there is none; an instance is given |
| networkx components, edge_dfs | JoinGraph_Scc | modelled by verified saturation |
| pd.to_numeric (`num`) | Filter, Cond, Dashboard | nothing, or what each theorem states |
| pendulum dates | PyDate, Filter_Model | proleptic Gregorian calendar; fixed offset zones |
| re | PyRx | backtracking order of alternatives and greedy repetition |
| pypika | Clause, OrderBy | precedence and parenthesising of AND/OR as printed; ORDER BY/LIMIT text |
| SQL truth | Clause_Spec, Filter_Spec | three-valued logic |
| SQL joins | Rel_Spec, MergedRows_Spec, ArbMerge_Spec | row-list semantics of INNER/LEFT/FULL/CROSS JOIN |
| SQL aggregates | Agg_Spec | over rationals, casts exact; hashes are an arbitrary function, with "no collision among these keys" as a hypothesis |
| warehouse date functions | Week_Spec, Timeframe_Spec, Duration_Props | documented meaning of DATE_TRUNC, DATEADD, DATEDIFF (boundaries crossed, 32-bit in T-SQL), EXTRACT, TO_CHAR, FORMAT..., which functions each warehouse has |
| NULL ordering | OrderBy_Props | NULLs last or first as documented per warehouse |
| json.dumps + hash of a user | ProjectState | distinct on the users of the run (hypothesis `Hinj`); without it the cache could mix users up |
| sub-resolvers (Resolve, Dispatch, Mql, ArbMerge) | Section variables | nothing |
| project.get_field and the like, in modules above the lookup | Section variables | nothing, or closedness of a set of fields (Subst) |
| mapped names are not ids of fields | Mapping_Props `ids_unmapped` | a mapped name differs from every field id |
| sqlparse | Mql, Clause (`idents`), Mapping, RawText (`lex`) | token tree, or list of tokens, is the input |
| rows of joined views, values, metrics over rows, access tests (SetFilter) | Section variables | nothing; IN and NOT IN with NULL as in SQL |
| how a warehouse reads a string literal (SqlText `rules_of`) | specification: does a backslash escape, does a doubled quote stand for one | as in the manuals of the warehouses; comments of two dashes and quoted names are read, block comments are not |
| to_dict of models, views and fields, the table of a view, answers of warehouses (Cli) | Section variables | nothing |

## 5. Findings: statements the code violates

Each line is a theorem; the witness or the class of inputs is in its statement.


- `C03_shared_view_name_refuted` (AccessErrors_Props): Why C03_independent_of_view_order asks for views with different names: with two views of one name a lookup in that view finds the fields of the one listed first.
- `C04_filters_of_every_view_read_refuted` (Access_Props): Finding (the full C04 is false): the query below reads the view "customers" (it is a required view, because the access filter of "orders" is written on one of its fields) but the access filter of "customers" itself, whose attribute the user carries, contributes no condition.
- `C04_literal_where_escapes_access_filter_refuted` (Clause_Props): Where="b or c" beside the access filter [a]: the row failing [a] passes. This also refutes C04 for literal filters.
- `C05_join_graph_after_set_user_refuted` (ProjectState_Props): The memoised join graph survives set_user, so a user can be shown another user's graph.
- `C05_without_refresh_refuted` (ProjectState_Props): An edit with refresh_cache=False leaves stale answers behind.
- `C05_no_user_and_empty_user_refuted` (ProjectState_Props): No user and the user {} share one cache key although an unknown grant separates them, whatever dumps and hash are.
- `C06_existing_field_is_deleted_refuted` (ProjectState_Props): If the view already has a field with the temporary name, that field is deleted for good.
- `C06_exception_leaks_the_field_refuted` (ProjectState_Props): An exception while the temporary field is in place leaves it in the project.
- `C08_copy_name_may_clash_with_a_view_refuted` (JoinAs_Props): The copies may carry the name of an existing view; loading does not object (the join graph does, later: C09).
- `C09_duplicate_names_raise_query_error_refuted` (JoinGraph_Props): With duplicate view names the promised QueryError can be an AttributeError instead: the second "orders" carries the identifier, the first one (found by get_view) does not.
- `C13_self_reference_joins_a_view_to_itself_refuted` (JoinOrder_Props): An explicit join from a view to itself (not refused anywhere) makes the view appear twice under the same name.
- `C14_hidden_bridge_refuted` (Bridge_Props): C14: a view that ties required views is not tried first when a later view ties the same ones.
- `C14_direct_join_need_not_be_cheapest_refuted` (JoinOrder_Props): A direct join in one direction is used even when a cheaper path exists (a many_to_many join is preferred to two one_to_one joins).
- `C14_two_separate_joins_fail_although_joinable_refuted` (JoinOrder_Props): Four views forming two separate joins give JoinError although a fifth view reaches them all; the error of the path check is not caught by the fallback.
- `C15_two_fan_outs_refuted` (Rel_Props): With two one_to_many joins from the base view the last joined view's key is taken although its rows repeat once per row of the other branch.
- `C15_many_to_one_then_fan_out_refuted` (Rel_Props): Many_to_one, one_to_one, one_to_many in a row escapes the many_to_one/one_to_many test, because only the directly preceding join is looked at.
- `C16_injective_hash_not_enough_refuted` (Agg_Props): Findings: an injective hash is not enough, because value + hash may coincide for two keys.
- `C16_small_values_lost_refuted` (Agg_Props): A value below one millionth disappears, a fan-out or not.
- `C16_null_differs_from_plain_refuted` (Agg_Props): Over a group without values SUM is NULL but the symmetric sum is 0, COUNT is 0 but the symmetric count is NULL.
- `C17_unsupported_warehouse_double_counts_refuted` (Agg_Props): On the five other warehouses nothing protects the measure and nothing is reported.
- `C17_missing_functional_key_double_counts_refuted` (Agg_Props): If the functional key's view declares no primary key, protection is silently off everywhere.
- `C17_two_fan_outs_double_counts_refuted` (Agg_Props): Two one_to_many joins (C15's failure): the second branch's own measure is emitted plain.
- `C17_median_fanned_out_refuted` (Agg_Props): Medians are never protected.
- `C18_text_read_as_dates_refuted` (Filter_Props): What falls outside. A plain text containing something like "3 days" is read as a date range.
- `C18_wildcards_not_escaped_refuted` (Filter_Props): A LIKE wildcard inside the text of a %-form stays a wildcard.
- `C18_integers_refuted` (Filter_Props): The integers 0 and 1 become booleans, and other integers raise AttributeError.
- `C18_index_errors_refuted` (Filter_Props): "-" alone and a list ending in a comma raise IndexError.
- `C19_until_last_day_refuted` (DateText_Props): So a range that ends with a written day leaves out that day's instants after midnight.
- `C19_quarter_end_refuted` (Filter_Props): "this/last quarter" ends at midnight at the start of the quarter's last day, so the rows of that day after midnight are lost.
- `C19_zero_refuted` (Filter_Props): "0 days" is an empty range.
- `C19_ago_to_date_overruns_refuted` (Filter_Props): "1 month ago to date" at the end of a long month runs into the current month.
- `C19_double_space_refuted` (Filter_Props): Two spaces inside "ago to date" lose the end of the range.
- `C20_exception_leaks_refuted` (Filter_Props): An exception in the date part leaves the other week start behind for the whole process.
- `C22_plain_conditions_unchecked_refuted` (Clause_Props): Only groups are checked: a plain aggregate condition passes the where check (its aggregate then stands in WHERE), and a plain row level one passes the having check.
- `C23_bigquery_refuted` (Week_Props): On BigQuery every configured week start day is off by one: the week shown never starts on the configured day.
- `C23_sql_server_refuted` (Week_Props): On SQL Server/Synapse the last day of each week is put in the following week (DATEDIFF(WEEK) counts Sundays).
- `C23_bigquery_week_index_refuted` (Week_Props): Bigquery's week number changes inside a week at New Year
- `C23_week_of_month_refuted` (Week_Props): Week_of_month ignores the configured start and is negative in the last days of a year
- `C24_unsorted_refuted` (Tier_Props): Without the order, a value below the first tier but above a later one is called "Below" the first: tiers 10, 5 and value 7
- `C25_own_name_filter_ignored_refuted` (MeasureFilter_Props): ... from its sql: rows failing the filter are aggregated (amount > 4, on a measure called "amount")
- `C25_own_name_filter_inconsistent_refuted` (MeasureFilter_Props): The filter on the measure's own column is dropped from its value but not from its key, so the measure is larger without fan-out protection than with it.
- `C25_no_condition_left_refuted` (MeasureFilter_Props): ... and when it is the only one, or when no filter yields a condition, "case when then" is left
- `C25_non_additive_else_0_refuted` (MeasureFilter_Props): Non additive averages, maxima and minima count the excluded rows as zeros
- `C25_unreadable_filter_dropped_refuted` (MeasureFilter_Props): When a filter raises AttributeError the property falls back to the sql of the definition, so all rows are aggregated and no error is reported: for every measure, list of filters, and rows.
- `C26_unqualified_set_of_other_view_refuted` (Set_Props): An unqualified set name is looked for in the whole project: "mine" of customers expands the set of orders, although customers has a set of that name
- `C29_unparsed_filter_drops_the_rest_refuted` (Resolve_Props): One filter of a view that cannot be parsed removes the view's other filters without an error
- `C29_join_as_history_refuted` (Resolve_Props): A view and its join_as copy share their dicts: after a query on the original, the copy's condition is on the original's column
- `C29_text_where_fails_refuted` (Resolve_Props): A where given as text or as one dict cannot be combined with an always_filter
- `C29_dict_where_keeps_logic_refuted` (Resolve_Props): Conditional_filter_logic is unwrapped in a list but not when the where is the dict itself
- `C30_only_joined_refuted` (MappedOnly_Props): Refuted: two mapped names are not settled by fields that join where there are such. Under each other name only the first field that can be queried at all is looked at: region and source of visits are in one graph, but those of orders, which can only be merged, are taken.
- `C30_repeated_name_refuted` (Mapping_Props): Only the first occurrence in a list of dimensions (or metrics) is replaced
- `C30_text_substring_refuted` (Mapping_Props): In text the name is replaced inside longer names
- `C30_choices_do_not_join_together_refuted` (Mapping_Props): Two mapped names are chosen independently of each other: each can be joined with the metric, all together cannot, although another choice would do
- `C30_lone_field_refuted` (Mapping_Props): A single plain field without join graphs: TypeError instead of the QueryError
- `C30_lookup_only_refuted` (Mapping_Props): A mapped name given only for lookup breaks a query made of mapped names only
- `C31_order_refuted` (MergedDates_Props): With eleven they do not: the eleventh comes before the third, positions being compared as text.
- `C31_single_date_drops_metric_refuted` (MergedDerive_Props): With one canonical date no sub query is "used": the dimension is taken for one that joins to no metric and the metrics of its sub query are dropped (line 243).
- `C31_where_type_lost_refuted` (MergedDerive_Props): Two conditions that differ in the type of their value (1 and "1") are taken for the same: the first is lost.
- `C31_where_moved_although_joinable_refuted` (MergedDerive_Props): A field that joins to both sub queries is selected as it is in both, but a condition on it is put on a mapped field in the first: "subquery_0_subquery_1" is not among the sub queries of the CTE (lines 297-303).
- `C31_dimension_count_refuted` (MergedDerive_Props): Two dimensions mapped to the same field: one sub query has two dimensions, the other one.
- `C31_substring_mapping_refuted` (MergedDerive_Props): "subquery_1" is part of the text "..._subquery_12": the sub query of join graph 12 selects a field of join graph 1 although a mapping to its own field exists (line 237).
- `C32_third_sub_query_refuted` (MergedRows_Props): Three sub queries: values found in the second and third but not in the first give two rows.
- `C32_null_value_refuted` (MergedRows_Props): A NULL dimension value present in both sub queries gives two rows.
- `C32_overwritten_dimension_refuted` (MergedRows_Props): A dimension shared by two sub queries and mapped in a third: the column of the first sub query is overwritten, so its own rows show NULL.
- `C32_unused_mapping_refuted` (MergedRows_Props): A dimension that joins to every sub query but also has a mapping: IndexError.
- `C32_alias_collision_refuted` (MergedRows_Props): Two different metrics with the same alias: one of them is not returned.
- `C33_validate_error_refuted` (ArbMerge_Props): Join fields that are not dicts raise AttributeError or TypeError instead.
- `C33_empty_refuted` (ArbMerge_Props): An empty list of queries passes validation and then raises IndexError
- `C33_group_refuted` (ArbMerge_Props): A group of conditions, which has no field of its own, is a KeyError
- `C33_same_metric_refuted` (ArbMerge_Props): The same metric in two queries (say, this year and last year): only the first is in the result.
- `C33_lost_column_refuted` (ArbMerge_Props): A dimension that an earlier query joins on is not in the result at all.
- `C33_fan_out_refuted` (ArbMerge_Props): A query with more dimensions than join fields repeats the rows (and metrics) of the first.
- `C33_unbound_mapping_refuted` (ArbMerge_Props): A mapped join field whose fields the first query does not use: UnboundLocalError instead of a JoinError.
- `C33_stale_mapping_refuted` (ArbMerge_Props): ... and after another mapped name it silently stands for that other name's field.
- `C34_group_increase_refuted` (Funnel_Props): With dimensions the counts of a group may increase: the group is that of the event, not of the person.
- `C34_events_increase_refuted` (Funnel_Props): Metrics of events, not of people, may increase as well.
- `C34_text_step_refuted` (Funnel_Props): A step written as text with a top-level OR escapes the window: bob bought long after.
- `C34_no_steps_refuted` (Funnel_Props): A funnel without steps raises UnboundLocalError instead of an error about the request.
- `C34_event_date_refuted` (Funnel_Props): Two metrics of one view have one event date, yet are refused without a view name; and a default date of another view gives a name of three parts when the view is named.
- `C35_spine_end_refuted` (Cumulative_Props): The Snowflake and Redshift spine ends ten days before the others, on 2039-12-21
- `C35_total_refuted` (Cumulative_Props): The cumulative total without a date dimension is not the aggregate of all rows: two orders, ten days, one worth 10 on the first day and one worth 1 on the last, add up to 101.
- `C35_date_condition_refuted` (Cumulative_Props): Without a date dimension the result does not depend on the conditions on the date at all.
- `C35_lost_refuted` (Cumulative_Props): A period or group which the base does not have is lost, and so is the value of a group whose dimension is NULL
- `C35_design_refuted` (Cumulative_Props): A design that asks for no grouping is left grouping; and a failing sub query leaves its own lookup behind.
- `C36_aliases_refuted` (Single_Props): Aliases can coincide: two spellings of one field pass the check of the names, and so do fields of two views.
- `C36_dropped_column_refuted` (Single_Props): At row level such a field is dropped instead
- `C36_kinds_refuted` (Single_Props): A measure named as a dimension is grouped by its aggregate, a dimension named as a metric is selected without being grouped: neither list is checked for the kind of its fields.
- `C36_number_metric_refuted` (Single_Props): At row level a measure of type number is replaced by the measures it refers to: there is no column for it.
- `C36_grain_order_refuted` (Single_Props): Whether a query is grouped depends on the order of its metrics; in the ungrouped one the metric of the other view is not aggregated either.
- `C37_keyword_name_refuted` (OrderBy_Props): A field whose name contains asc or desc ("description") is never ordered by under its own name.
- `C37_nulls_first_refuted` (OrderBy_Props): A request for nulls first is dropped: the same ordering as without it.
- `C38_mql_kind_refuted` (Dispatch_Props): A raw MQL request cannot be asked for its kind, whatever the resolvers do.
- `C38_query_not_run_refuted` (Dispatch_Props): Only metric requests can be run: query(sql=...) and query(merged_queries=...) never reach the warehouse.
- `C39_spaces_refuted` (Subst_Props): Text outside references is changed: a run of spaces inside a string literal becomes one space.
- `C39_alias_table_refuted` (Subst_Props): In the form used for columns of sub queries, ${TABLE} is only replaced before a dot.
- `C39_dollar_refuted` (Subst_Props): With a dollar in the text, the SQL of one field can form a reference with the text around it.
- `C40_timeframe_containing_the_name_refuted` (Names_Props): A group called week with the timeframe week_of_year answers to the name but yields the timeframe of_year.
- `C40_column_alias_not_unique_refuted` (Names_Props): Column aliases of different fields may coincide.
- `C41_history_refuted` (ViewFields_Props): After a call with the other flag the answer is the earlier one's: asking for the primary key (which expands, view.py:195) makes fields() give one field per timeframe, and the reverse.
- `C42_unknown_warehouse_refuted` (Single_Props): A warehouse that is not supported is not refused by these checks: it fails later, with KeyError, when the dialect is looked up (query_base.py _base_query).
- `C43_itself_refuted` (ModelMap_Props): A field written in two ways references itself.
- `C43_repeated_refuted` (ModelMap_Props): A field listed twice makes the others reference it twice.
- `C44_nulls_refuted` (OrderBy_Props): On Druid, SQL Server and Synapse a request for nulls last is not written, and NULLs come first in ascending order.
- `C44_dropped_order_refuted` (OrderBy_Props): Cumulative, funnel and merged queries drop the order asked for, although they keep the limit: which rows are returned is then up to the warehouse.
- `C45_lost_refuted` (Validate_Props): One model that cannot be built hides the errors of all others.
- `C45_unbound_refuted` (Validate_Props): When the references of the first view cannot be read validate itself fails, whatever the rest of the project is.
- `C45_stale_refuted` (Validate_Props): For a later view the references of the one before are reported again under its name: a message that is no problem of the project.
- `C46_empty_refuted` (Dashboard_Props): A filter with an empty value is not left out: for every dashboard an entry without condition stays in the list.
- `C47_base_view_may_depend_on_set_order_refuted` (JoinOrder_Props): Such a tie exists, so which view is the base view depends on the iteration order of a set of strings, which Python randomises between runs.
- `C48_yesno_not_equal_refuted` (Cond_Props): On a yes/no field every expression with a truth value is read as equal_to: not_equal_to False selects the rows that are False, and boolean_false with value True the rows that are True.
- `C48_null_test_refuted` (Cond_Props): NULL tests without a value key: a KeyError on yes/no fields, and on every field for BigQuery and Trino.
- `C48_field_name_value_refuted` (Cond_Props): A text that happens to be the name of a field is not compared as a text.
- `C48_wildcard_refuted` (Cond_Props): % and _ in a searched text are wildcards.
- `C48_empty_matches_refuted` (Cond_Props): A matches condition with an empty text stands for no comparison. Alone it filters nothing; after another condition it has no text in SQL and the query raises; before another it is as if it had not been written.
- `C49_nested_call_refuted` (Mql_Props): A call inside a sub select is left as it is, without an error.
- `C49_string_constant_refuted` (Mql_Props): Text that merely looks like the call (a string constant) is replaced as well.
- `C49_keyword_metric_refuted` (Mql_Props): A metric whose name is a keyword to the tokenizer (source, say) is dropped, although a dimension of that name is kept.
- `C49_order_by_blanks_refuted` (Mql_Props): ORDER BY with two blanks is not recognised: the ordering becomes a dimension.
- `C49_funnel_keyword_refuted` (Mql_Props): A keyword inside a funnel condition drops what stands before it.
- `C50_mapped_only_refuted` (Dispatch_Props): A query of mapped names only goes to the first model, although only the second one defines the name; the same for a name that exists nowhere, which is blamed on that model.
- `C50_mapping_of_other_model_refuted` (Dispatch_Props): A mapped name that the model of the fields does not define is accepted here.
- `C50_mapped_only_first_model_refuted` (Dispatch_Props): Mapped-only queries always go to the first model when every model's mappings can be read.
- `C51_postgres_refuted` (Duration_Props): 2024-01-01 to 2024-02-01 is 0 days, a day is 24 minutes, an hour is 60 seconds
- `C51_bigquery_years_refuted` (Duration_Props): BigQuery's ISO years: 2016-01-03 to 2018-12-31, less than three years, is 4 years
- `C52_no_field_refuted` (Dashboard_Props): A filter without a field, or an element without a model, ends the check (and with it validate()) with an exception instead of a message.
- `C52_no_model_refuted` (Dashboard_Props): An element without a model ends the check of the dashboard with an exception instead of a message.
- `C53_month_index_refuted` (Timeframe_Props): Month_index on SQL Server is written with EXTRACT, which is not T-SQL.
- `C53_second_refuted` (Timeframe_Props): Second on SQL Server counts seconds since 1900 with DATEDIFF, which overflows from 1968-01-21 on.
- `C53_bigquery_names_refuted` (Timeframe_Props): Month_name and day_of_week on BigQuery give full names where the other warehouses give three letters.
- `C53_duckdb_names_refuted` (Timeframe_Props): Month_name and day_of_week on DuckDB are written with TO_CHAR, which DuckDB does not have.
- `C53_bigquery_fiscal_refuted` (Timeframe_Props): BigQuery does not add months to a TIMESTAMP, the default datatype
- `C53_zone_ignored_refuted` (Timeframe_Props): Three warehouses ignore the project's zone: the same SQL, so the UTC period
- `C53_date_column_refuted` (Timeframe_Props): A column of dates is moved to the day before by every zone behind UTC
- `C54_null_group_refuted` (NonAdditive_Props): A group whose value is NULL shows 0: its last row is joined to nothing (unless nulls_are_equal is set).
- `C54_nulls_are_equal_refuted` (NonAdditive_Props): Nulls_are_equal does not help when a window grouping is NULL: the join finds the row, the CASE does not.
- `C54_other_view_refuted` (NonAdditive_Props): A date of another view: whatever the names, the CASE asks for a column under the measure's view, the sub query has it under the date's view.
- `C54_same_name_refuted` (NonAdditive_Props): Measures of the same name in two views share one sub query: the second asks it for a column it does not have.
- `C54_two_spellings_refuted` (NonAdditive_Props): A dimension written without its view, which is also a window grouping: the sub query has the column twice.
- `C54_history_refuted` (NonAdditive_Props): With an empty list of window groupings the dimensions of a query stay in the definition: the next query, without dimensions, aggregates the last rows of each plan instead of the last rows.
- `C54_unaware_refuted` (NonAdditive_Props): A window that should not depend on the query's dimensions does on those that merely have the date's name, in any view.
- `C55_three_graphs_refuted` (MergedGraph_Props): So a mapped name cannot be used with measures of three join graphs: with the measures of two of them "region" is replaced by a field, with those of all three the same query is refused, although each pair works.
- `C55_joinable_refuted` (MergedGraph_Props): Joinable_fields of two fields lists fields that share a join graph with only one of them.
- `C55_second_model_refuted` (MergedGraph_Props): With two models the answer depends on which was asked first: the graph built for the first model is used for the second, whose mappings are then unknown.
- `C55_edit_refuted` (MergedGraph_Props): After the project is edited, a field asked before keeps its old join graphs although refresh_cache was called: a dated measure in a new join graph is not seen.
- `C55_user_refuted` (MergedGraph_Props): After the user is changed, the merged results of the former user are used.
- `C57_connecting_view_unfiltered_refuted` (Query_Props): Customers by product are connected through orders. The user may see the orders of the north only, and the filter is on orders; the query joins orders and counts the south as well.
- `C58_one_side_refuted` (Breakdown_Props): The metric's view on the one side of the join: customers without orders are left out, and one with two kinds of orders counts twice, in two groups.
- `C58_one_to_one_refuted` (Breakdown_Props): A one_to_one join goes both ways; the query starts at the view whose name comes first, and rows of the metric's view without a partner there are lost.
- `C59_trino_refuted` (Connections_Props): A Trino connection can never be printed.
- `C59_prints_refuted` (Connections_Props): A SQL Server connection that logs in without a password is accepted but cannot be printed.
- `C60_postgres_password_refuted` (Session_Props): A password with an at sign makes the driver connect to another host.
- `C60_synapse_refuted` (Session_Props): Every Azure Synapse connection gets the type of SQL Server, so its SQL is written for SQL Server.
- `C60_postgres_database_refuted` (Session_Props): The database of a Postgres connection is read from dbname; one given as database is silently ignored.
- `C60_same_name_refuted` (Session_Props): ... and not otherwise: with two connections of one name the SQL is written for the last and run on the first.
- `C61_nested_refuted` (Files_Props): Files in sub folders of a folder given without a trailing slash are never found.
- `C61_sibling_refuted` (Files_Props): ... while the files of every folder whose name starts like it are.
- `C61_empty_file_refuted` (Files_Props): One empty file (or one that is not a mapping) makes the whole project unloadable.
- `C61_no_project_file_refuted` (Files_Props): Without a zenlytic_project.yml every folder loads as an empty project, without an error.
- `C61_venv_refuted` (Files_Props): A repository whose path has the letters venv in it loads as an empty project.
- `C61_overwrite_refuted` (Files_Props): Two views of one name are written to one file: the first is lost.
- `C62_white_space_refuted` (Seed_Props): Other white space inside a name stays in it.
- `C62_two_schemas_refuted` (Seed_Props): Two tables of one name in two schemas become one view that reads the first and has the columns of both.
- `C62_letter_case_refuted` (Seed_Props): Two tables whose names differ in letter case become two views of one name (so one file), each with the columns of both.
- `C62_name_clash_refuted` (Seed_Props): Distinct columns can get one name, or an empty one.
- `C62_druid_cardinality_refuted` (Seed_Props): The cardinalities of a Druid table (whose database is None) are read from a database called None.
- `C62_dbt_mode_refuted` (Seed_Props): The project file written inside a dbt project has a mode that the loader refuses.
- `C62_other_database_refuted` (Seed_Props): With Druid and Trino another database is forgotten
- `C63_time_key_missing_refuted` (FieldCheck_Props): Definitions on which validation raises
- `C63_intervals_missing_refuted` (FieldCheck_Props): None
- `C63_window_key_missing_refuted` (FieldCheck_Props): None
- `C63_cumulative_measure_refuted` (FieldCheck_Props): None
- `C63_empty_tiers_refuted` (FieldCheck_Props): A tier without tiers
- `C63_star_refuted` (FieldCheck_Props): A star with filters
- `C63_self_reference_refuted` (FieldCheck_Props): A number that refers to itself
- `C63_text_filter_value_refuted` (FieldCheck_Props): The value of a filter that is a text is never reported; when it cannot be read, validation raises
- `C63_prefix_once_refuted` (FieldCheck_Props): ... and the messages that already begin with the prefix get it twice
- `C63_validation_changes_filters_refuted` (FieldCheck_Props): A filter on the field itself is left out of its SQL, but after a validation it is applied
- `C64_event_dimension_raises_refuted` (ViewCheck_Props): An event dimension that names its view raises when the view has no default date
- `C64_event_dimension_unchecked_refuted` (ViewCheck_Props): ... and is not looked up when it has one: only the default date is
- `C64_two_tables_raise_refuted` (ViewCheck_Props): Two tables, the first of which cannot be resolved, raise
- `C64_measure_key_refuted` (ViewCheck_Props): A measure marked as primary key hides that the view has no primary key
- `C64_access_filter_raises_refuted` (ViewCheck_Props): An access filter whose field is ambiguous raises
- `C64_set_name_raises_refuted` (ViewCheck_Props): A set whose name is not a text raises
- `C64_later_identifiers_refuted` (ViewCheck_Props): An identifier with an ambiguous reference: it is reported alone, and the identifiers after it are not checked
- `C64_view_name_raises_refuted` (ViewCheck_Props): A name that is not a text raises
- `C65_mapping_without_fields_refuted` (ModelCheck_Props): One mapping without fields: the validation of the model raises
- `C65_no_grants_reported_refuted` (ModelCheck_Props): An empty list of access grants is reported
- `C65_mixed_values_refuted` (ModelCheck_Props): One text among the allowed values of a grant hides the values that are not
- `C65_grant_not_mapping_raises_refuted` (ModelCheck_Props): One grant that is not a mapping, beside one that is, makes the validation raise
- `C65_later_mappings_refuted` (ModelCheck_Props): A mapped field that is ambiguous hides the errors of the later mappings
- `C65_name_raises_refuted` (ModelCheck_Props): A name that is not a text makes the validation raise
- `C65_mapping_label_refuted` (ModelCheck_Props): No error depends on the label of a mapping
- `C66_no_view_refuted` (JoinSql_Props): A reference without a view loses the whole condition, without an error in the query
- `C66_displaced_kind_refuted` (JoinSql_Props): An explicit join that gives way to a better join of identifiers leaves its kind behind
- `C66_cross_refuted` (JoinSql_Props): An explicit cross join is written with a condition
- `C66_extra_argument_refuted` (JoinSql_Props): An explicit join that also has sql or a foreign_key is refused whenever it is used, and so is the validation of the joins
- `C67_failed_write_refuted` (Repo_Props): A write that fails leaves the key file
- `C67_done_but_raises_refuted` (Repo_Props): If the rights of the key file cannot be set, an operation that did everything it should raises
- `C67_fetch_reason_refuted` (Repo_Props): If the rights of the key file cannot be set, a fetch that cloned the repository raises an error about a variable of its own, and the clone stays
- `C67_clone_left_refuted` (Repo_Props): A project that cannot be read, or has an unknown mode, leaves its clone
- `C67_branch_name_refuted` (Repo_Props): A branch whose name has /heads/ inside is offered under another name
- `C67_ssh_address_refuted` (Repo_Props): An ssh:// address is taken for a local folder; an address with GIT@ is remote but is not given the key
- `C67_capital_address_refuted` (Repo_Props): None
- `C68_environment_refuted` (TableName_Props): Any other environment reads the words of its condition, then its table
- `C68_hyphen_refuted` (TableName_Props): ... or, if its table has a hyphen in its name, all the text that follows
- `C68_double_quotes_refuted` (TableName_Props): Double quotes are part of the name
- `C68_ref_in_environment_refuted` (TableName_Props): A reference in a branch of an environment is not resolved
- `C68_other_node_refuted` (TableName_Props): Whatever comes first in the manifest under that name is read, a model or not
- `C68_version_refuted` (TableName_Props): A version of a model is not found under the name of the model, but under that of the version
- `C68_empty_schema_refuted` (TableName_Props): With a manifest an empty schema is used
- `C68_last_query_refuted` (TableName_Props): The table of the same reference depends on the connection of the last query
- `C69_dimension_again_refuted` (Catalogue_Props): After a group was asked for in one timeframe it is not found in another
- `C69_shared_project_refuted` (Catalogue_Props): A project given to two connections makes the first act as the user of the second
- `C69_nothing_to_load_refuted` (Catalogue_Props): A connection without project or location does not say so
- `C69_added_connection_refuted` (Catalogue_Props): A connection added after the project was loaded is listed, but the project does not know it
- `C69_same_name_refuted` (Catalogue_Props): A name that two metrics have is answered with the first of them, where get_field refuses
- `C69_hidden_refuted` (Catalogue_Props): A hidden metric is not found, where get_field finds it
- `C69_capitals_refuted` (Catalogue_Props): A name with capitals is not found, even the name as the project writes it
- `C70_postgres_cursor_refuted` (Runner_Props): None
- `C70_types_refuted` (Runner_Props): Six of the ten types a connection can have cannot be run
- `C70_left_open_refuted` (Runner_Props): A query that fails leaves its session open
- `C70_fetched_after_closing_refuted` (Runner_Props): Except with Postgres, the rows are fetched after the session was closed
- `C70_zero_timeout_refuted` (Runner_Props): A timeout of zero is no timeout with Postgres
- `C70_schema_ignored_refuted` (Runner_Props): Only Snowflake uses the schema of the connection
- `C70_small_letters_refuted` (Runner_Props): A database or schema whose name has a small letter is never the one used
- `C70_warehouse_name_refuted` (Runner_Props): A warehouse whose name must be quoted cannot be started, and a quote in a name writes other statements
- `C70_quote_refuted` (Runner_Props): None
- `C71_no_default_refuted` (Profile_Props): Without a default target the message is Python's, as for a profile without outputs
- `C71_redshift_refuted` (Profile_Props): The other warehouses dbt knows: Redshift writes user and dbname, and is refused
- `C71_types_refuted` (Profile_Props): And the types duckdb, sqlserver and synapse are not known
- `C71_databricks_refuted` (Profile_Props): And the token and catalog of a Databricks target are not used
- `C71_hidden_profile_refuted` (Profile_Props): A project file without a profile hides that of the dbt project
- `C71_init_dbt_refuted` (Profile_Props): None
- `C71_init_replaces_refuted` (Profile_Props): Init replaces the project file there is, and its profile
- `C71_two_files_refuted` (Profile_Props): With a second project file, below the folder, the kind written is not used
- `C71_unknown_connection_refuted` (Profile_Props): A name that is not there is no connection, and is not said
- `C72_write_stays_refuted` (CumDate_Props): A timeframe written to a field stays: afterwards its name denotes the field in that timeframe, for every later query
- `C72_two_timeframes_refuted` (CumDate_Props): C72: two timeframes of a date: the columns of both are the date of the spine, in the periods of the first
- `C72_other_timeframe_refuted` (CumDate_Props): C72: a date in a timeframe that is no period (hour_of_day, day_of_week, raw ...): its column is the day of the spine, and a dimension is added for every metric
- `C72_date_condition_lost_refuted` (CumDate_Props): C72: without a date among the dimensions, a condition on the date is applied nowhere
- `C72_other_conditions_refuted` (CumDate_Props): C72: a group of conditions, or a condition in SQL, is refused with a KeyError or an earlier error
- `C72_leaves_project_refuted` (CumDate_Props): C72: a query by month with such a condition changes the project: afterwards the name of the field denotes another one
- `C72_repeat_refuted` (CumDate_Props): C72: so the same query can give different sub queries the second time
- `C72_dimension_lost_refuted` (CumDate_Props): C72: and a dimension of the query that is also in cumulative_where is given under another name, from the sub query of another timeframe
- `C72_date_missing_refuted` (CumDate_Props): C72: with two metrics whose default dates are asked for in two timeframes, the date of the second is not a column of its first sub query
- `C72_view_missing_refuted` (CumDate_Props): C72: a view that only cumulative_where mentions is not joined, although its column is selected
- `C73_order_refuted` (Result_Props): An order cannot be asked of cumulative metrics or a funnel, where it is refused as if the primary key were among the dimensions, and a merged result ignores it
- `C73_cumulative_having_refuted` (Result_Props): A having clause on a cumulative metric needs the metric in the request, and a warehouse where conditions can use the names of the select
- `C73_having_form_refuted` (Result_Props): Texts are errors in all three, groups of conditions in two of them
- `C73_merged_rows_refuted` (Result_Props): A having clause can add rows: of a merged result, those of the sub query of its metric
- `C73_cumulative_rows_refuted` (Result_Props): And remove rows that meet it: of cumulative metrics, those without a row of the other metric, though its condition holds for all rows
- `C73_single_rows_refuted` (Result_Props): Of a single query, when the having clause brings in another view. The data here are as when that view is the first of the FROM clause: groups without a row of it are lost, groups of it without an order appear
- `C73_funnel_columns_refuted` (Result_Props): A funnel shows a metric that is also in the having clause twice
- `C74_no_graph_refuted` (SetFilter_Props): C74: without a common join graph the only customer field there is, is used
- `C74_without_funnel_refuted` (SetFilter_Props): C74: a funnel condition without its funnel is not refused as such
- `C74_no_step_refuted` (SetFilter_Props): C74: a step the funnel does not have is not refused, its table is missing
- `C74_having_group_refuted` (SetFilter_Props): C74: conditions on the result in a group are refused with a KeyError
- `C74_two_metrics_refuted` (SetFilter_Props): C74: two metrics are refused unless the funnel names a view, also when they are of one view
- `C74_other_rows_refuted` (SetFilter_Props): C74: the views of the funnel are joined in the query too: an order without lines of a customer who has converted is left out, which it is not without the condition
- `C74_field_refuted` (SetFilter_Props): C74: the field that the condition names is not used: it may be any field of the query
- `C75_two_refuted` (SetFilter_Props): C75: two conditions on groups are always refused, with an error that is not of the library
- `C75_view_missing_refuted` (SetFilter_Props): C75: the view of the group is not joined for the condition
- `C75_no_rows_refuted` (SetFilter_Props): C75: a group without rows is never kept: cid has no lines, a condition that is true of no lines does not keep their order
- `C75_nested_refuted` (SetFilter_Props): C75: in a group of conditions group_by is not used: the condition is asked of the rows themselves, where the metric is its column; and a metric that is not in the query is a KeyError
- `C76_backslash_refuted` (SqlText2_Props): Where a backslash escapes (Snowflake, Redshift, BigQuery, Databricks), a text of backslash, quote and anything is read as the literal of one quote followed by SQL of the user's choice; a comment hides the closing quote. [p] is any text without quotes and backslashes.
- `C76_quote_refuted` (SqlText2_Props): Where two quotes are not one quote (BigQuery, Databricks), no text with a quote is read as itself: the literal ends at the quote.
- `C76_cast_refuted` (SqlText2_Props): BigQuery and Trino: the value of a matches condition on a date column is written into a CAST without doubling its quotes; a value that is not a date reads as SQL. Trino has standard literals, so this is its only way out.
- `C76_comment_refuted` (SqlText2_Props): A column whose SQL ends with a comment hides the condition: nothing of it is read.
- `C76_case_label_refuted` (SqlText2_Props): A label with a quote ends its literal, on every warehouse: the rest of the label is read as SQL, and the text after it as a literal.
- `C76_reference_refuted` (SqlText3_Props): A value that looks like a reference is expanded as one, inside its quotes: the SQL of that field then reads as SQL.
- `C76_value_spaces_refuted` (SqlText3_Props): A value with two spaces in a row loses one, so another value is asked for.
- `C76_template_refuted` (SqlText3_Props): A value with an opening brace and a percent sign makes the measure have no SQL at all.
- `C77_number_view_refuted` (Deps_Props): A reference to a field of type number that has none of its own leaves no trace: its view is needed by the query but is not one of the views that decide the join graphs.
- `C77_chain_refuted` (Deps_Props): A dimension that refers to another view is not looked through.
- `C77_hidden_refuted` (Deps_Props): A metric whose parts the user may not all see is not a merged result for them, and is one for others.
- `C77_template_refuted` (Deps_Props): A metric of type number with template marks hides what it is computed from from the metrics that refer to it.
- `C78_group_shown_refuted` (Cli_Props): C78: a group is listed by a name that cannot be shown: the names of its timeframes can
- `C78_hidden_shown_refuted` (Cli_Props): A hidden metric is listed on demand and cannot be shown as a metric
- `C78_status_refuted` (Cli_Props): C78: a type that does not exist, a connection that is not there: nothing is found, and the exit status says that all went well
- `C78_profiles_refuted` (Cli_Props): A type that the command knows and never lists
- `C78_debug_refuted` (Cli_Props): One connection whose attributes cannot be printed, and no connection is tried
- `C78_trino_refuted` (Cli_Props): A Trino connection beside others: none of them is tried, for the attributes of a Trino connection cannot be printed (C59)
- `C78_same_name_refuted` (Cli_Props): A name listed that two views have cannot be shown as a field
- `C79_cast_refuted` (RawText_Props): Refuted: a column that writes no alias, but has a spaced as in its expression, is grouped by the text before it, which is no expression
- `C79_capitals_refuted` (RawText_Props): Refuted: a spaced as inside the expression is written in capitals in the group, and not in the column, so that a text in quotes there is another
- `C79_newline_refuted` (RawText_Props): Refuted: an alias written after a line break is grouped with its expression
- `C79_keyword_refuted` (RawText_Props): Refuted: a word that is a keyword or a built in name of SQL is never looked up, though a field may have that name: the clause then uses no field
- `C79_function_refuted` (RawText_Props): Refuted: a clause that calls a function, whose name is a name like any other, is refused for lack of a field of that name
- `C79_no_message_refuted` (RawText_Props): Refuted: a text without a statement, and a text that ends in a name and a dot, stop the query with an IndexError and no message
- `C79_aggregate_refuted` (RawText_Props): Refuted: a column given as text that aggregates is a group as well, which no warehouse accepts
- `C80_hidden_key_refuted` (Users_Props): The answer does depend on the grant of a key. When the key that holds the rows of a query apart may not be seen by the user, no aggregate of the query counts a row once: a sum is a plain sum.
- `C80_numbers_refuted` (Users_Props): So two users who may see everything they ask for get different numbers: customer 1 has three orders and a credit of 10, which is 10 for the user who may see the key of orders and 30 for the one who may not.
- `C80_count_refuted` (Users_Props): A count without sql counts the key of its view for the user who may see it, and every row, with the rows that only the joined views have, for the user who may not.
- `C80_way_refuted` (Users_Props): A view the user may not see is left out of the joins as well: the same request goes another way round, to other rows. Here the region of an order is that of its customer for the user who may see customers, and that of its store for the one who may not.
- `C80_name_refuted` (Users_Props): A name without a view means whatever the user may see: for two users it is two fields, and for one who sees both it is an error.
- `C80_replaced_refuted` (Users_Props): A count the user may not see is replaced by the count of all rows, under the same name.
- `C81_other_rows_refuted` (Args_Props): Asking again restricts the rows more: the conditions of a view reached by a mapped name are not there the first time and are the second, when its field is asked for by name
- `C81_not_merged_refuted` (Args_Props): A query made a merged one by its date mapping is not a merged one when asked again
- `C81_reused_dimensions_refuted` (Args_Props): A list of dimensions used for one query means something else in the next
- `C81_reused_where_refuted` (Args_Props): A list of conditions used for one query brings its always_filter to the next
- `C81_wrapped_twice_refuted` (Args_Props): Conditions wrapped twice inside a group are unwrapped once each time
- `C81_funnel_left_refuted` (Args_Props): A funnel condition is left with the query built for it
- `C81_only_mapped_refuted` (Args_Props): A query of mapped names only: the condition is about another field the second time
- `C82_database_refuted` (ConnDict_Props): A configured database or schema of these is gone.
- `C82_refused_refuted` (ConnDict_Props): Postgres, DuckDB and Trino connections give a dictionary from which no connection can be built.
- `C82_synapse_refuted` (ConnDict_Props): An Azure Synapse connection comes back as one of SQL Server.
- `C82_no_user_refuted` (ConnDict_Props): Without a user Druid, SQL Server and Synapse connections give no dictionary.
- `C83_other_database_refuted` (SeedQuery_Props): Refuted: Druid and Trino read their own database, whatever database is asked for; no column of another one is ever seen.
- `C83_letter_case_refuted` (SeedQuery_Props): Refuted: the later filter reads the schema in any letter case, but the query asks for the schema as it was typed. A schema typed in letters no schema of the warehouse has gives nothing, whatever is there.
- `C83_quote_refuted` (SeedQuery_Props): Refuted: the names are put into the query as they are. A schema with a quote in it is refused by the warehouse or gives nothing, whatever columns it has.
- `C83_limit_refuted` (SeedQuery_Props): Refuted: Snowflake gives at most 10000 columns in all; of a schema with more, the rest is left out without a word.
- `C83_databricks_refuted` (SeedQuery_Props): Refuted: a Databricks connection without a database is refused, though its columns query has a branch for it and its table query is written for it.
- `C83_comment_refuted` (SeedQuery_Props): Refuted: without a schema, a table of the same name in another schema lends its comment; and a table with columns but no row among the tables stops the seeding as soon as any other table has one.
- `C83_one_model_refuted` (SeedQuery_Props): Refuted: the views go to the only model of the project whatever its connection is, and no model of their own connection is written.
- `C83_empty_project_refuted` (SeedQuery_Props): Refuted: with an empty zenlytic_project.yml the views are written but no folder is read, and the file is not written again.
- `C84_time_of_day_refuted` (SeedCheck_Props): Refuted: the time of day is seeded as a moment on the calendar.
- `C84_letter_case_refuted` (SeedCheck_Props): Refuted: data types are known in one letter case only. DuckDB writes its types in capitals and is read with the small letters of Postgres; every such column is seeded as text.
- `C84_precision_refuted` (SeedCheck_Props): Refuted: a type with a length or a precision is not known, so decimal(10,2) and timestamp(3) are seeded as text.
- `C84_missing_refuted` (SeedCheck_Props): Refuted: number types that are not known.
- `C84_key_refuted` (SeedCheck_Props): Refuted: no seeded view names a primary key; the checks of it say so, whatever the columns are.
- `C84_searchable_refuted` (SeedCheck_Props): Refuted: without the tags of searching every column of text is an error.
- `C84_name_refuted` (SeedCheck_Props): Refuted: a column whose cleaned name is no name, such as one of signs alone, is an error.
- `C84_clash_refuted` (SeedCheck_Props): Refuted: two columns whose cleaned names are one are an error.
- `C85_circle_refuted` (Checked_Props): Two dimensions that refer to each other pass, and no query can write them.
- `C85_number_refuted` (Checked_Props): A dimension that refers to a metric of type number passes, and no query can write it.
- `C85_number_circle_refuted` (Checked_Props): Fields of type number in a circle are not reported: with any stack, the validation itself fails.
- `C86_having_refuted` (Columns_Props): A condition on a metric that is also asked for: its column is in the result twice, and the condition names it.
- `C86_key_condition_refuted` (Columns_Props): A condition on the primary key (in the fields of the query, not in its dimensions) takes the column away that the metric counts by.
- `C86_filter_refuted` (Columns_Props): A metric with a filter names the field of the filter, which is no column.
- `C86_two_views_refuted` (Columns_Props): A metric of type number names the primary keys of the views of its parts, of which only its own is a column.
- `C86_distinct_refuted` (Columns_Props): A distinct key is no column, neither for a cumulative metric nor for a funnel.
- `C87_joins_refuted` (Process_Props): With a tie the view after FROM differs from process to process.
- `C87_access_refuted` (Process_Props): Two restricted views: the SQL text has their conditions in the order of the process.
- `C87_funnel_refuted` (Process_Props): Conditions on two metrics: the columns of the result are in another order in another process.
- `C87_message_refuted` (Process_Props): The message about two duplicate names is not the same in every process.
- `C87_date_refuted` (Process_Props): Dimensions of two views with as many measures and the mapped name "date": which of the two dates is meant is left to the process, so the same request has two answers.
- `C88_duration_refuted` (PrecDuration_Props): Two days and four hours
- `C88_week_of_month_refuted` (PrecTime_Props): Stands for the functions of dates: the month begins three weeks earlier
- `C88_dimension_refuted` (Prec_Props): Halving the profit, defined as the revenue less the cost, takes the whole revenue and half of the cost: the text of the dimension referred to is put in without brackets.
- `C88_join_refuted` (Prec_Props): A join on the revenue less the profit of an order: the profit, a difference itself, is taken apart.
- `C88_aggregate_refuted` (Prec_Props): The same inside a sum.
- `C88_measure_refuted` (Prec_Props): An aggregate that refers to an aggregate is of what that one is of: the largest total is the largest single amount.
- `C88_conditions_refuted` (Prec_Props): A filter asking that a dimension defined with OR is true does not hold together with the other conditions: rows that the others exclude are kept.
- `C88_false_refuted` (Prec_Props): Asking that it is false keeps rows where it is true.
- `C88_measure_filters_refuted` (Prec_Props): And a measure filtered on it is taken over rows its other conditions exclude.
