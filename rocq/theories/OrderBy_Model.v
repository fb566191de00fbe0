(** ORDER BY and LIMIT: MetricsLayerQuery._parse_order_by_object and the ordering part of get_query
    (core/sql/query_generator.py:72-76, 120-149, 255-277), the dialects of core/sql/query_dialect.py. *)
From Coq Require Import List String Ascii ZArith Bool.
From Verif Require Import PyBase PyStr.
Import ListNotations.
Local Open Scope string_scope.
Local Open Scope list_scope.

(** ** The text, 124-143 *)
Inductive dir := Asc | Desc.
Definition clean (kw clause : string) : string :=
  strip (replace "nulls first" "" (replace "nulls last" "" (replace kw "" (lower clause)))).
Definition parse_clause (clause : string) : string * dir :=
  if contains "desc" (lower clause) then (clean "desc" clause, Desc) else (clean "asc" clause, Asc).
Definition comma : ascii := ascii_of_nat 44.
Definition parse_order_text (t : string) : list (string * dir) := map parse_clause (split_char comma t).
(** the list of dictionaries, 146-147: a sort that is not desc is ascending (271) *)
Definition parse_sort (sort : option string) : dir :=
  match sort with Some s => if String.eqb (lower s) "desc" then Desc else Asc | None => Asc end.
Definition parse_order_json (l : list (string * option string)) : list (string * dir) :=
  map (fun x => (fst x, parse_sort (snd x))) l.

Inductive order_arg := NoOrder | OrderText (t : string) | OrderJson (l : list (string * option string)).
(** [if order_by] : None, "" and [] do not ask for an order *)
Definition asked (o : order_arg) : bool :=
  match o with NoOrder => false | OrderText t => negb (String.eqb t "") | OrderJson l => match l with [] => false | _ => true end end.

(** ** The clauses of the query *)
Inductive nulls := NullsFirst | NullsLast.
Record clause := Clause { cl_column : string; cl_dir : dir; cl_nulls : option nulls }.
(** arguments of the generator: None is {"field": "__DEFAULT__"} *)
Definition order_args (qt : string) (no_group_by : bool) (o : order_arg) : res (list (option (string * dir))) :=
  if asked o then
    if no_group_by then Err ArgumentError
    else Ok (map Some (match o with OrderText t => parse_order_text t | OrderJson l => parse_order_json l | NoOrder => [] end))
  else if mem qt ["SNOWFLAKE"; "REDSHIFT"; "DUCK_DB"] then Ok [None] else Ok [].

Section Query.
  (** design.get_field: the field's alias with its view, and whether it is a measure *)
  Variable get_field : string -> res (string * bool).
  Definition order_clause (fields : list string) (a : option (string * dir)) : res (list clause) :=
    match a with
    | None => match fields with
              | [] => Ok []
              | f :: _ => x <- get_field f ;; Ok [Clause (fst x) (if snd x then Desc else Asc) (Some NullsLast)]
              end
    | Some (f, d) => x <- get_field f ;; Ok [Clause (fst x) d (Some NullsLast)]
    end.
  (** 255-272; all_fields = metrics + dimensions *)
  Definition order_clauses (no_group_by : bool) (metrics dimensions : list string) (args : list (option (string * dir))) : res (list clause) :=
    if no_group_by then Ok [] else l <- mapM (order_clause (metrics ++ dimensions)) args ;; Ok (List.concat l).

  (** Which generators use the order and the limit: query_generator.py:255-274; query_arbitrary_merged_queries.py:44-58;
      query_cumulative_metric.py:83, query_funnel.py:83 and query_merged_results.py:30 (with merged_query_resolve.py:71)
      use the limit only. *)
  Inductive kind := Single | Arbitrary | Cumulative | Funnel | Merged.
  Definition outer_order (k : kind) (clauses : list clause) : list clause :=
    match k with Single | Arbitrary => clauses | Cumulative | Funnel | Merged => [] end.
End Query.

(** ** The dialects, query_dialect.py:190-201 with 68-107 and 172-177.  PostgreSQLQueryBuilder and MSSQLQueryBuilder
    are pypika's own: they print no null ordering. *)
Inductive builder := SnowflakeBuilder | RedshiftBuilder | PostgresNullsBuilder | PostgresBuilder | MssqlBuilder.
Definition query_lookup (qt : string) : res builder :=
  match find (fun x => String.eqb (fst x) qt)
    [("SNOWFLAKE", SnowflakeBuilder); ("BIGQUERY", SnowflakeBuilder); ("REDSHIFT", RedshiftBuilder); ("POSTGRES", PostgresNullsBuilder);
     ("DRUID", PostgresBuilder); ("DUCK_DB", PostgresNullsBuilder); ("DATABRICKS", PostgresNullsBuilder); ("TRINO", PostgresNullsBuilder);
     ("SQL_SERVER", MssqlBuilder); ("AZURE_SYNAPSE", MssqlBuilder)] with
  | Some x => Ok (snd x) | None => Err KeyError
  end.
Definition prints_nulls (b : builder) : bool := match b with PostgresBuilder | MssqlBuilder => false | _ => true end.
(** 101-105: what the printed clause says *)
Definition printed (b : builder) (c : clause) : clause :=
  Clause (cl_column c) (cl_dir c) (if prints_nulls b then cl_nulls c else None).
Definition clause_text (c : clause) : string :=
  (cl_column c ++ (match cl_dir c with Asc => " ASC" | Desc => " DESC" end)
    ++ match cl_nulls c with Some NullsLast => " NULLS LAST" | Some NullsFirst => " NULLS FIRST" | None => "" end)%string.
Definition orderby_sql (b : builder) (l : list clause) : string :=
  match l with [] => "" | _ => (" ORDER BY " ++ join_with "," (map (fun c => clause_text (printed b c)) l))%string end.
(** where the limit is written: TOP in the select of T-SQL, else LIMIT at the end *)
Definition top_sql (b : builder) (limit : option nat) : string :=
  match b, limit with MssqlBuilder, Some n => ("TOP (" ++ nat_str n ++ ") ")%string | _, _ => "" end.
Definition limit_sql (b : builder) (limit : option nat) : string :=
  match b, limit with MssqlBuilder, _ => "" | _, Some n => (" LIMIT " ++ nat_str n)%string | _, None => "" end.
