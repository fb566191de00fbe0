(** The columns that the outer parts of funnels and cumulative metrics name, and the columns of the query they read from:
    Field.sql_query with alias_only (core/model/field.py:489-830), MetricsLayerQuery._get_no_group_by_select_columns
    (core/sql/query_generator.py:299-337), FunnelQuery (core/sql/query_funnel.py:81-162, 186-257) and
    CumulativeMetricsQuery.cumulative_subquery and aggregate_cumulative_subquery (core/sql/query_cumulative_metric.py:144-201,
    221-237). *)
From Coq Require Import List String Ascii Bool.
From Verif Require Import PyBase PyStr PyRefs.
Import ListNotations.
Local Open Scope string_scope.
Local Open Scope list_scope.

(** What these functions read of a field.  [k_filters] are the fields of its filters (those with field and value that give
    a condition), [k_key] is sql_distinct_key, without template and not empty. *)
Record kfield := KField {
  k_id : string;
  k_view : string;
  k_alias : string;
  k_measure : bool;
  k_type : string;
  k_sql : option string;
  k_filters : list string;
  k_key : option string;
  k_pk_count : bool
}.
Section Columns.
  Variable get_field : string -> string -> res kfield.   (* get_field_with_view_info: the view, the reference *)
  Variable primary_key : string -> option kfield.        (* of a view, a dimension; view.py:primary_key *)
  Variable supported : bool.                             (* query_type in symmetric_aggregates_supported_warehouses *)
  Variable has_median : bool.

  Definition number_measure (f : kfield) : bool := k_measure f && String.eqb (k_type f) "number".
  Definition marked (f : kfield) : bool := match k_sql f with Some s => contains "{%" s | None => false end.

  (** ** The columns named by sql_query(alias_only=True) *)
  (** replace_fields with alias_only, 2585-2603: a metric of type number is a list *)
  Definition alias_ref (view t : string) : res (list string) :=
    if String.eqb t "TABLE" then Ok [] else g <- get_field view t ;; if number_measure g then Err QueryError else Ok [k_alias g].
  Definition filter_columns (f : kfield) : res (list string) := concatM (alias_ref (k_view f)) (k_filters f).
  (** the primary key in symmetric aggregates, 567-585 and 617-755: its alias inside the filters of the field *)
  Definition pk_columns (f : kfield) : res (list string) :=
    match primary_key (k_view f) with
    | None => Err QueryError
    | Some p => fs <- filter_columns f ;; Ok (k_alias f :: fs ++ [k_alias p])
    end.
  (** sum_distinct and average_distinct, 598-604 and 740-755: without a key and filters it is the primary key *)
  Definition distinct_columns (f : kfield) : res (list string) :=
    match k_key f with
    | Some s => fs <- filter_columns f ;; ks <- concatM (alias_ref (k_view f)) (fields_to_replace s) ;; Ok (k_alias f :: fs ++ ks)
    | None => match k_filters f with
              | [] => match primary_key (k_view f) with Some p => Ok [k_alias f; k_alias p] | None => Err AttributeError end
              | _ => fs <- filter_columns f ;; Ok (k_alias f :: fs)
              end
    end.
  (** aggregate_sql_query, 517-537, for a field that is no metric of type number; [apart]: the functional primary key is not
      the one of the field (funnels) or is not given (cumulative metrics) *)
  Definition own_columns (apart : bool) (f : kfield) : res (list string) :=
    if negb (k_measure f) then Ok [k_alias f]
    else if mem (k_type f) ["sum"; "average"] then if supported && apart then pk_columns f else Ok [k_alias f]
    else if String.eqb (k_type f) "count" then if supported && apart && negb (k_pk_count f) then pk_columns f
                                               else if supported && apart then match primary_key (k_view f) with None => Err QueryError | Some _ => Ok [k_alias f] end
                                               else Ok [k_alias f]
    else if mem (k_type f) ["sum_distinct"; "average_distinct"] then if supported then distinct_columns f else Err QueryError
    else if mem (k_type f) ["count_distinct"; "max"; "min"] then Ok [k_alias f]
    else if String.eqb (k_type f) "median" then if has_median then Ok [k_alias f] else Err QueryError
    else Err QueryError.
  (** sql_query, 494-508, with _number_aggregate_sql, 784-803.  A cumulative metric names a column of its own CTE, not
      modelled; columns written after ${TABLE} are text, not modelled. *)
  Fixpoint used (fuel : nat) (apart : bool) (f : kfield) : res (list string) :=
    match fuel with
    | O => Err RecursionError
    | S n =>
        if String.eqb (k_type f) "cumulative" then Err NotImplemented
        else if number_measure f then
          if marked f then Err NotImplemented
          else match k_sql f with
               | None => Err TypeError
               | Some s => concatM (fun t => if String.eqb t "TABLE" then Ok [] else g <- get_field (k_view f) t ;; used n apart g) (fields_to_replace s)
               end
        else own_columns apart f
    end.

  (** ** The columns of the query without groups *)
  (** referenced_fields, 2524-2548, without the references that were not found (2519-2521) *)
  Fixpoint leaves (fuel : nat) (view : string) (sql : option string) : res (list kfield) :=
    match fuel with
    | O => Err RecursionError
    | S n =>
        match sql with
        | None => Ok []
        | Some s => concatM (fun t => if String.eqb t "TABLE" then Ok []
                                      else match get_field view t with
                                           | Err AccessDenied => Ok []
                                           | Err e => Err e
                                           | Ok g => if String.eqb (k_type g) "number" then if marked g then Ok [] else leaves n (k_view g) (k_sql g) else Ok [g]
                                           end) (fields_to_replace s)
        end
    end.
  (** _sql_from_field_no_group_by, query_generator.py:311-327; the references are found again under their names; that sql
      can be expanded is C39 and C85 *)
  Definition plain_column (f : kfield) : list string := if marked f then [] else [k_alias f].
  Definition provided (fuel : nat) (f : kfield) : res (list string) :=
    if number_measure f then
      if marked f then Ok [] else ls <- leaves fuel (k_view f) (k_sql f) ;; Ok (flat_map plain_column ls)
    else Ok (plain_column f).
  (** 299-309 and 329-337: the order of the columns is left out *)
  Definition columns (fuel : nat) (fs : list kfield) : res (list string) := cs <- concatM (provided fuel) fs ;; Ok (dedup cs).

  (** ** Funnels *)
  (** _enrich_query_design, query_funnel.py:242-257: the primary keys added to the dimensions; [seen] are the ids of the
      fields the query has already *)
  Fixpoint added_keys (seen : list string) (ms : list kfield) : res (list kfield) :=
    match ms with
    | [] => Ok []
    | m :: r =>
        match primary_key (k_view m) with
        | None => Err AttributeError
        | Some p => if mem (k_id p) seen then added_keys (k_id m :: seen) r
                    else ks <- added_keys (k_id m :: k_id p :: seen) r ;; Ok (p :: ks)
        end
    end.
  (** get_funnel_base and _subquery, 126-149 and 223-240: [ds] are the dimensions asked for, the event date, the link and
      the fields of the steps, [seen] the fields of metrics, dimensions, where, having and order *)
  Definition funnel_columns (fuel : nat) (seen : list string) (ms ds : list kfield) : res (list string) :=
    ks <- added_keys (map k_id ds ++ seen) ms ;; columns fuel (ds ++ ks ++ ms).
  (** _get_base_select, 86-99, after the metrics of the having clause were added (132-133): the names of the result *)
  Definition funnel_names (ms dims : list kfield) : list string := "step" :: "step_order" :: map k_alias (ms ++ dims).

  (** ** Cumulative metrics *)
  (** cumulative_subquery, query_cumulative_metric.py:144-166, 176-201: the measure with the dimensions and the date *)
  Definition cumulative_columns (fuel : nat) (m : kfield) (ds : list kfield) : res (list string) := columns fuel (ds ++ [m]).
End Columns.
