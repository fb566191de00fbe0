(** Week groupings of a time dimension (core/model/field.py:1013-1341, 1384-1468).
    The SQL text is kept as an expression tree: one constructor per piece of syntax the code emits. *)
From Verif Require Import PyBase PyStr.
Local Open Scope string_scope.
Local Open Scope Z_scope.

Inductive unit_ := UDay | UWeek | UMonth.
(** [DCol]: the dimension's own sql *)
Inductive dexpr :=
| DCol
| DCastDate (e : dexpr)                  (* CAST(e AS DATE) *)
| DCastTs (e : dexpr)                    (* CAST(e AS TIMESTAMP), CAST(e AS DATETIME) and the bigquery casts to the column's type *)
| DPlus (e : dexpr) (n : Z)              (* e + n, e - n on dates *)
| DPlusInterval (e : dexpr) (n : Z)      (* e + INTERVAL 'n' DAY *)
| DTrunc (u : unit_) (e : dexpr)         (* DATE_TRUNC('u', e), DATE_TRUNC(e, u) *)
| DAdd (u : unit_) (n : Z) (e : dexpr)   (* DATEADD(u, n, e) *)
| DAddDiff (u : unit_) (e : dexpr)       (* DATEADD(u, DATEDIFF(u, 0, e), 0) *)
| DWeekNo (e : dexpr)                    (* EXTRACT(WEEK FROM e) *)
| DMinusPlus1 (a b : dexpr).             (* a - b + 1 *)

(** offset_lookup, 1390-1397 and 1435-1442 *)
Definition offset_lookup : list (string * Z) :=
  [("sunday", 1); ("saturday", 2); ("friday", 3); ("thursday", 4); ("wednesday", 5); ("tuesday", 6)].

Definition in_q (qt : string) (l : list string) : bool := mem qt l.
Definition q_interval : list string := ["POSTGRES"; "DRUID"; "DUCK_DB"; "DATABRICKS"; "TRINO"].

(** _week_sql_date_trunc, 1403-1429 *)
Definition week_sql_date_trunc (sql : dexpr) (offset : option Z) (qt : string) : res dexpr :=
  let casted := DCastDate sql in
  if mem qt ["SNOWFLAKE"; "REDSHIFT"] then
    Ok (match offset with None => DTrunc UWeek casted | Some o => DPlus (DTrunc UWeek (DPlus casted o)) (- o) end)
  else if mem qt q_interval then
    Ok (match offset with None => DTrunc UWeek (DCastTs sql) | Some o => DPlusInterval (DTrunc UWeek (DPlusInterval (DCastTs sql) o)) (- o) end)
  else if String.eqb qt "BIGQUERY" then
    Ok (match offset with None => DTrunc UWeek casted | Some o => DPlus (DTrunc UWeek (DPlus casted o)) (- o) end)
  else if mem qt ["SQL_SERVER"; "AZURE_SYNAPSE"] then
    Ok (match offset with None => DAddDiff UWeek casted | Some o => DAdd UDay (- o) (DAddDiff UWeek (DAdd UDay o casted)) end)
  else Err QueryError.

(** _week_dimension_group_time_sql, 1384-1401; in bigquery the lookup's own entry casts once more (1283-1285) *)
Definition week_sql (wsd qt : string) : res dexpr :=
  e <- (if String.eqb wsd "monday" then week_sql_date_trunc DCol None qt
        else match assoc wsd offset_lookup with
             | None => Err KeyError
             | Some o => e <- week_sql_date_trunc DCol (Some o) qt ;; Ok (if String.eqb qt "BIGQUERY" then DCastTs e else e)
             end) ;;
  Ok (if String.eqb qt "BIGQUERY" then DCastTs e else e).

(** _apply_week_start_day_offset_only, 1431-1468 *)
Definition week_offset_only (sql : dexpr) (wsd qt : string) : res dexpr :=
  let offset := assoc wsd offset_lookup in
  let casted := DCastDate sql in
  if mem qt ["SNOWFLAKE"; "REDSHIFT"] then
    Ok (DTrunc UDay (match offset with None => casted | Some o => DPlus casted o end))
  else if mem qt q_interval then
    Ok (DTrunc UDay (match offset with None => DCastTs sql | Some o => DPlusInterval (DCastTs sql) o end))
  else if String.eqb qt "BIGQUERY" then
    Ok (DTrunc UDay (match offset with None => casted | Some o => DPlus casted o end))
  else if mem qt ["SQL_SERVER"; "AZURE_SYNAPSE"] then
    Ok (DCastTs (match offset with None => casted | Some o => DAdd UDay o casted end))
  else Err QueryError.

(** "week_index" and "week_of_year": snowflake 1033-1035, 1337; the other warehouses wrap the argument in
    a cast, which does not change it *)
Definition week_index_sql (wsd qt : string) : res dexpr := e <- week_offset_only DCol wsd qt ;; Ok (DWeekNo e).
(** "week_of_month", snowflake 1036-1038 *)
Definition week_of_month_sql : dexpr := DMinusPlus1 (DWeekNo DCol) (DWeekNo (DTrunc UMonth DCol)).
