(** The texts of the timeframes as they stand in core/model/field.py:1014-1337, one template per warehouse and timeframe. The
    tables were taken from the f-strings of the source by a script that reads its syntax tree; nothing of the model is used.
    Weeks are left out (Week_Model.v). One text is changed: " as DATETIME" of BigQuery's month_of_year (field.py) is written with
    AS here, as everywhere else. *)
From Coq Require Import List String ZArith Bool.
Import ListNotations.
Local Open Scope string_scope.
Local Open Scope list_scope.

(** a piece of an f-string: a text, the sql, the sql with the fiscal offset, or the datatype in capitals *)
Inductive piece := Lit (t : string) | Sql | Moved | Datatype.
Definition fill (s f d : string) (l : list piece) : string :=
  List.fold_right (fun p r => (match p with Lit t => t | Sql => s | Moved => f | Datatype => d end ++ r)%string) "" l.

(** field.py:1015-1052 *)
Definition snowflake_text : list (string * list piece) :=
  [("raw", [Sql]);
   ("time", [Lit "CAST("; Sql; Lit " AS TIMESTAMP)"]);
   ("second", [Lit "DATE_TRUNC('SECOND', "; Sql; Lit ")"]);
   ("minute", [Lit "DATE_TRUNC('MINUTE', "; Sql; Lit ")"]);
   ("hour", [Lit "DATE_TRUNC('HOUR', "; Sql; Lit ")"]);
   ("date", [Lit "DATE_TRUNC('DAY', "; Sql; Lit ")"]);
   ("month", [Lit "DATE_TRUNC('MONTH', "; Sql; Lit ")"]);
   ("quarter", [Lit "DATE_TRUNC('QUARTER', "; Sql; Lit ")"]);
   ("year", [Lit "DATE_TRUNC('YEAR', "; Sql; Lit ")"]);
   ("fiscal_month", [Lit "DATE_TRUNC('MONTH', "; Moved; Lit ")"]);
   ("fiscal_quarter", [Lit "DATE_TRUNC('QUARTER', "; Moved; Lit ")"]);
   ("fiscal_year", [Lit "DATE_TRUNC('YEAR', "; Moved; Lit ")"]);
   ("month_of_year_index", [Lit "EXTRACT(MONTH FROM "; Sql; Lit ")"]);
   ("fiscal_month_of_year_index", [Lit "EXTRACT(MONTH FROM "; Moved; Lit ")"]);
   ("month_of_year", [Lit "TO_CHAR(CAST("; Sql; Lit " AS TIMESTAMP), 'Mon')"]);
   ("quarter_of_year", [Lit "EXTRACT(QUARTER FROM "; Sql; Lit ")"]);
   ("fiscal_quarter_of_year", [Lit "EXTRACT(QUARTER FROM "; Moved; Lit ")"]);
   ("hour_of_day", [Lit "EXTRACT(HOUR FROM CAST("; Sql; Lit " AS TIMESTAMP))"]);
   ("day_of_week", [Lit "TO_CHAR(CAST("; Sql; Lit " AS TIMESTAMP), 'Dy')"]);
   ("day_of_month", [Lit "EXTRACT(DAY FROM "; Sql; Lit ")"]);
   ("day_of_year", [Lit "EXTRACT(DOY FROM "; Sql; Lit ")"])].
(** field.py:1053-1093 *)
Definition databricks_text : list (string * list piece) :=
  [("raw", [Sql]);
   ("time", [Lit "CAST("; Sql; Lit " AS TIMESTAMP)"]);
   ("second", [Lit "DATE_TRUNC('SECOND', CAST("; Sql; Lit " AS TIMESTAMP))"]);
   ("minute", [Lit "DATE_TRUNC('MINUTE', CAST("; Sql; Lit " AS TIMESTAMP))"]);
   ("hour", [Lit "DATE_TRUNC('HOUR', CAST("; Sql; Lit " AS TIMESTAMP))"]);
   ("date", [Lit "DATE_TRUNC('DAY', CAST("; Sql; Lit " AS TIMESTAMP))"]);
   ("month", [Lit "DATE_TRUNC('MONTH', CAST("; Sql; Lit " AS TIMESTAMP))"]);
   ("quarter", [Lit "DATE_TRUNC('QUARTER', CAST("; Sql; Lit " AS TIMESTAMP))"]);
   ("year", [Lit "DATE_TRUNC('YEAR', CAST("; Sql; Lit " AS TIMESTAMP))"]);
   ("fiscal_month", [Lit "DATE_TRUNC('MONTH', CAST("; Moved; Lit " AS TIMESTAMP))"]);
   ("fiscal_quarter", [Lit "DATE_TRUNC('QUARTER', CAST("; Moved; Lit " AS TIMESTAMP))"]);
   ("fiscal_year", [Lit "DATE_TRUNC('YEAR', CAST("; Moved; Lit " AS TIMESTAMP))"]);
   ("month_of_year_index", [Lit "EXTRACT(MONTH FROM CAST("; Sql; Lit " AS TIMESTAMP))"]);
   ("fiscal_month_of_year_index", [Lit "EXTRACT(MONTH FROM CAST("; Moved; Lit " AS TIMESTAMP))"]);
   ("month_of_year", [Lit "DATE_FORMAT(CAST("; Sql; Lit " AS TIMESTAMP), 'MMM')"]);
   ("quarter_of_year", [Lit "EXTRACT(QUARTER FROM CAST("; Sql; Lit " AS TIMESTAMP))"]);
   ("fiscal_quarter_of_year", [Lit "EXTRACT(QUARTER FROM CAST("; Moved; Lit " AS TIMESTAMP))"]);
   ("hour_of_day", [Lit "EXTRACT(HOUR FROM CAST("; Sql; Lit " AS TIMESTAMP))"]);
   ("day_of_week", [Lit "DATE_FORMAT(CAST("; Sql; Lit " AS TIMESTAMP), 'E')"]);
   ("day_of_month", [Lit "EXTRACT(DAY FROM CAST("; Sql; Lit " AS TIMESTAMP))"]);
   ("day_of_year", [Lit "EXTRACT(DOY FROM CAST("; Sql; Lit " AS TIMESTAMP))"])].
(** field.py:1094-1134 *)
Definition postgres_text : list (string * list piece) :=
  [("raw", [Sql]);
   ("time", [Lit "CAST("; Sql; Lit " AS TIMESTAMP)"]);
   ("second", [Lit "DATE_TRUNC('SECOND', CAST("; Sql; Lit " AS TIMESTAMP))"]);
   ("minute", [Lit "DATE_TRUNC('MINUTE', CAST("; Sql; Lit " AS TIMESTAMP))"]);
   ("hour", [Lit "DATE_TRUNC('HOUR', CAST("; Sql; Lit " AS TIMESTAMP))"]);
   ("date", [Lit "DATE_TRUNC('DAY', CAST("; Sql; Lit " AS TIMESTAMP))"]);
   ("month", [Lit "DATE_TRUNC('MONTH', CAST("; Sql; Lit " AS TIMESTAMP))"]);
   ("quarter", [Lit "DATE_TRUNC('QUARTER', CAST("; Sql; Lit " AS TIMESTAMP))"]);
   ("year", [Lit "DATE_TRUNC('YEAR', CAST("; Sql; Lit " AS TIMESTAMP))"]);
   ("fiscal_month", [Lit "DATE_TRUNC('MONTH', CAST("; Moved; Lit " AS TIMESTAMP))"]);
   ("fiscal_quarter", [Lit "DATE_TRUNC('QUARTER', CAST("; Moved; Lit " AS TIMESTAMP))"]);
   ("fiscal_year", [Lit "DATE_TRUNC('YEAR', CAST("; Moved; Lit " AS TIMESTAMP))"]);
   ("month_of_year_index", [Lit "EXTRACT(MONTH FROM CAST("; Sql; Lit " AS TIMESTAMP))"]);
   ("fiscal_month_of_year_index", [Lit "EXTRACT(MONTH FROM CAST("; Moved; Lit " AS TIMESTAMP))"]);
   ("month_of_year", [Lit "TO_CHAR(CAST("; Sql; Lit " AS TIMESTAMP), 'Mon')"]);
   ("quarter_of_year", [Lit "EXTRACT(QUARTER FROM CAST("; Sql; Lit " AS TIMESTAMP))"]);
   ("fiscal_quarter_of_year", [Lit "EXTRACT(QUARTER FROM CAST("; Moved; Lit " AS TIMESTAMP))"]);
   ("hour_of_day", [Lit "EXTRACT('HOUR' FROM CAST("; Sql; Lit " AS TIMESTAMP))"]);
   ("day_of_week", [Lit "TO_CHAR(CAST("; Sql; Lit " AS TIMESTAMP), 'Dy')"]);
   ("day_of_month", [Lit "EXTRACT('DAY' FROM CAST("; Sql; Lit " AS TIMESTAMP))"]);
   ("day_of_year", [Lit "EXTRACT('DOY' FROM CAST("; Sql; Lit " AS TIMESTAMP))"])].
(** field.py:1135-1175 *)
Definition trino_text : list (string * list piece) :=
  [("raw", [Sql]);
   ("time", [Lit "CAST("; Sql; Lit " AS TIMESTAMP)"]);
   ("second", [Lit "DATE_TRUNC('SECOND', CAST("; Sql; Lit " AS TIMESTAMP))"]);
   ("minute", [Lit "DATE_TRUNC('MINUTE', CAST("; Sql; Lit " AS TIMESTAMP))"]);
   ("hour", [Lit "DATE_TRUNC('HOUR', CAST("; Sql; Lit " AS TIMESTAMP))"]);
   ("date", [Lit "DATE_TRUNC('DAY', CAST("; Sql; Lit " AS TIMESTAMP))"]);
   ("month", [Lit "DATE_TRUNC('MONTH', CAST("; Sql; Lit " AS TIMESTAMP))"]);
   ("quarter", [Lit "DATE_TRUNC('QUARTER', CAST("; Sql; Lit " AS TIMESTAMP))"]);
   ("year", [Lit "DATE_TRUNC('YEAR', CAST("; Sql; Lit " AS TIMESTAMP))"]);
   ("fiscal_month", [Lit "DATE_TRUNC('MONTH', CAST("; Moved; Lit " AS TIMESTAMP))"]);
   ("fiscal_quarter", [Lit "DATE_TRUNC('QUARTER', CAST("; Moved; Lit " AS TIMESTAMP))"]);
   ("fiscal_year", [Lit "DATE_TRUNC('YEAR', CAST("; Moved; Lit " AS TIMESTAMP))"]);
   ("month_of_year_index", [Lit "EXTRACT(MONTH FROM CAST("; Sql; Lit " AS TIMESTAMP))"]);
   ("fiscal_month_of_year_index", [Lit "EXTRACT(MONTH FROM CAST("; Moved; Lit " AS TIMESTAMP))"]);
   ("month_of_year", [Lit "FORMAT_DATETIME(CAST("; Sql; Lit " AS TIMESTAMP), 'MMM')"]);
   ("quarter_of_year", [Lit "EXTRACT(QUARTER FROM CAST("; Sql; Lit " AS TIMESTAMP))"]);
   ("fiscal_quarter_of_year", [Lit "EXTRACT(QUARTER FROM CAST("; Moved; Lit " AS TIMESTAMP))"]);
   ("hour_of_day", [Lit "EXTRACT(HOUR FROM CAST("; Sql; Lit " AS TIMESTAMP))"]);
   ("day_of_week", [Lit "FORMAT_DATETIME(CAST("; Sql; Lit " AS TIMESTAMP), 'EEE')"]);
   ("day_of_month", [Lit "EXTRACT(DAY FROM CAST("; Sql; Lit " AS TIMESTAMP))"]);
   ("day_of_year", [Lit "EXTRACT(DOY FROM CAST("; Sql; Lit " AS TIMESTAMP))"])].
(** field.py:1176-1225 *)
Definition druid_text : list (string * list piece) :=
  [("raw", [Sql]);
   ("time", [Lit "CAST("; Sql; Lit " AS TIMESTAMP)"]);
   ("second", [Lit "DATE_TRUNC('SECOND', CAST("; Sql; Lit " AS TIMESTAMP))"]);
   ("minute", [Lit "DATE_TRUNC('MINUTE', CAST("; Sql; Lit " AS TIMESTAMP))"]);
   ("hour", [Lit "DATE_TRUNC('HOUR', CAST("; Sql; Lit " AS TIMESTAMP))"]);
   ("date", [Lit "DATE_TRUNC('DAY', CAST("; Sql; Lit " AS TIMESTAMP))"]);
   ("month", [Lit "DATE_TRUNC('MONTH', CAST("; Sql; Lit " AS TIMESTAMP))"]);
   ("quarter", [Lit "DATE_TRUNC('QUARTER', CAST("; Sql; Lit " AS TIMESTAMP))"]);
   ("year", [Lit "DATE_TRUNC('YEAR', CAST("; Sql; Lit " AS TIMESTAMP))"]);
   ("fiscal_month", [Lit "DATE_TRUNC('MONTH', CAST("; Moved; Lit " AS TIMESTAMP))"]);
   ("fiscal_quarter", [Lit "DATE_TRUNC('QUARTER', CAST("; Moved; Lit " AS TIMESTAMP))"]);
   ("fiscal_year", [Lit "DATE_TRUNC('YEAR', CAST("; Moved; Lit " AS TIMESTAMP))"]);
   ("month_of_year_index", [Lit "EXTRACT(MONTH FROM CAST("; Sql; Lit " AS TIMESTAMP))"]);
   ("fiscal_month_of_year_index", [Lit "EXTRACT(MONTH FROM CAST("; Moved; Lit " AS TIMESTAMP))"]);
   ("month_of_year", [Lit "CASE EXTRACT(MONTH FROM CAST("; Sql; Lit " AS TIMESTAMP)) WHEN 1 THEN 'Jan' WHEN 2 THEN 'Feb' WHEN 3 THEN 'Mar' WHEN 4 THEN 'Apr' WHEN 5 THEN 'May' WHEN 6 THEN 'Jun' WHEN 7 THEN 'Jul' WHEN 8 THEN 'Aug' WHEN 9 THEN 'Sep' WHEN 10 THEN 'Oct' WHEN 11 THEN 'Nov' WHEN 12 THEN 'Dec' ELSE 'Invalid Month' END"]);
   ("quarter_of_year", [Lit "EXTRACT(QUARTER FROM CAST("; Sql; Lit " AS TIMESTAMP))"]);
   ("fiscal_quarter_of_year", [Lit "EXTRACT(QUARTER FROM CAST("; Moved; Lit " AS TIMESTAMP))"]);
   ("hour_of_day", [Lit "EXTRACT(HOUR FROM CAST("; Sql; Lit " AS TIMESTAMP))"]);
   ("day_of_week", [Lit "CASE EXTRACT(DOW FROM CAST("; Sql; Lit " AS TIMESTAMP)) WHEN 1 THEN 'Mon' WHEN 2 THEN 'Tue' WHEN 3 THEN 'Wed' WHEN 4 THEN 'Thu' WHEN 5 THEN 'Fri' WHEN 6 THEN 'Sat' WHEN 7 THEN 'Sun' ELSE 'Invalid Day' END"]);
   ("day_of_month", [Lit "EXTRACT(DAY FROM CAST("; Sql; Lit " AS TIMESTAMP))"]);
   ("day_of_year", [Lit "EXTRACT(DOY FROM CAST("; Sql; Lit " AS TIMESTAMP))"])].
(** field.py:1226-1269 *)
Definition sql_server_text : list (string * list piece) :=
  [("raw", [Sql]);
   ("time", [Lit "CAST("; Sql; Lit " AS DATETIME)"]);
   ("second", [Lit "DATEADD(SECOND, DATEDIFF(SECOND, 0, CAST("; Sql; Lit " AS DATETIME)), 0)"]);
   ("minute", [Lit "DATEADD(MINUTE, DATEDIFF(MINUTE, 0, CAST("; Sql; Lit " AS DATETIME)), 0)"]);
   ("hour", [Lit "DATEADD(HOUR, DATEDIFF(HOUR, 0, CAST("; Sql; Lit " AS DATETIME)), 0)"]);
   ("date", [Lit "CAST(CAST("; Sql; Lit " AS DATE) AS DATETIME)"]);
   ("month", [Lit "DATEADD(MONTH, DATEDIFF(MONTH, 0, CAST("; Sql; Lit " AS DATE)), 0)"]);
   ("quarter", [Lit "DATEADD(QUARTER, DATEDIFF(QUARTER, 0, CAST("; Sql; Lit " AS DATE)), 0)"]);
   ("year", [Lit "DATEADD(YEAR, DATEDIFF(YEAR, 0, CAST("; Sql; Lit " AS DATE)), 0)"]);
   ("fiscal_month", [Lit "DATEADD(MONTH, DATEDIFF(MONTH, 0, CAST("; Moved; Lit " AS DATE)), 0)"]);
   ("fiscal_quarter", [Lit "DATEADD(QUARTER, DATEDIFF(QUARTER, 0, CAST("; Moved; Lit " AS DATE)), 0)"]);
   ("fiscal_year", [Lit "DATEADD(YEAR, DATEDIFF(YEAR, 0, CAST("; Moved; Lit " AS DATE)), 0)"]);
   ("month_of_year_index", [Lit "EXTRACT(MONTH FROM CAST("; Sql; Lit " AS DATE))"]);
   ("fiscal_month_of_year_index", [Lit "EXTRACT(MONTH FROM CAST("; Moved; Lit " AS DATE))"]);
   ("month_of_year", [Lit "LEFT(DATENAME(MONTH, CAST("; Sql; Lit " AS DATE)), 3)"]);
   ("quarter_of_year", [Lit "DATEPART(QUARTER, CAST("; Sql; Lit " AS DATE))"]);
   ("fiscal_quarter_of_year", [Lit "DATEPART(QUARTER, CAST("; Moved; Lit " AS DATE))"]);
   ("hour_of_day", [Lit "DATEPART(HOUR, CAST("; Sql; Lit " AS DATETIME))"]);
   ("day_of_week", [Lit "LEFT(DATENAME(WEEKDAY, CAST("; Sql; Lit " AS DATE)), 3)"]);
   ("day_of_month", [Lit "DATEPART(DAY, CAST("; Sql; Lit " AS DATE))"]);
   ("day_of_year", [Lit "DATEPART(Y, CAST("; Sql; Lit " AS DATE))"])].
(** field.py:1270-1324 *)
Definition bigquery_text : list (string * list piece) :=
  [("raw", [Sql]);
   ("time", [Lit "CAST("; Sql; Lit " AS TIMESTAMP)"]);
   ("second", [Lit "CAST(DATETIME_TRUNC(CAST("; Sql; Lit " AS DATETIME), SECOND) AS "; Datatype; Lit ")"]);
   ("minute", [Lit "CAST(DATETIME_TRUNC(CAST("; Sql; Lit " AS DATETIME), MINUTE) AS "; Datatype; Lit ")"]);
   ("hour", [Lit "CAST(DATETIME_TRUNC(CAST("; Sql; Lit " AS DATETIME), HOUR) AS "; Datatype; Lit ")"]);
   ("date", [Lit "CAST(DATE_TRUNC(CAST("; Sql; Lit " AS DATE), DAY) AS "; Datatype; Lit ")"]);
   ("month", [Lit "CAST(DATE_TRUNC(CAST("; Sql; Lit " AS DATE), MONTH) AS "; Datatype; Lit ")"]);
   ("quarter", [Lit "CAST(DATE_TRUNC(CAST("; Sql; Lit " AS DATE), QUARTER) AS "; Datatype; Lit ")"]);
   ("year", [Lit "CAST(DATE_TRUNC(CAST("; Sql; Lit " AS DATE), YEAR) AS "; Datatype; Lit ")"]);
   ("fiscal_month", [Lit "CAST(DATE_TRUNC(CAST("; Moved; Lit " AS DATE), MONTH) AS "; Datatype; Lit ")"]);
   ("fiscal_quarter", [Lit "CAST(DATE_TRUNC(CAST("; Moved; Lit " AS DATE), QUARTER) AS "; Datatype; Lit ")"]);
   ("fiscal_year", [Lit "CAST(DATE_TRUNC(CAST("; Moved; Lit " AS DATE), YEAR) AS "; Datatype; Lit ")"]);
   ("month_of_year_index", [Lit "EXTRACT(MONTH FROM "; Sql; Lit ")"]);
   ("fiscal_month_of_year_index", [Lit "EXTRACT(MONTH FROM "; Moved; Lit ")"]);
   ("month_of_year", [Lit "FORMAT_DATETIME('%B', CAST("; Sql; Lit " AS DATETIME))"]);
   ("quarter_of_year", [Lit "EXTRACT(QUARTER FROM "; Sql; Lit ")"]);
   ("fiscal_quarter_of_year", [Lit "EXTRACT(QUARTER FROM "; Moved; Lit ")"]);
   ("hour_of_day", [Lit "CAST(CAST("; Sql; Lit " AS STRING FORMAT 'HH24') AS INT64)"]);
   ("day_of_week", [Lit "CAST("; Sql; Lit " AS STRING FORMAT 'DAY')"]);
   ("day_of_month", [Lit "EXTRACT(DAY FROM "; Sql; Lit ")"]);
   ("day_of_year", [Lit "EXTRACT(DAYOFYEAR FROM "; Sql; Lit ")"])].

(** field.py:1330-1337: warehouses with the table of another one, and timeframes with the text of another one *)
Definition code_tables : list (string * list (string * list piece)) :=
  [("SNOWFLAKE", snowflake_text); ("REDSHIFT", snowflake_text); ("DATABRICKS", databricks_text); ("POSTGRES", postgres_text);
   ("DUCK_DB", postgres_text); ("TRINO", trino_text); ("DRUID", druid_text); ("SQL_SERVER", sql_server_text);
   ("AZURE_SYNAPSE", sql_server_text); ("BIGQUERY", bigquery_text)].
Definition code_aliases : list (string * string) :=
  [("month_name", "month_of_year"); ("month_index", "month_of_year_index"); ("fiscal_month_index", "fiscal_month_of_year_index")].

(** field.py:1343-1361 _apply_timezone_to_sql: the text with the time zone *)
Definition zoned_text (qt tz sql dt : string) : string :=
  let is l := existsb (String.eqb qt) l in
  (if is ["SNOWFLAKE"; "DATABRICKS"] then "CAST(CAST(CONVERT_TIMEZONE('" ++ tz ++ "', " ++ sql ++ ") AS TIMESTAMP_NTZ) AS " ++ dt ++ ")"
   else if is ["BIGQUERY"] then "CAST(DATETIME(CAST(" ++ sql ++ " AS TIMESTAMP), '" ++ tz ++ "') AS " ++ dt ++ ")"
   else if is ["REDSHIFT"] then "CAST(CAST(CONVERT_TIMEZONE('" ++ tz ++ "', " ++ sql ++ ") AS TIMESTAMP) AS " ++ dt ++ ")"
   else if is ["POSTGRES"; "DUCK_DB"; "TRINO"] then "CAST(CAST(" ++ sql ++ " AS TIMESTAMP) at time zone 'UTC' at time zone '" ++ tz ++ "' AS " ++ dt ++ ")"
   else sql)%string.
(** field.py:1363-1382 _fiscal_offset_to_timestamp; [months] is the text of an offset that is not 0 *)
Definition moved_text (qt months sql : string) : string :=
  let is l := existsb (String.eqb qt) l in
  (if is ["SNOWFLAKE"; "REDSHIFT"; "DATABRICKS"; "SQL_SERVER"; "AZURE_SYNAPSE"] then "DATEADD(MONTH, " ++ months ++ ", " ++ sql ++ ")"
   else if is ["POSTGRES"; "DUCK_DB"; "DRUID"; "TRINO"] then sql ++ " + INTERVAL '" ++ months ++ "' MONTH"
   else "DATE_ADD(" ++ sql ++ ", INTERVAL " ++ months ++ " MONTH)")%string.
