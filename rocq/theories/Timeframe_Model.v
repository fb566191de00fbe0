(** The timeframes of a time dimension group: Field.apply_dimension_group_time_sql, _apply_timezone_to_sql and
    _fiscal_offset_to_timestamp (core/model/field.py:1013-1382), datatype and convert_timezone (370-387).
    The SQL is an expression tree, one constructor per piece of syntax the code emits; [render] gives the text.
    Weeks (week, week_index, week_of_year, week_of_month) are in Week_Model. *)
From Coq Require Import List String ZArith Bool.
From Verif Require Import PyBase PyStr.
Import ListNotations.
Local Open Scope string_scope.
Local Open Scope list_scope.
Local Open Scope Z_scope.

Inductive part := Second | Minute | Hour | Day | Month | Quarter | Year.
Definition part_name (p : part) : string :=
  match p with Second => "SECOND" | Minute => "MINUTE" | Hour => "HOUR" | Day => "DAY" | Month => "MONTH" | Quarter => "QUARTER" | Year => "YEAR" end.
Inductive texpr :=
| XCol                                           (* the dimension's own sql *)
| XCast (e : texpr) (ty : string)                (* CAST(e AS ty) *)
| XTrunc (p : part) (e : texpr)                  (* DATE_TRUNC('p', e) *)
| XDateTrunc (e : texpr) (p : part)              (* DATE_TRUNC(e, p) *)
| XDatetimeTrunc (e : texpr) (p : part)          (* DATETIME_TRUNC(e, p) *)
| XAddDiff (p : part) (e : texpr)                (* DATEADD(p, DATEDIFF(p, 0, e), 0) *)
| XExtract (p : string) (e : texpr)              (* EXTRACT(p FROM e), p with quotes where the code has them *)
| XDatepart (p : string) (e : texpr)             (* DATEPART(p, e) *)
| XToChar (e : texpr) (f : string)               (* TO_CHAR(e, 'f') *)
| XDateFormat (e : texpr) (f : string)           (* DATE_FORMAT(e, 'f') *)
| XFormatDatetime (e : texpr) (f : string)       (* FORMAT_DATETIME(e, 'f') *)
| XFormatFirst (f : string) (e : texpr)          (* FORMAT_DATETIME('f', e) *)
| XCastFormat (e : texpr) (f : string)           (* CAST(e AS STRING FORMAT 'f') *)
| XLeftName (p : string) (e : texpr)             (* LEFT(DATENAME(p, e), 3) *)
| XCase (e : texpr) (l : list (Z * string)) (d : string)   (* CASE e WHEN n THEN 's' ... ELSE 'd' END *)
| XDateadd (n : Z) (e : texpr)                   (* DATEADD(MONTH, n, e) *)
| XInterval (e : texpr) (n : Z)                  (* e + INTERVAL 'n' MONTH *)
| XDateAdd (e : texpr) (n : Z)                   (* DATE_ADD(e, INTERVAL n MONTH) *)
| XConvert (e : texpr)                           (* CONVERT_TIMEZONE('tz', e) *)
| XDatetimeZone (e : texpr)                      (* DATETIME(e, 'tz') *)
| XAtZone (e : texpr).                           (* e at time zone 'UTC' at time zone 'tz' *)

Definition z_str (z : Z) : string := if z <? 0 then ("-" ++ nat_str (Z.to_nat (- z)))%string else nat_str (Z.to_nat z).
Local Open Scope string_scope.
Fixpoint render (tz sql : string) (e : texpr) : string :=
  let r := render tz sql in
  match e with
  | XCol => sql
  | XCast e ty => "CAST(" ++ r e ++ " AS " ++ ty ++ ")"
  | XTrunc p e => "DATE_TRUNC('" ++ part_name p ++ "', " ++ r e ++ ")"
  | XDateTrunc e p => "DATE_TRUNC(" ++ r e ++ ", " ++ part_name p ++ ")"
  | XDatetimeTrunc e p => "DATETIME_TRUNC(" ++ r e ++ ", " ++ part_name p ++ ")"
  | XAddDiff p e => "DATEADD(" ++ part_name p ++ ", DATEDIFF(" ++ part_name p ++ ", 0, " ++ r e ++ "), 0)"
  | XExtract p e => "EXTRACT(" ++ p ++ " FROM " ++ r e ++ ")"
  | XDatepart p e => "DATEPART(" ++ p ++ ", " ++ r e ++ ")"
  | XToChar e f => "TO_CHAR(" ++ r e ++ ", '" ++ f ++ "')"
  | XDateFormat e f => "DATE_FORMAT(" ++ r e ++ ", '" ++ f ++ "')"
  | XFormatDatetime e f => "FORMAT_DATETIME(" ++ r e ++ ", '" ++ f ++ "')"
  | XFormatFirst f e => "FORMAT_DATETIME('" ++ f ++ "', " ++ r e ++ ")"
  | XCastFormat e f => "CAST(" ++ r e ++ " AS STRING FORMAT '" ++ f ++ "')"
  | XLeftName p e => "LEFT(DATENAME(" ++ p ++ ", " ++ r e ++ "), 3)"
  | XCase e l d => "CASE " ++ r e ++ concat "" (map (fun x => " WHEN " ++ z_str (fst x) ++ " THEN '" ++ snd x ++ "'") l) ++ " ELSE '" ++ d ++ "' END"
  | XDateadd n e => "DATEADD(MONTH, " ++ z_str n ++ ", " ++ r e ++ ")"
  | XInterval e n => r e ++ " + INTERVAL '" ++ z_str n ++ "' MONTH"
  | XDateAdd e n => "DATE_ADD(" ++ r e ++ ", INTERVAL " ++ z_str n ++ " MONTH)"
  | XConvert e => "CONVERT_TIMEZONE('" ++ tz ++ "', " ++ r e ++ ")"
  | XDatetimeZone e => "DATETIME(" ++ r e ++ ", '" ++ tz ++ "')"
  | XAtZone e => r e ++ " at time zone 'UTC' at time zone '" ++ tz ++ "'"
  end.
Local Open Scope list_scope.
Local Open Scope Z_scope.

(** datatype.upper(), 98-103 *)
Inductive datatype := Timestamp | DateType | Datetime.
Definition type_name (d : datatype) : string := match d with Timestamp => "TIMESTAMP" | DateType => "DATE" | Datetime => "DATETIME" end.

(** _fiscal_offset_to_timestamp, 1363-1382 *)
Definition fiscal (o : Z) (s : texpr) (qt : string) : res texpr :=
  if o =? 0 then Ok s
  else if mem qt ["SNOWFLAKE"; "REDSHIFT"; "DATABRICKS"; "SQL_SERVER"; "AZURE_SYNAPSE"] then Ok (XDateadd o s)
  else if mem qt ["POSTGRES"; "DUCK_DB"; "DRUID"; "TRINO"] then Ok (XInterval s o)
  else if String.eqb qt "BIGQUERY" then Ok (XDateAdd s o)
  else Err QueryError.
(** _apply_timezone_to_sql, 1343-1361 *)
Definition apply_timezone (dt : datatype) (s : texpr) (qt : string) : res texpr :=
  if mem qt ["SNOWFLAKE"; "DATABRICKS"] then Ok (XCast (XCast (XConvert s) "TIMESTAMP_NTZ") (type_name dt))
  else if String.eqb qt "BIGQUERY" then Ok (XCast (XDatetimeZone (XCast s "TIMESTAMP")) (type_name dt))
  else if String.eqb qt "REDSHIFT" then Ok (XCast (XCast (XConvert s) "TIMESTAMP") (type_name dt))
  else if mem qt ["POSTGRES"; "DUCK_DB"; "TRINO"] then Ok (XCast (XAtZone (XCast s "TIMESTAMP")) (type_name dt))
  else if mem qt ["DRUID"; "SQL_SERVER"; "AZURE_SYNAPSE"] then Ok s
  else Err QueryError.

(** The tables, 1014-1329.  A timeframe of the table with its fiscal variant: the boolean says that the offset is
    applied to the column first. *)
Inductive frame :=
| FRaw | FTime | FSecond | FMinute | FHour | FDate
| FMonth (fiscal : bool) | FQuarter (fiscal : bool) | FYear (fiscal : bool)
| FMonthIndex (fiscal : bool) | FMonthName | FQuarterOfYear (fiscal : bool) | FHourOfDay | FDayOfWeek | FDayOfMonth | FDayOfYear.
(** the names, with the aliases of 1330-1335 *)
Definition frames : list (string * frame) :=
  [("raw", FRaw); ("time", FTime); ("second", FSecond); ("minute", FMinute); ("hour", FHour); ("date", FDate);
   ("month", FMonth false); ("quarter", FQuarter false); ("year", FYear false);
   ("fiscal_month", FMonth true); ("fiscal_quarter", FQuarter true); ("fiscal_year", FYear true);
   ("month_of_year_index", FMonthIndex false); ("month_index", FMonthIndex false);
   ("fiscal_month_of_year_index", FMonthIndex true); ("fiscal_month_index", FMonthIndex true);
   ("month_of_year", FMonthName); ("month_name", FMonthName);
   ("quarter_of_year", FQuarterOfYear false); ("fiscal_quarter_of_year", FQuarterOfYear true);
   ("hour_of_day", FHourOfDay); ("day_of_week", FDayOfWeek); ("day_of_month", FDayOfMonth); ("day_of_year", FDayOfYear)].
Definition is_fiscal (f : frame) : bool :=
  match f with FMonth b | FQuarter b | FYear b | FMonthIndex b | FQuarterOfYear b => b | _ => false end.

Definition months : list (Z * string) :=
  [(1, "Jan"); (2, "Feb"); (3, "Mar"); (4, "Apr"); (5, "May"); (6, "Jun"); (7, "Jul"); (8, "Aug"); (9, "Sep"); (10, "Oct"); (11, "Nov"); (12, "Dec")].
Definition weekdays : list (Z * string) :=
  [(1, "Mon"); (2, "Tue"); (3, "Wed"); (4, "Thu"); (5, "Fri"); (6, "Sat"); (7, "Sun")].
Definition ts (s : texpr) : texpr := XCast s "TIMESTAMP".
(** snowflake and redshift, 1015-1057 *)
Definition snowflake (f : frame) (s : texpr) : texpr :=
  match f with
  | FRaw => s | FTime => ts s
  | FSecond => XTrunc Second s | FMinute => XTrunc Minute s | FHour => XTrunc Hour s | FDate => XTrunc Day s
  | FMonth _ => XTrunc Month s | FQuarter _ => XTrunc Quarter s | FYear _ => XTrunc Year s
  | FMonthIndex _ => XExtract "MONTH" s | FMonthName => XToChar (ts s) "Mon"
  | FQuarterOfYear _ => XExtract "QUARTER" s | FHourOfDay => XExtract "HOUR" (ts s) | FDayOfWeek => XToChar (ts s) "Dy"
  | FDayOfMonth => XExtract "DAY" s | FDayOfYear => XExtract "DOY" s
  end.
(** the part databricks 1058-1099, postgres (and duck db) 1100-1134, trino 1135-1171 and druid 1172-1223 share *)
Definition common (f : frame) (s : texpr) : texpr :=
  match f with
  | FRaw => s | FTime => ts s
  | FSecond => XTrunc Second (ts s) | FMinute => XTrunc Minute (ts s) | FHour => XTrunc Hour (ts s) | FDate => XTrunc Day (ts s)
  | FMonth _ => XTrunc Month (ts s) | FQuarter _ => XTrunc Quarter (ts s) | FYear _ => XTrunc Year (ts s)
  | FMonthIndex _ => XExtract "MONTH" (ts s) | FMonthName => s
  | FQuarterOfYear _ => XExtract "QUARTER" (ts s) | FHourOfDay => XExtract "HOUR" (ts s) | FDayOfWeek => s
  | FDayOfMonth => XExtract "DAY" (ts s) | FDayOfYear => XExtract "DOY" (ts s)
  end.
Definition databricks (f : frame) (s : texpr) : texpr :=
  match f with FMonthName => XDateFormat (ts s) "MMM" | FDayOfWeek => XDateFormat (ts s) "E" | _ => common f s end.
Definition postgres (f : frame) (s : texpr) : texpr :=
  match f with
  | FMonthName => XToChar (ts s) "Mon" | FDayOfWeek => XToChar (ts s) "Dy"
  | FHourOfDay => XExtract "'HOUR'" (ts s) | FDayOfMonth => XExtract "'DAY'" (ts s) | FDayOfYear => XExtract "'DOY'" (ts s)
  | _ => common f s
  end.
Definition trino (f : frame) (s : texpr) : texpr :=
  match f with FMonthName => XFormatDatetime (ts s) "MMM" | FDayOfWeek => XFormatDatetime (ts s) "EEE" | _ => common f s end.
Definition druid (f : frame) (s : texpr) : texpr :=
  match f with
  | FMonthName => XCase (XExtract "MONTH" (ts s)) months "Invalid Month"
  | FDayOfWeek => XCase (XExtract "DOW" (ts s)) weekdays "Invalid Day"
  | _ => common f s
  end.
(** sql server and synapse, 1224-1270 *)
Definition sql_server (f : frame) (s : texpr) : texpr :=
  let d := XCast s "DATE" in let t := XCast s "DATETIME" in
  match f with
  | FRaw => s | FTime => t
  | FSecond => XAddDiff Second t | FMinute => XAddDiff Minute t | FHour => XAddDiff Hour t | FDate => XCast d "DATETIME"
  | FMonth _ => XAddDiff Month d | FQuarter _ => XAddDiff Quarter d | FYear _ => XAddDiff Year d
  | FMonthIndex _ => XExtract "MONTH" d | FMonthName => XLeftName "MONTH" d
  | FQuarterOfYear _ => XDatepart "QUARTER" d | FHourOfDay => XDatepart "HOUR" t | FDayOfWeek => XLeftName "WEEKDAY" d
  | FDayOfMonth => XDatepart "DAY" d | FDayOfYear => XDatepart "Y" d
  end.
(** bigquery, 1271-1329; "as DATETIME" in 1322 is the same type *)
Definition bigquery (dt : datatype) (f : frame) (s : texpr) : texpr :=
  let d := XCast s "DATE" in let t := XCast s "DATETIME" in let own e := XCast e (type_name dt) in
  match f with
  | FRaw => s | FTime => ts s
  | FSecond => own (XDatetimeTrunc t Second) | FMinute => own (XDatetimeTrunc t Minute) | FHour => own (XDatetimeTrunc t Hour)
  | FDate => own (XDateTrunc d Day)
  | FMonth _ => own (XDateTrunc d Month) | FQuarter _ => own (XDateTrunc d Quarter) | FYear _ => own (XDateTrunc d Year)
  | FMonthIndex _ => XExtract "MONTH" s | FMonthName => XFormatFirst "%B" t
  | FQuarterOfYear _ => XExtract "QUARTER" s | FHourOfDay => XCast (XCastFormat s "HH24") "INT64" | FDayOfWeek => XCastFormat s "DAY"
  | FDayOfMonth => XExtract "DAY" s | FDayOfYear => XExtract "DAYOFYEAR" s
  end.
Definition table (qt : string) (dt : datatype) : option (frame -> texpr -> texpr) :=
  match find (fun x => String.eqb (fst x) qt)
    [("SNOWFLAKE", snowflake); ("REDSHIFT", snowflake); ("DATABRICKS", databricks); ("POSTGRES", postgres); ("DUCK_DB", postgres);
     ("TRINO", trino); ("DRUID", druid); ("SQL_SERVER", sql_server); ("AZURE_SYNAPSE", sql_server); ("BIGQUERY", bigquery dt)] with
  | Some x => Some (snd x) | None => None
  end.
(** the two definition keys and the model's default, 370-380 *)
Definition convert_timezone (default_tz default_timezone key_timezone key_tz : option bool) : bool :=
  let d := match default_tz, default_timezone with Some false, _ | _, Some false => false | _, _ => true end in
  match key_timezone with Some b => b | None => match key_tz with Some b => b | None => d end end.
(** 1338-1341; zone: the project has a time zone and the field converts; o is the model's fiscal_month_offset *)
Definition time_sql (dt : datatype) (zone : bool) (o : Z) (qt name : string) : res texpr :=
  s <- (if zone then apply_timezone dt XCol qt else Ok XCol) ;;
  match table qt dt, assoc name frames with
  | Some t, Some f => s <- (if is_fiscal f then fiscal o s qt else Ok s) ;; Ok (t f s)
  | _, _ => Err KeyError
  end.
