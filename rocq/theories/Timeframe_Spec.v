(** What the timeframes mean, and what the warehouses do with the SQL.
    An instant (a civil date and time) is a number of microseconds since 0000-01-01; a date is its midnight. *)
From Coq Require Import List String ZArith Bool.
From Verif Require Import PyBase PyStr PyDate Timeframe_Model.
Import ListNotations.
Local Open Scope string_scope.
Local Open Scope list_scope.
Local Open Scope Z_scope.

Definition SEC : Z := 1000000.
Definition MIN : Z := 60 * SEC.
Definition HOUR : Z := 60 * MIN.
Definition DAY : Z := 24 * HOUR.

(** ** The meaning of a timeframe, from the calendar alone *)
(** x is the first instant of a period *)
Definition starts (p : part) (x : Z) : Prop :=
  match p with
  | Second => exists k, x = k * SEC | Minute => exists k, x = k * MIN | Hour => exists k, x = k * HOUR | Day => exists k, x = k * DAY
  | Month => exists m, x = month_start m * DAY
  | Quarter => exists q, x = month_start (3 * q) * DAY
  | Year => exists y, x = before_year y * DAY
  end.
(** x is the first instant of the period z is in *)
Definition period (p : part) (z x : Z) : Prop := starts p x /\ x <= z /\ forall y, starts p y -> y <= z -> y <= x.
Definition month_at (z m : Z) : Prop := month_start m * DAY <= z < month_start (m + 1) * DAY.
Inductive val := VTime (ty : datatype) (z : Z) | VInt (n : Z) | VText (s : string).
Definition month_names : list string := ["January"; "February"; "March"; "April"; "May"; "June"; "July"; "August"; "September"; "October"; "November"; "December"].
Definition day_names : list string := ["Monday"; "Tuesday"; "Wednesday"; "Thursday"; "Friday"; "Saturday"; "Sunday"].
Definition short (s : string) : string := String.substring 0 3 s.
Definition full_month (m : Z) : string := nth (Z.to_nat (m mod 12)) month_names "".
Definition full_day (d : Z) : string := nth (Z.to_nat (weekday d)) day_names "".
Definition at_time (v : val) (P : Z -> Prop) : Prop := match v with VTime _ x => P x | _ => False end.
Definition a_number (v : val) (P : Z -> Prop) : Prop := match v with VInt x => P x | _ => False end.
Definition a_text (v : val) (P : string -> Prop) : Prop := match v with VText x => P x | _ => False end.
Definition means (f : frame) (z : Z) (v : val) : Prop :=
  match f with
  | FRaw | FTime => at_time v (fun x => x = z)
  | FSecond => at_time v (period Second z) | FMinute => at_time v (period Minute z) | FHour => at_time v (period Hour z)
  | FDate => at_time v (period Day z) | FMonth _ => at_time v (period Month z) | FQuarter _ => at_time v (period Quarter z)
  | FYear _ => at_time v (period Year z)
  | FMonthIndex _ => a_number v (fun n => 1 <= n <= 12 /\ exists y, month_at z (12 * y + (n - 1)))
  | FMonthName => a_text v (fun s => exists m, month_at z m /\ s = short (full_month m))
  | FQuarterOfYear _ => a_number v (fun n => 1 <= n <= 4 /\ exists y, month_start (12 * y + 3 * (n - 1)) * DAY <= z < month_start (12 * y + 3 * n) * DAY)
  | FHourOfDay => a_number v (fun n => 0 <= n < 24 /\ exists d, d * DAY + n * HOUR <= z < d * DAY + (n + 1) * HOUR)
  | FDayOfWeek => a_text v (fun s => exists d, d * DAY <= z < (d + 1) * DAY /\ s = short (full_day d))
  | FDayOfMonth => a_number v (fun n => 1 <= n /\ exists m, month_at z m /\ (month_start m + (n - 1)) * DAY <= z < (month_start m + n) * DAY)
  | FDayOfYear => a_number v (fun n => 1 <= n /\ exists y, n <= before_year (y + 1) - before_year y /\ (before_year y + (n - 1)) * DAY <= z < (before_year y + n) * DAY)
  end.
(** The fiscal calendar: o months ahead of the civil one *)
Definition fiscal_instant (o z z' : Z) : Prop := exists m, month_at z m /\ month_at z' (m + o).

(** ** The warehouses: what each piece of syntax returns, from their documentation.
    An error for syntax or a function the warehouse does not have, and for an integer overflow. *)
Definition tsql (qt : string) : bool := mem qt ["SQL_SERVER"; "AZURE_SYNAPSE"].
Definition month_in (z : Z) : Z := month_of (z / DAY).
Definition trunc (p : part) (z : Z) : Z :=
  match p with
  | Second => z / SEC * SEC | Minute => z / MIN * MIN | Hour => z / HOUR * HOUR | Day => z / DAY * DAY
  | Month => month_start (month_in z) * DAY
  | Quarter => month_start (3 * (month_in z / 3)) * DAY
  | Year => month_start (12 * (month_in z / 12)) * DAY
  end.
Definition type_of_name (s : string) : option datatype :=
  if String.eqb s "DATE" then Some DateType else if String.eqb s "TIMESTAMP" then Some Timestamp
  else if mem s ["DATETIME"; "TIMESTAMP_NTZ"] then Some Datetime else None.
Definition as_type (ty : datatype) (z : Z) : val := match ty with DateType => VTime ty (z / DAY * DAY) | _ => VTime ty z end.
(** EXTRACT: the field names *)
Definition extract (qt p : string) (z : Z) : option Z :=
  let d := z / DAY in let m := month_of d in
  let quoted := mem qt ["POSTGRES"; "DUCK_DB"] in
  if String.eqb p "MONTH" then Some (m mod 12 + 1)
  else if String.eqb p "QUARTER" then Some (m mod 12 / 3 + 1)
  else if String.eqb p "HOUR" || (quoted && String.eqb p "'HOUR'") then Some (z mod DAY / HOUR)
  else if String.eqb p "DAY" || (quoted && String.eqb p "'DAY'") then Some (d - month_start m + 1)
  else if (String.eqb p "DOY" && negb (String.eqb qt "BIGQUERY")) || (quoted && String.eqb p "'DOY'") || (String.eqb p "DAYOFYEAR" && String.eqb qt "BIGQUERY")
    then Some (d - month_start (12 * (m / 12)) + 1)
  else if String.eqb p "DOW" && String.eqb qt "DRUID" then Some (weekday d + 1)
  else None.
Definition epoch1900 : Z := before_year 1900.
(** whole periods since 1900-01-01, DATEDIFF(p, 0, x): boundaries crossed *)
Definition datediff (p : part) (z : Z) : Z :=
  match p with
  | Second => z / SEC - epoch1900 * DAY / SEC | Minute => z / MIN - epoch1900 * DAY / MIN | Hour => z / HOUR - epoch1900 * DAY / HOUR
  | Day => z / DAY - epoch1900
  | Month => month_in z - 12 * 1900 | Quarter => month_in z / 3 - 4 * 1900 | Year => month_in z / 12 - 1900
  end.
Definition dateadd (p : part) (n : Z) : Z :=
  match p with
  | Second => epoch1900 * DAY + n * SEC | Minute => epoch1900 * DAY + n * MIN | Hour => epoch1900 * DAY + n * HOUR | Day => (epoch1900 + n) * DAY
  | Month => add_months epoch1900 n * DAY | Quarter => add_months epoch1900 (3 * n) * DAY | Year => add_months epoch1900 (12 * n) * DAY
  end.
Definition int32 (n : Z) : bool := (-2147483648 <=? n) && (n <=? 2147483647).
Definition shift (n z : Z) : Z := add_months (z / DAY) n * DAY + z mod DAY.
(** upper-case English name, as FORMAT 'DAY' gives it *)
Definition upper_day (d : Z) : string :=
  nth (Z.to_nat (weekday d)) ["MONDAY"; "TUESDAY"; "WEDNESDAY"; "THURSDAY"; "FRIDAY"; "SATURDAY"; "SUNDAY"] "".
Definition as_time (v : val) (k : datatype -> Z -> res val) : res val := match v with VTime ty z => k ty z | _ => Err TypeError end.
Section Eval.
(** the civil time of the project's zone at a UTC instant *)
Variable local : Z -> Z.
Variable qt : string.
Fixpoint eval (e : texpr) (v : val) : res val :=
  let time e k := x <- eval e v ;; as_time x k in
  let when (b : bool) (r : res val) := if b then r else Err QueryError in
  match e with
  | XCol => Ok v
  | XCast e "INT64" => x <- eval e v ;; match x with VInt n => Ok (VInt n) | _ => Err TypeError end
  | XCast e ty => time e (fun _ z => match type_of_name ty with Some t => Ok (as_type t z) | None => Err QueryError end)
  | XTrunc p e => when (negb (tsql qt) && negb (String.eqb qt "BIGQUERY")) (time e (fun ty z => Ok (VTime ty (trunc p z))))
  | XDateTrunc e p => when (String.eqb qt "BIGQUERY") (time e (fun ty z => Ok (VTime ty (trunc p z))))
  | XDatetimeTrunc e p => when (String.eqb qt "BIGQUERY") (time e (fun ty z => match ty with Datetime => Ok (VTime ty (trunc p z)) | _ => Err TypeError end))
  | XAddDiff p e => when (tsql qt) (time e (fun ty z => if int32 (datediff p z) then Ok (VTime Datetime (dateadd p (datediff p z))) else Err ValueError))
  | XExtract p e => when (negb (tsql qt)) (time e (fun _ z => match extract qt p z with Some n => Ok (VInt n) | None => Err QueryError end))
  | XDatepart p e => when (tsql qt) (time e (fun _ z =>
      let p := if String.eqb p "Y" then "DOY" else p in
      match (if String.eqb p "DOW" then None else extract qt p z) with Some n => Ok (VInt n) | None => Err QueryError end))
  | XToChar e f => when (mem qt ["SNOWFLAKE"; "REDSHIFT"; "POSTGRES"]) (time e (fun _ z =>
      if String.eqb f "Mon" then Ok (VText (short (full_month (month_in z)))) else if String.eqb f "Dy" then Ok (VText (short (full_day (z / DAY)))) else Err QueryError))
  | XDateFormat e f => when (String.eqb qt "DATABRICKS") (time e (fun _ z =>
      if String.eqb f "MMM" then Ok (VText (short (full_month (month_in z)))) else if String.eqb f "E" then Ok (VText (short (full_day (z / DAY)))) else Err QueryError))
  | XFormatDatetime e f => when (String.eqb qt "TRINO") (time e (fun _ z =>
      if String.eqb f "MMM" then Ok (VText (short (full_month (month_in z)))) else if String.eqb f "EEE" then Ok (VText (short (full_day (z / DAY)))) else Err QueryError))
  | XFormatFirst f e => when (String.eqb qt "BIGQUERY") (time e (fun _ z =>
      if String.eqb f "%B" then Ok (VText (full_month (month_in z))) else if String.eqb f "%b" then Ok (VText (short (full_month (month_in z)))) else Err QueryError))
  (* the number HH24 prints is read back by CAST(... AS INT64) *)
  | XCastFormat e f => when (String.eqb qt "BIGQUERY") (time e (fun ty z =>
      if String.eqb f "HH24" then match ty with DateType => Err QueryError | _ => Ok (VInt (z mod DAY / HOUR)) end
      else if String.eqb f "DAY" then Ok (VText (upper_day (z / DAY))) else Err QueryError))
  | XLeftName p e => when (tsql qt) (time e (fun _ z =>
      if String.eqb p "MONTH" then Ok (VText (short (full_month (month_in z)))) else if String.eqb p "WEEKDAY" then Ok (VText (short (full_day (z / DAY)))) else Err QueryError))
  | XCase e l d => x <- eval e v ;;
      match x with VInt n => Ok (VText match find (fun c => fst c =? n) l with Some c => snd c | None => d end) | _ => Err TypeError end
  | XDateadd n e => when (mem qt ["SNOWFLAKE"; "REDSHIFT"; "DATABRICKS"; "SQL_SERVER"; "AZURE_SYNAPSE"]) (time e (fun ty z => Ok (VTime ty (shift n z))))
  | XInterval e n => when (mem qt ["POSTGRES"; "DUCK_DB"; "DRUID"; "TRINO"]) (time e (fun ty z => Ok (VTime ty (shift n z))))
  (* BigQuery adds months to a DATE or a DATETIME, not to a TIMESTAMP *)
  | XDateAdd e n => when (String.eqb qt "BIGQUERY") (time e (fun ty z => match ty with Timestamp => Err TypeError | _ => Ok (VTime ty (shift n z)) end))
  | XConvert e => when (mem qt ["SNOWFLAKE"; "DATABRICKS"; "REDSHIFT"]) (time e (fun _ z => Ok (VTime Timestamp (local z))))
  | XDatetimeZone e => when (String.eqb qt "BIGQUERY") (time e (fun ty z => match ty with Timestamp => Ok (VTime Datetime (local z)) | _ => Err TypeError end))
  | XAtZone e => when (mem qt ["POSTGRES"; "DUCK_DB"; "TRINO"]) (time e (fun _ z => Ok (VTime Timestamp (local z))))
  end.
End Eval.
