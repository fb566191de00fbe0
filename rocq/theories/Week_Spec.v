(** What the warehouses compute, and weeks (C23). *)
From Verif Require Import PyBase PyStr PyDate Week_Model.
Local Open Scope string_scope.
Local Open Scope Z_scope.

(** ** Weeks.  Days as in PyDate; Monday is 0. *)
Definition day_names : list string := ["monday"; "tuesday"; "wednesday"; "thursday"; "friday"; "saturday"; "sunday"].
Definition start_day (wsd : string) (s : Z) : Prop := 0 <= s < 7 /\ nth_error day_names (Z.to_nat s) = Some wsd.
(** [x] is the latest day with weekday [s] on or before [d] *)
Definition is_week_start (s d x : Z) : Prop := weekday x = s /\ x <= d /\ forall y, weekday y = s -> y <= d -> y <= x.

(** ** Warehouses, from their documentation.  A timestamp is a number of seconds; a date is its midnight. *)
Definition day_sec : Z := 86400.
Definition day (t : Z) : Z := t / day_sec.
Definition midnight (d : Z) : Z := d * day_sec.
Definition monday_of (d : Z) : Z := d - weekday d.
Definition sunday_of (d : Z) : Z := d - (weekday d + 1) mod 7.
Definition year_start (d : Z) : Z := before_year (month_of d / 12).
(** ISO 8601: the number of the week's Thursday in its year *)
Definition iso_week (d : Z) : Z := let th := monday_of d + 3 in (th - year_start th) / 7 + 1.
(** bigquery EXTRACT(WEEK): Sundays of the year so far *)
Definition bigquery_week (d : Z) : Z := (d - year_start d + 7 - (weekday d + 1) mod 7) / 7.
(** SQL Server's day 0 is 1900-01-01; DATEDIFF(WEEK, ...) counts the Sundays crossed, whatever DATEFIRST is *)
Definition day_0 : Z := before_year 1900.
Definition sundays (d : Z) : Z := (d + 6) / 7.
Fixpoint eval (bigquery : bool) (t : Z) (e : dexpr) : Z :=
  match e with
  | DCol => t
  | DCastDate e => midnight (day (eval bigquery t e))
  | DCastTs e => eval bigquery t e
  | DPlus e n | DPlusInterval e n => eval bigquery t e + n * day_sec
  | DTrunc u e =>
      let d := day (eval bigquery t e) in
      midnight match u with
               | UDay => d
               | UWeek => if bigquery then sunday_of d else monday_of d
               | UMonth => month_start (month_of d)
               end
  | DAdd u n e =>
      let v := eval bigquery t e in
      match u with
      | UDay => v + n * day_sec
      | UWeek => v + 7 * n * day_sec
      | UMonth => midnight (add_months (day v) n) + (v - midnight (day v))
      end
  | DAddDiff u e =>
      let d := day (eval bigquery t e) in
      midnight match u with
               | UDay => day_0 + (d - day_0)
               | UWeek => day_0 + 7 * (sundays d - sundays day_0)
               | UMonth => add_months day_0 (month_of d - month_of day_0)
               end
  | DWeekNo e => let d := day (eval bigquery t e) in if bigquery then bigquery_week d else iso_week d
  | DMinusPlus1 a b => eval bigquery t a - eval bigquery t b + 1
  end.
Definition is_bigquery (qt : string) : bool := String.eqb qt "BIGQUERY".
(** Warehouses whose WEEK starts on Monday and is numbered by ISO 8601 *)
Definition iso_warehouses : list string := ["SNOWFLAKE"; "REDSHIFT"; "POSTGRES"; "DRUID"; "DUCK_DB"; "DATABRICKS"; "TRINO"].
