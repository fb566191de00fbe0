(** Relative dates (C19): how they are written and which range of the calendar they denote. *)
From Verif Require Import PyBase PyStr PyRx PyDate Core_Model Filter_Model.
Local Open Scope string_scope.
Local Open Scope list_scope.
Local Open Scope Z_scope.

(** ** Periods.  Day numbers as in PyDate; [ws] is the weekday (Monday = 0) on which weeks begin. *)
(** The number of the period a day lies in *)
Definition period (ws : Z) (u : unit_) (d : Z) : Z :=
  match u with
  | UDay => d
  | UWeek => (d + 5 - ws) / 7
  | UMonth => month_of d
  | UQuarter => month_of d / 3
  | UYear => month_of d / 12
  end.
(** The first day of a period *)
Definition first_day (ws : Z) (u : unit_) (k : Z) : Z :=
  match u with
  | UDay => k
  | UWeek => 7 * k - 5 + ws
  | UMonth => month_start k
  | UQuarter => month_start (3 * k)
  | UYear => month_start (12 * k)
  end.
Definition last_day (ws : Z) (u : unit_) (k : Z) : Z := first_day ws u (k + 1) - 1.
(** First and last second of a day *)
Definition midnight (d : Z) : Z := 86400 * d.
Definition last_second (d : Z) : Z := 86400 * d + 86399.
(** The days datetime can represent *)
Definition valid_day (d : Z) : Prop := 1 <= month_of d / 12 <= 9999.

(** ** The written forms *)
Definition word (u : unit_) (plural : bool) : string :=
  ((match u with UDay => "day" | UWeek => "week" | UMonth => "month" | UQuarter => "quarter" | UYear => "year" end) ++
   (if plural then "s" else ""))%string.
(** The amount in front of "to date" *)
Inductive amount := ANone | AThis | ALast | ANumber (d : string).
Inductive rel :=
| RToday | RYesterday
| RThis (u : unit_) (pl : bool) | RLast (u : unit_) (pl : bool)
| RSome (n : string) (u : unit_) (pl : bool)
| RAgo (n : string) (u : unit_) (pl : bool)
| RToDate (a : amount) (u : unit_) (pl : bool)
| RAgoToDate (n : string) (u : unit_) (pl : bool)
| RAgoFor (n : string) (u : unit_) (pl : bool) (n' : string) (u' : unit_) (pl' : bool).
Definition write_rel (r : rel) : string :=
  (match r with
   | RToday => "today"
   | RYesterday => "yesterday"
   | RThis u pl => "this " ++ word u pl
   | RLast u pl => "last " ++ word u pl
   | RSome n u pl => n ++ " " ++ word u pl
   | RAgo n u pl => n ++ " " ++ word u pl ++ " ago"
   | RToDate ANone u pl => word u pl ++ " to date"
   | RToDate AThis u pl => "this " ++ word u pl ++ " to date"
   | RToDate ALast u pl => "last " ++ word u pl ++ " to date"
   | RToDate (ANumber n) u pl => n ++ " " ++ word u pl ++ " to date"
   | RAgoToDate n u pl => n ++ " " ++ word u pl ++ " ago to date"
   | RAgoFor n u pl n' u' pl' => n ++ " " ++ word u pl ++ " ago for " ++ n' ++ " " ++ word u' pl'
   end)%string.

(** ** The days selected.  [today] is the current day. *)
(** The elapsed part of the current period, mapped onto the period [k] ([today] itself excluded unless
    it is the first day) *)
Definition elapsed (ws : Z) (u : unit_) (today k : Z) : Z * Z :=
  (first_day ws u k, first_day ws u k + Z.max 0 (today - first_day ws u (period ws u today) - 1)).
Definition days_of (ws today : Z) (num : string -> Z) (r : rel) : Z * Z :=
  let here u := period ws u today in
  match r with
  | RToday => (today, today)
  | RYesterday => (today - 1, today - 1)
  | RThis u _ => (first_day ws u (here u), last_day ws u (here u))
  | RLast u _ => (first_day ws u (here u - 1), last_day ws u (here u - 1))
  | RSome n u _ => (first_day ws u (here u - (num n - 1)), last_day ws u (here u))
  | RAgo n u _ => (first_day ws u (here u - num n), last_day ws u (here u - num n))
  | RToDate a u _ =>
      elapsed ws u today (here u - match a with ANone | AThis => 0 | ALast => 1 | ANumber n => num n - 1 end)
  | RAgoToDate n u _ => elapsed ws u today (here u - num n)
  | RAgoFor n u _ n' u' _ =>
      let a := first_day ws u (here u - num n) in
      (a, last_day ws u' (period ws u' a + (num n' - 1)))
  end.
(** The forms whose end is the end of a quarter *)
Definition ends_quarter (r : rel) : bool :=
  match r with
  | RThis UQuarter _ | RLast UQuarter _ | RSome _ UQuarter _ | RAgo _ UQuarter _ | RAgoFor _ _ _ _ UQuarter _ => true
  | _ => false
  end.
Definition is_number (n : string) : Prop := all_p is_digit n = true /\ n <> "".
Definition numbers (r : rel) : Prop :=
  match r with
  | RSome n _ _ => is_number n /\ 1 <= py_int n
  | RAgo n _ _ | RAgoToDate n _ _ => is_number n
  | RToDate (ANumber n) _ _ => is_number n /\ 1 <= py_int n
  | RAgoFor n _ _ n' _ _ => is_number n /\ is_number n' /\ 1 <= py_int n'
  | _ => True
  end.
