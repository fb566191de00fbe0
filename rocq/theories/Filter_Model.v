(** Filter values: core/model/filter.py.
    Times are seconds since 0000-01-01T00:00:00 on the wall clock of the query's time zone (microseconds
    dropped, as strftime does; zones with a changing offset are not modelled).  pendulum 3's calendar
    operations are modelled on PyDate.v.  Strings are ASCII.  pd.to_numeric is the parameter [num]. *)
From Coq Require Import QArith.
From Verif Require Import PyBase PyStr PyRx PyDate Core_Model.
Local Open Scope string_scope.
Local Open Scope list_scope.
Local Open Scope Z_scope.

(** ** Small string operations *)
(** s.split(sep), sep not empty *)
Fixpoint split_fuel (f : nat) (sep s : string) : list string :=
  match f with
  | O => [s]
  | S f => match strip_prefix sep s with
           | Some r => "" :: split_fuel f sep r
           | None => match s with
                     | EmptyString => [""]
                     | String a r => match split_fuel f sep r with
                                     | x :: l => String a x :: l
                                     | [] => [String a ""]
                                     end
                     end
           end
  end.
Definition split_str (sep s : string) : list string := split_fuel (S (String.length s)) sep s.
(** s[0], s[-1]; None is IndexError *)
Definition first_char (s : string) : option ascii := match s with String c _ => Some c | EmptyString => None end.
Fixpoint last_char (s : string) : option ascii :=
  match s with EmptyString => None | String c EmptyString => Some c | String _ r => last_char r end.
(** s[n:] *)
Fixpoint drop (n : nat) (s : string) : string :=
  match n, s with O, _ => s | S n, String _ r => drop n r | S _, EmptyString => "" end.
(** s[:n] *)
Fixpoint take (n : nat) (s : string) : string :=
  match n, s with S n, String c r => String c (take n r) | _, _ => "" end.
(** s[i] *)
Definition char_at (n : nat) (s : string) : res ascii :=
  match drop n s with String c _ => Ok c | EmptyString => Err IndexError end.
(** int(s) for a run of digits *)
Definition digit_val (c : ascii) : Z := Z.of_nat (nat_of_ascii c) - 48.
Fixpoint int_acc (acc : Z) (s : string) : Z :=
  match s with EmptyString => acc | String c r => int_acc (10 * acc + digit_val c) r end.
Definition py_int (s : string) : Z := int_acc 0 s.

(** ** Date arithmetic *)
Definition day_secs : Z := 86400.
(** pendulum._WEEK_STARTS_AT and _WEEK_ENDS_AT, Monday = 0 *)
Record globals := Globals { g_starts : Z; g_ends : Z }.
Definition default_globals : globals := Globals 0 6.

(** FilterInterval without the member "unknown", filter.py:80-111 *)
Inductive unit_ := UDay | UWeek | UMonth | UQuarter | UYear.
(** FilterInterval.all(), 102-104: the regex alternatives in order *)
Definition all_intervals : list string :=
  ["unknown"; "unknowns"; "day"; "days"; "week"; "weeks"; "month"; "months"; "quarter"; "quarters"; "year"; "years"].
(** FilterInterval.singular, 98-100 *)
Definition singular (s : string) : string := if last_is_s s then drop_last (lower s) else lower s.
(** The unit named by a date part; subtract(unknowns=...) raises TypeError, 163-187 *)
Definition unit_of (part : string) : res unit_ :=
  let s := singular part in
  if String.eqb s "quarter" then Ok UQuarter
  else if String.eqb s "day" then Ok UDay
  else if String.eqb s "week" then Ok UWeek
  else if String.eqb s "month" then Ok UMonth
  else if String.eqb s "year" then Ok UYear
  else Err TypeError.

(** datetime's range is the years 1-9999; outside pendulum raises (ValueError or OverflowError) *)
Definition in_range (d : Z) : res Z :=
  let y := month_of d / 12 in if (1 <=? y) && (y <=? 9999) then Ok d else Err ValueError.
(** date.add of n units on the day number; quarters are added as 3*n months *)
Definition add_units (d : Z) (u : unit_) (n : Z) : res Z :=
  in_range (match u with
            | UDay => d + n
            | UWeek => d + 7 * n
            | UMonth => add_months d n
            | UQuarter => add_months d (3 * n)
            | UYear => add_months d (12 * n)
            end).
(** pendulum's previous and next weekday (strictly before/after) *)
Definition previous (d w : Z) : Z := let k := (weekday d - w) mod 7 in d - (if k =? 0 then 7 else k).
Definition next (d w : Z) : Z := let k := (w - weekday d) mod 7 in d + (if k =? 0 then 7 else k).
(** start_of(unit) resp. first_of("quarter"), in seconds *)
Definition start_of (g : globals) (u : unit_) (d : Z) : res Z :=
  s <- in_range (match u with
                 | UDay => d
                 | UWeek => if weekday d =? g_starts g then d else previous d (g_starts g)
                 | UMonth => month_start (month_of d)
                 | UQuarter => month_start (month_of d / 3 * 3)
                 | UYear => month_start (month_of d / 12 * 12)
                 end) ;;
  Ok (s * day_secs).
(** end_of(unit), at 23:59:59; last_of("quarter") keeps 00:00:00 of the last day *)
Definition end_of (g : globals) (u : unit_) (d : Z) : res Z :=
  s <- in_range (match u with
                 | UDay => d
                 | UWeek => if weekday d =? g_ends g then d else next d (g_ends g)
                 | UMonth => month_start (month_of d + 1) - 1
                 | UQuarter => month_start (month_of d / 3 * 3 + 3) - 1
                 | UYear => month_start (month_of d / 12 * 12 + 12) - 1
                 end) ;;
  Ok (s * day_secs + match u with UQuarter => 0 | _ => day_secs - 1 end).

(** _start_date, _end_date, _add_to_end_date, 163-197; [now] in seconds *)
Definition start_date (g : globals) (now lag : Z) (part : string) : res Z :=
  u <- unit_of part ;; d <- add_units (now / day_secs) u (- lag) ;; start_of g u d.
Definition end_date (g : globals) (now lag : Z) (part : string) : res Z :=
  u <- unit_of part ;; d <- add_units (now / day_secs) u (- lag) ;; end_of g u d.
Definition add_to_end_date (g : globals) (date lag : Z) (part : string) : res Z :=
  u <- unit_of part ;; d <- add_units (date / day_secs) u lag ;; end_of g u d.

(** ** The regular expressions *)
Fixpoint ralts (l : list string) : rx :=
  match l with [] => RLit "" | [x] => RLit x | x :: r => RAlt (RLit x) (ralts r) end.
Definition r_interval (n : nat) : rx := RGrp n (ralts all_intervals).
Definition r_spaces : rx := RPlus is_space.
Definition r_digits : rx := RPlus is_digit.
(** 259 *)
Definition rx_n_interval : rx :=
  RSeq (RGrp 1 (RAlt r_digits (RAlt (RLit "this") (RLit "last")))) (RSeq r_spaces (r_interval 2)).
(** 287 *)
Definition rx_modifier : rx :=
  RSeq (RGrp 1 (RAlt (RSeq r_digits r_spaces) (RAlt (RSeq (RLit "this") r_spaces) (RAlt (RSeq (RLit "last") r_spaces) REps))))
  (RSeq (r_interval 2) (RSeq r_spaces
  (RGrp 3 (RAlt (RSeq (RLit "ago") (RSeq r_spaces (RSeq (RLit "to") (RSeq r_spaces (RLit "date")))))
          (RAlt (RLit "ago") (RSeq (RLit "to") (RSeq r_spaces (RLit "date")))))))).
(** 328 *)
Definition rx_ago_for : rx :=
  RSeq (RGrp 1 r_digits) (RSeq r_spaces (RSeq (r_interval 2) (RSeq r_spaces (RSeq (RLit "ago") (RSeq r_spaces
  (RSeq (RLit "for") (RSeq r_spaces (RSeq (RGrp 3 r_digits) (RSeq r_spaces (r_interval 4)))))))))).

(** ** Expressions and values *)
(** MetricsLayerFilterExpressionType, 37-77 *)
Inductive fexpr :=
| ELessThan | ELessOrEqual | EEqualTo | ENotEqualTo | EGreaterOrEqual | EGreaterThan | ELike
| EContains | EDoesNotContain | EContainsCI | EDoesNotContainCI
| EStartsWith | EEndsWith | EDoesNotStartWith | EDoesNotEndWith
| EStartsWithCI | EEndsWithCI | EDoesNotStartWithCI | EDoesNotEndWithCI
| EIsNull | EIsNotNull | EIsIn | EIsNotIn | EBooleanTrue | EBooleanFalse | EMatches | EUnknown.
(** Cleaned values.  [CTime] is the string _date_to_string prints. *)
Inductive cval := CNone | CBool (b : bool) | CStr (s : string) | CNum (q : Q) | CStrs (l : list string) | CNums (l : list Q)
| CTime (t : Z) | CLit (s : string).
Notation cond := (fexpr * cval)%type.

(** The value of a filter as the user gives it (lists and floats not modelled) *)
Inductive fval := VNone | VBool (b : bool) | VInt (z : Z) | VStr (s : string) | VLit (s : string).
Definition z_str (z : Z) : string := if z <? 0 then ("-" ++ nat_str (Z.to_nat (- z)))%string else nat_str (Z.to_nat z).
(** str(value) *)
Definition py_str (v : fval) : string :=
  match v with
  | VNone => "None" | VBool true => "True" | VBool false => "False" | VInt z => z_str z | VStr s => s | VLit s => s
  end.

(** datetime.strptime(s, "%Y-%m-%d") in seconds, 470-473: the regex of _strptime, nothing left over,
    and a valid date *)
Definition r_year : rx := RSeq (RCls is_digit) (RSeq (RCls is_digit) (RSeq (RCls is_digit) (RCls is_digit))).
Definition in_chars (l : string) (c : ascii) : bool := has_char c l.
Definition r_month : rx := RAlt (RSeq (RLit "1") (RCls (in_chars "012"))) (RAlt (RSeq (RLit "0") (RCls (in_chars "123456789"))) (RCls (in_chars "123456789"))).
Definition r_day : rx :=
  RAlt (RSeq (RLit "3") (RCls (in_chars "01"))) (RAlt (RSeq (RCls (in_chars "12")) (RCls is_digit))
  (RAlt (RSeq (RLit "0") (RCls (in_chars "123456789"))) (RAlt (RCls (in_chars "123456789")) (RSeq (RLit " ") (RCls (in_chars "123456789")))))).
Definition rx_date : rx := RSeq (RGrp 1 r_year) (RSeq (RLit "-") (RSeq (RGrp 2 r_month) (RSeq (RLit "-") (RGrp 3 r_day)))).
Definition parse_date_string (s : string) : res Z :=
  match rm rx_date s with
  | (c, _, EmptyString) :: _ =>
      let y := py_int (group 1 c) in
      let m := 12 * y + py_int (group 2 c) - 1 in
      let d := py_int (strip (group 3 c)) - 1 in
      if (1 <=? y) && (d <? days_in_month m) then Ok ((month_start m + d) * day_secs) else Err ValueError
  | _ => Err ValueError
  end.

Section Parse.
  Variable num : string -> res Q.       (* pd.to_numeric *)
  Variable now : Z.
  Variable g : globals.

  (** _parse_n_interval, 257-283 *)
  Definition parse_n_interval (s : string) : res (option (list cond)) :=
    match rsearch rx_n_interval s with
    | None => Ok None
    | Some c =>
        let n := group 1 c in let part := group 2 c in
        let lag := if String.eqb n "this" then 0 else if String.eqb n "last" then 1 else py_int n - 1 in
        a <- start_date g now lag part ;;
        b <- end_date g now (if String.eqb n "last" then lag else 0) part ;;
        Ok (Some [(EGreaterOrEqual, CTime a); (ELessOrEqual, CTime b)])
    end.

  (** _parse_n_interval_modifier, 285-324 *)
  Definition parse_modifier (s : string) : res (option (list cond)) :=
    match rsearch rx_modifier s with
    | None => Ok None
    | Some c =>
        let n := strip (group 1 c) in let part := group 2 c in let md := group 3 c in
        let lag := if String.eqb n "this" || String.eqb n "" then 0
                   else if String.eqb n "last" then 1
                   else if String.eqb md "to date" then py_int n - 1
                   else py_int n in
        a <- start_date g now lag part ;;
        if String.eqb md "ago to date" || String.eqb md "to date" then
          p <- start_date g now 0 part ;;
          let days := (now - p) / day_secs in
          let lag := if 0 <? days then days - 1 else 0 in
          b <- add_to_end_date g a lag "day" ;;
          Ok (Some [(EGreaterOrEqual, CTime a); (ELessOrEqual, CTime b)])
        else if String.eqb md "ago" then
          b <- end_date g now lag part ;;
          Ok (Some [(EGreaterOrEqual, CTime a); (ELessOrEqual, CTime b)])
        else Ok (Some [(EGreaterOrEqual, CTime a)])
    end.

  (** _parse_n_interval_ago_for, 326-346 *)
  Definition parse_ago_for (s : string) : res (option (list cond)) :=
    match rsearch rx_ago_for s with
    | None => Ok None
    | Some c =>
        a <- start_date g now (py_int (group 1 c)) (group 2 c) ;;
        b <- add_to_end_date g a (py_int (group 3 c) - 1) (group 4 c) ;;
        Ok (Some [(EGreaterOrEqual, CTime a); (ELessOrEqual, CTime b)])
    end.

  (** parse_date_condition without the until branch, 223-255 *)
  Definition parse_simple (s : string) : res (option (list cond)) :=
    if String.eqb s "today" then
      a <- start_date g now 0 "day" ;; b <- end_date g now 0 "day" ;;
      Ok (Some [(EGreaterOrEqual, CTime a); (ELessOrEqual, CTime b)])
    else if String.eqb s "yesterday" then
      a <- start_date g now 1 "day" ;; b <- end_date g now 1 "day" ;;
      Ok (Some [(EGreaterOrEqual, CTime a); (ELessOrEqual, CTime b)])
    else
      r1 <- parse_ago_for s ;;
      match r1 with
      | Some _ => Ok r1
      | None => r2 <- parse_modifier s ;;
                match r2 with Some _ => Ok r2 | None => parse_n_interval s end
      end.

  (** One side of an until condition, 207-221 *)
  Definition until_first (s : string) : res cond :=
    r <- parse_simple s ;;
    match r with
    | Some (c :: _) => Ok c
    | Some [] => Err IndexError
    | None => t <- parse_date_string s ;; Ok (EGreaterOrEqual, CTime t)
    end.
  Definition until_second (s : string) : res cond :=
    r <- parse_simple s ;;
    match r with
    | Some (c :: l) => Ok (last l c)
    | Some [] => Err IndexError
    | None => t <- parse_date_string s ;; Ok (ELessOrEqual, CTime t)
    end.

  (** parse_date_condition, 199-255.  The parts of a split contain no " until ", so the recursion
      ends after one step. *)
  Definition parse_date_condition (v : fval) : res (option (list cond)) :=
    if contains " until " (py_str v) then
      match v with
      | VStr s => match split_str " until " s with
                  | [a; b] => x <- until_first a ;; y <- until_second b ;; Ok (Some [x; y])
                  | _ => Err ValueError
                  end
      | _ => Err AttributeError
      end
    else match v with
         | VLit _ => parse_simple "today"   (* LiteralValue == "today" is a criterion object, hence truthy *)
         | _ => parse_simple (py_str v)
         end.

  (** all(category[0] == "-" ...) and any(...): stop at the first decisive element, may raise *)
  Fixpoint all_negated (l : list string) : res bool :=
    match l with
    | [] => Ok true
    | x :: r => c <- char_at 0 x ;; if Ascii.eqb c "-" then all_negated r else Ok false
    end.
  Fixpoint any_negated (l : list string) : res bool :=
    match l with
    | [] => Ok false
    | x :: r => c <- char_at 0 x ;; if Ascii.eqb c "-" then Ok true else any_negated r
    end.

  (** 379-468 for a string that is not NULL, -NULL, TRUE, FALSE or a date condition *)
  Definition last_is (c : ascii) (s : string) : bool := match last_char s with Some x => Ascii.eqb x c | None => false end.
  Definition clean_string (s : string) : res cond :=
    let words := split_str " " s in
    let w1 := hd "" words in
    let w2 := join_with " " (firstn 2 words) in
    if mem w1 ["after"; "before"; "on"] || String.eqb w2 "not on" then
      t <- parse_date_string (last words "") ;;
      Ok (if String.eqb w1 "after" then EGreaterOrEqual else if String.eqb w1 "before" then ELessOrEqual
          else if String.eqb w1 "on" then EEqualTo else ENotEqualTo, CTime t)
    else if Nat.ltb 1 (List.length (split_str ", " s)) then
      let l := split_str ", " s in
      a <- all_negated l ;;
      if (a : bool) then Ok (EIsNotIn, CStrs (map (fun c => strip (drop 1 c)) l))
      else b <- any_negated l ;;
           if (b : bool) then Err QueryError else Ok (EIsIn, CStrs (map strip l))
    else if String.eqb (take 2 s) "<=" then q <- num (drop 2 s) ;; Ok (ELessOrEqual, CNum q)
    else if String.eqb (take 2 s) ">=" then q <- num (drop 2 s) ;; Ok (EGreaterOrEqual, CNum q)
    else if String.eqb (take 2 s) "<>" || String.eqb (take 2 s) "!=" then q <- num (drop 2 s) ;; Ok (ENotEqualTo, CNum q)
    else
      c <- char_at 0 s ;;
      if Ascii.eqb c "=" then q <- num (drop 1 s) ;; Ok (EEqualTo, CNum q)
      else if Ascii.eqb c ">" then q <- num (drop 1 s) ;; Ok (EGreaterThan, CNum q)
      else if Ascii.eqb c "<" then q <- num (drop 1 s) ;; Ok (ELessThan, CNum q)
      else if Ascii.eqb c "-" then
        d <- char_at 1 s ;;
        if Ascii.eqb d "%" && last_is "%" s then Ok (EDoesNotContainCI, CStr (drop_last (drop 2 s)))
        else if Ascii.eqb d "%" then Ok (EDoesNotEndWithCI, CStr (drop 2 s))
        else if last_is "%" s then Ok (EDoesNotStartWithCI, CStr (drop_last (drop 1 s)))
        else Ok (ENotEqualTo, CStr (drop 1 s))
      else
        if Ascii.eqb c "%" && last_is "%" s then Ok (EContainsCI, CStr (drop_last (drop 1 s)))
        else if Ascii.eqb c "%" then Ok (EEndsWithCI, CStr (drop 1 s))
        else if last_is "%" s then Ok (EStartsWithCI, CStr (drop_last s))
        else Ok (EEqualTo, CStr s).

  (** _filter_dict after the date condition was computed, 374-468 *)
  Definition clean_value (v : fval) (dc : option (list cond)) : res (list cond) :=
    match v with
    | VLit s => Ok [(EEqualTo, CLit s)]
    | VNone => Ok [(EIsNull, CNone)]
    | VBool b => Ok [(EEqualTo, CBool b)]
    | VInt z =>
        (* 0 == False and 1 == True; any other int has no split() *)
        if z =? 1 then Ok [(EEqualTo, CBool true)] else if z =? 0 then Ok [(EEqualTo, CBool false)]
        else match dc with Some l => Ok l | None => Err AttributeError end
    | VStr s =>
        if String.eqb s "NULL" then Ok [(EIsNull, CNone)]
        else if String.eqb s "-NULL" then Ok [(EIsNotNull, CNone)]
        else if String.eqb s "TRUE" then Ok [(EEqualTo, CBool true)]
        else if String.eqb s "FALSE" then Ok [(EEqualTo, CBool false)]
        else match dc with
             | Some l => Ok l
             | None => c <- clean_string s ;; Ok [c]
             end
    end.
End Parse.

(** _set_week_start_day / _reset_week_start_day, 151-161; week_start_day_lookup, 116-124 *)
Definition week_day (w : option string) : Z :=
  match w with
  | Some d => if String.eqb d "monday" then 0 else if String.eqb d "tuesday" then 1 else if String.eqb d "wednesday" then 2
              else if String.eqb d "thursday" then 3 else if String.eqb d "friday" then 4 else if String.eqb d "saturday" then 5
              else if String.eqb d "sunday" then 6 else 0
  | None => 0
  end.
Definition set_week_start_day (g : globals) (w : option string) : globals :=
  let s := week_day w in Globals s (if s =? 0 then 6 else s - 1).
Definition reset_week_start_day (g : globals) : globals := default_globals.

(** Filter._filter_dict, 348-468, threading the process-wide week start.  An exception in the date
    parser leaves before the reset. *)
Definition filter_dict (num : string -> res Q) (now : Z) (g : globals) (v : fval) (w : option string) : res (list cond) * globals :=
  if String.eqb (py_str v) "" then (Ok [], g)
  else
    let g1 := set_week_start_day g w in
    match parse_date_condition now g1 v with
    | Err e => (Err e, g1)
    | Ok dc => (clean_value num v dc, reset_week_start_day g1)
    end.

(** ** From conditions to criteria: Filter.sql_query, 531-583 *)
Inductive cmp := CmpLt | CmpLe | CmpEq | CmpNe | CmpGe | CmpGt.
Inductive crit :=
| KCmp (c : cmp) (v : cval)
| KLike (fold_case negated : bool) (pattern : string)
| KIsNull | KNotNull
| KIn (v : cval) | KNotIn (v : cval)
| KTrue                       (* the column itself *)
| KNot.                       (* NOT column *)
Definition str_of (v : cval) : string := match v with CStr s => s | _ => "" end.
Definition criterion (num : string -> res Q) (number : bool) (e : fexpr) (v : cval) : res crit :=
  v <- match e, v with
       | EIsIn, CStrs l | EIsNotIn, CStrs l => if number then qs <- mapM num l ;; Ok (CNums qs) else Ok v
       | _, _ => Ok v
       end ;;
  match e with
  | ELessThan => Ok (KCmp CmpLt v)
  | ELessOrEqual => Ok (KCmp CmpLe v)
  | EEqualTo => Ok (KCmp CmpEq v)
  | ENotEqualTo => Ok (KCmp CmpNe v)
  | EGreaterOrEqual => Ok (KCmp CmpGe v)
  | EGreaterThan => Ok (KCmp CmpGt v)
  | ELike => Ok (KLike false false (str_of v))
  | EContains => Ok (KLike false false ("%" ++ str_of v ++ "%"))
  | EDoesNotContain => Ok (KLike false true ("%" ++ str_of v ++ "%"))
  | EContainsCI => Ok (KLike true false ("%" ++ str_of v ++ "%"))
  | EDoesNotContainCI => Ok (KLike true true ("%" ++ str_of v ++ "%"))
  | EStartsWith => Ok (KLike false false (str_of v ++ "%"))
  | EEndsWith => Ok (KLike false false ("%" ++ str_of v))
  | EDoesNotStartWith => Ok (KLike false true (str_of v ++ "%"))
  | EDoesNotEndWith => Ok (KLike false true ("%" ++ str_of v))
  | EStartsWithCI => Ok (KLike true false (str_of v ++ "%"))
  | EEndsWithCI => Ok (KLike true false ("%" ++ str_of v))
  | EDoesNotStartWithCI => Ok (KLike true true (str_of v ++ "%"))
  | EDoesNotEndWithCI => Ok (KLike true true ("%" ++ str_of v))
  | EIsNull => Ok KIsNull
  | EIsNotNull => Ok KNotNull
  | EIsIn => Ok (KIn v)
  | EIsNotIn => Ok (KNotIn v)
  | EBooleanTrue => Ok KTrue
  | EBooleanFalse => Ok KNot
  | EMatches | EUnknown => Err QueryError
  end.
