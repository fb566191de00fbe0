(** Duration dimension groups, and the windows of funnels: Field.dimension_group_duration_sql
    (core/model/field.py:911-1010), FilterInterval.plural (core/model/filter.py:94-96). *)
From Verif Require Import PyBase PyStr.
Local Open Scope string_scope.
Local Open Scope list_scope.
Local Open Scope Z_scope.

Inductive side := Start | End_.
(** DATEDIFF('DAY', a, b) / DATEDIFF(DAY, a, b); DATE_DIFF(CAST(a as DATE), CAST(b as DATE), DAY);
    DATE_PART('DAY', AGE(a, b)); TRUNC(DATE_PART('DAY', AGE(a, b))/7) *)
Inductive datom :=
| ADiff (fn : string) (quoted : bool) (unit : string) (a b : side)
| ACast (fn type unit : string) (a b : side)
| APart (part : string) (a b : side)
| ATrunc (part : string) (a b : side) (n : Z).
(** The SQL text: terms with their multipliers joined by " + ".  The pieces are concatenated without
    parentheses, so that text * n multiplies the last term only. *)
Definition dsql := list (datom * list Z).
Fixpoint mul_last (n : Z) (x : dsql) : dsql :=
  match x with [] => [] | [(a, ns)] => [(a, ns ++ [n])] | y :: r => y :: mul_last n r end.
(** f"{x} * {n} + {y}" *)
Definition mul_add (x : dsql) (n : Z) (y : dsql) : dsql := mul_last n x ++ y.
Definition one (a : datom) : dsql := [(a, [])].

Definition units : list (string * string) :=
  [("seconds", "SECOND"); ("minutes", "MINUTE"); ("hours", "HOUR"); ("days", "DAY"); ("weeks", "WEEK"); ("months", "MONTH");
   ("quarters", "QUARTER"); ("years", "YEAR")].
(** Tables where every unit has the same form *)
Definition uniform (fn : string) (quoted : bool) (u : string) : option dsql :=
  match assoc u units with Some n => Some (one (ADiff fn quoted n Start End_)) | None => None end.
(** 935-963 *)
Definition part (p : string) : dsql := one (APart p End_ Start).
Definition pg_days : dsql := part "DAY".
Definition pg_hours : dsql := mul_add pg_days 24 (part "HOUR").
Definition pg_minutes : dsql := mul_add pg_hours 60 (part "MINUTE").
Definition pg_seconds : dsql := mul_add pg_minutes 60 (part "SECOND").
Definition pg_years : dsql := part "YEAR".
Definition postgres (u : string) : option dsql :=
  assoc u [("seconds", pg_seconds); ("minutes", pg_minutes); ("hours", pg_hours); ("days", pg_days);
           ("weeks", one (ATrunc "DAY" End_ Start 7)); ("months", mul_add pg_years 12 (part "month"));
           ("quarters", mul_add pg_years 4 (one (ATrunc "month" End_ Start 3))); ("years", pg_years)].
(** 984-1001 *)
Definition bigquery (u : string) : option dsql :=
  let ts n := one (ACast "TIMESTAMP_DIFF" "TIMESTAMP" n End_ Start) in
  let dt n := one (ACast "DATE_DIFF" "DATE" n End_ Start) in
  assoc u [("seconds", ts "SECOND"); ("minutes", ts "MINUTE"); ("hours", ts "HOUR"); ("days", dt "DAY"); ("weeks", dt "ISOWEEK");
           ("months", dt "MONTH"); ("quarters", dt "QUARTER"); ("years", dt "ISOYEAR")].
Definition duration_sql (qt u : string) : res dsql :=
  let t := if mem qt ["SNOWFLAKE"; "REDSHIFT"; "DUCK_DB"] then uniform "DATEDIFF" true u
           else if String.eqb qt "TRINO" then uniform "DATE_DIFF" true u
           else if String.eqb qt "POSTGRES" then postgres u
           else if String.eqb qt "DRUID" then uniform "TIMESTAMPDIFF" false u
           else if mem qt ["SQL_SERVER"; "DATABRICKS"; "AZURE_SYNAPSE"] then uniform "DATEDIFF" false u
           else if String.eqb qt "BIGQUERY" then bigquery u
           else None in
  match t with Some x => Ok x | None => Err QueryError end.
Definition plural (u : string) : string :=
  (* value[-1] == "s" looks at the value as written *)
  if String.eqb (substring (String.length u - 1) 1 u) "s" then lower u else (lower u ++ "s")%string.

(** The text *)
Definition z_text (n : Z) : string := nat_str (Z.to_nat n).
Section Text.
  Variables start end_ : string.
  Definition side_text (x : side) : string := match x with Start => start | End_ => end_ end.
  Definition atom_text (a : datom) : string :=
    (match a with
     | ADiff fn q u a b => fn ++ "(" ++ (if q then "'" ++ u ++ "'" else u) ++ ", " ++ side_text a ++ ", " ++ side_text b ++ ")"
     | ACast fn ty u a b => fn ++ "(CAST(" ++ side_text a ++ " as " ++ ty ++ "), CAST(" ++ side_text b ++ " as " ++ ty ++ "), " ++ u ++ ")"
     | APart p a b => "DATE_PART('" ++ p ++ "', AGE(" ++ side_text a ++ ", " ++ side_text b ++ "))"
     | ATrunc p a b n => "TRUNC(DATE_PART('" ++ p ++ "', AGE(" ++ side_text a ++ ", " ++ side_text b ++ "))/" ++ z_text n ++ ")"
     end)%string.
  Definition term_text (t : datom * list Z) : string := fold_left (fun s n => (s ++ " * " ++ z_text n)%string) (snd t) (atom_text (fst t)).
  Definition text (x : dsql) : string := join_with " + " (map term_text x).
End Text.
(** tests/test_funnels.py:69 and the text of field.py:936-947 *)
Example duration_text :
  (exists x, duration_sql "POSTGRES" "days" = Ok x /\ text "step_1.step_1_time" "base.orders_order_raw" x = "DATE_PART('DAY', AGE(base.orders_order_raw, step_1.step_1_time))")
  /\ (exists x, duration_sql "POSTGRES" "minutes" = Ok x
      /\ text "s" "e" x = "DATE_PART('DAY', AGE(e, s)) * 24 + DATE_PART('HOUR', AGE(e, s)) * 60 + DATE_PART('MINUTE', AGE(e, s))")
  /\ (exists x, duration_sql "BIGQUERY" "days" = Ok x /\ text "s" "e" x = "DATE_DIFF(CAST(e as DATE), CAST(s as DATE), DAY)")
  /\ plural "Day" = "days" /\ plural "days" = "days".
Proof. repeat split; try (eexists; split; reflexivity). Qed.
