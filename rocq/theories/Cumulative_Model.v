(** Cumulative metrics: core/sql/query_cumulative_metric.py.  The ungrouped sub query of a metric (144-165) is a
    list of rows here, the time frame is a function to the first day of the period, the aggregation is not
    modelled: a result carries the rows that are aggregated, with their multiplicity. *)
From Coq Require Import List String ZArith Bool.
From Verif Require Import PyBase PyStr Core_Model Merged_Model.
Import ListNotations.
Local Open Scope string_scope.
Local Open Scope list_scope.
Local Open Scope Z_scope.

(** ** The date spine, 15-21 and 113-121: number of the first day and number of days, in PyDate's days *)
Definition spine_start : Z := 730485.               (* 2000-01-01 *)
Definition date_spine (qt : string) : res (Z * Z) :=
  if mem qt ["SNOWFLAKE"; "REDSHIFT"] then Ok (spine_start, 365 * 40)
  else if String.eqb qt "BIGQUERY" then Ok (spine_start, 14611)
  else if String.eqb qt "POSTGRES" then Ok (spine_start, 14611)
  else Err NotImplemented.
Definition days_from (s n : Z) : list Z := map (fun i => s + Z.of_nat i) (seq 0 (Z.to_nat n)).

Section Cumulative.
  Variable V : Type.
  (** group: the values of the dimensions other than the default date, NULL included *)
  Record crow := CRow { cr_day : option Z; cr_group : list (option string); cr_data : V }.
  (** first day of the period of a day; conditions of the query on other fields than the default date; on the
      default date (as a condition on a period); the metric's cumulative_where, on a row and a period *)
  Variable period : Z -> Z.
  Variable where_row : crow -> bool.
  Variable where_period : Z -> bool.
  Variable cumulative_where : crow -> Z -> bool.
  Variable today : Z.

  (** cumulative_subquery, 144-165 *)
  Definition subquery (rows : list crow) : list crow := filter where_row rows.
  (** date_spine_by_time_frame, 123-142: SELECT DISTINCT period FROM date_spine *)
  Fixpoint zdedup (seen l : list Z) : list Z :=
    match l with [] => [] | x :: r => if existsb (Z.eqb x) seen then zdedup seen r else x :: zdedup (x :: seen) r end.
  Definition periods (days : list Z) : list Z := zdedup [] (map period days).
  (** the JOIN, 218-230 *)
  Definition counted (r : crow) (p : Z) : bool :=
    match cr_day r with Some d => (period d <=? p) && cumulative_where r p | None => false end.
  Definition joined (ps : list Z) (rows : list crow) : list (Z * crow) :=
    flat_map (fun p => map (pair p) (filter (fun r => counted r p) rows)) ps.
  (** WHERE date_spine.date <= current_date, 253 *)
  Definition spine_rows (days : list Z) : list Z := filter (fun p => p <=? today) (periods days).
  Fixpoint keq (a b : list (option string)) : bool :=
    match a, b with
    | [], [] => true
    | x :: a, y :: b => match x, y with Some x, Some y => String.eqb x y | None, None => true | _, _ => false end && keq a b
    | _, _ => false
    end.
  Fixpoint gdedup (seen l : list (list (option string))) : list (list (option string)) :=
    match l with [] => [] | x :: r => if existsb (keq x) seen then gdedup seen r else x :: gdedup (x :: seen) r end.
  (** aggregate_cumulative_subquery, 203-275.  With the default date among the dimensions: grouped by period and
      group, HAVING the conditions on the date; without: grouped by group only, and those conditions are dropped
      (270).  Without any dimension there is no GROUP BY and always one row. *)
  Definition with_date (days : list Z) (rows : list crow) : list (Z * list (option string) * list crow) :=
    let j := joined (spine_rows days) (subquery rows) in
    flat_map (fun p =>
      let here := map snd (filter (fun x => fst x =? p) j) in
      if where_period p then map (fun g => (p, g, filter (fun r => keq (cr_group r) g) here)) (gdedup [] (map cr_group here)) else [])
      (spine_rows days).
  Definition without_date (no_dimensions : bool) (days : list Z) (rows : list crow) : list (list (option string) * list crow) :=
    let j := map snd (joined (spine_rows days) (subquery rows)) in
    if no_dimensions then [([], j)]
    else map (fun g => (g, filter (fun r => keq (cr_group r) g) j)) (gdedup [] (map cr_group j)).
End Cumulative.
Arguments CRow {V}. Arguments cr_day {V}. Arguments cr_group {V}. Arguments cr_data {V}.
Arguments with_date {V}. Arguments without_date {V}. Arguments subquery {V}. Arguments joined {V}. Arguments counted {V}.

(** ** The final query, 62-74 and 356-371: the base LEFT JOIN the aggregated sub queries on all dimensions *)
Section Final.
  Variable W : Type.
  Notation key := (list (option string)).
  Fixpoint sql_keq (a b : key) : bool :=
    match a, b with
    | [], [] => true
    | Some x :: a, Some y :: b => String.eqb x y && sql_keq a b
    | _, _ => false
    end.
  Definition left_join (base : list (key * list (option W))) (t : list (key * W)) : list (key * list (option W)) :=
    flat_map (fun b => match filter (fun x => sql_keq (fst b) (fst x)) t with
                       | [] => [(fst b, snd b ++ [None])]
                       | l => map (fun x => (fst b, snd b ++ [Some (snd x)])) l
                       end) base.
  (** base: the non cumulative query, else the first cumulative metric *)
  Definition final (base : list (key * W)) (others : list (list (key * W))) : list (key * list (option W)) :=
    fold_left left_join others (map (fun x => (fst x, [Some (snd x)])) base).
End Final.
Arguments left_join {W}. Arguments final {W}.

(** ** separate_metrics, 89-111.  A metric: its id, whether its type is cumulative, and for type number the
    fields its sql refers to *)
Inductive cmetric := CM (id : string) (cumulative : bool) (number : bool) (refs : list cmetric).
Definition cm_id (m : cmetric) : string := match m with CM i _ _ _ => i end.
Definition type_cumulative (m : cmetric) : bool := match m with CM _ c _ _ => c end.
Definition refs_of (m : cmetric) : list cmetric := match m with CM _ _ _ r => r end.
(** Field.is_cumulative, field.py:2688-2698: the type, or the type of a field referred to *)
Definition is_cumulative (m : cmetric) : bool := type_cumulative m || existsb type_cumulative (refs_of m).
Definition separate_one (m : cmetric) : list cmetric * list cmetric :=
  match m with
  | CM _ _ number refs =>
      if is_cumulative m then
        if number then (filter is_cumulative refs, filter (fun r => negb (is_cumulative r)) refs) else ([m], [])
      else ([], [m])
  end.
Definition separate_metrics (ms : list cmetric) : list cmetric * list cmetric :=
  (dedup_by cm_id (flat_map (fun m => fst (separate_one m)) ms), dedup_by cm_id (flat_map (fun m => snd (separate_one m)) ms)).

(** ** _subquery, 176-201: what it does to the design it is given.  The lookup maps ids to (is measure, field). *)
Section Design.
  Variables F Q : Type.
  Record design := Design { ds_lookup : list (string * (bool * F)); ds_no_group_by : bool }.
  Variable generate : design -> res Q.              (* MetricsLayerQuery(...).get_query() *)
  Definition run_subquery (metrics : list (string * F)) (no_group_by : bool) (d : design) : res Q * design :=
    let d1 := Design (fold_left (fun l m => set_item (fst m) (true, snd m) l) metrics (filter (fun x => negb (fst (snd x))) (ds_lookup d))) no_group_by in
    match generate d1 with
    | Err e => (Err e, d1)
    | Ok q => (Ok q, Design (ds_lookup d) false)
    end.
End Design.
Arguments Design {F}. Arguments ds_lookup {F}. Arguments ds_no_group_by {F}. Arguments run_subquery {F Q}.
