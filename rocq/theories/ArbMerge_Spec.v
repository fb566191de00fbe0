(** For C33: what the merged query returns.  A row gives each column a value or NULL. *)
From Verif Require Import PyBase PyStr Merged_Model MergedRows_Spec ArbMerge_Model.
From Coq Require Import ZArith.
Local Open Scope string_scope.
Local Open Scope list_scope.
Local Open Scope nat_scope.

(** ** SQL joins of the sub query [h] to the rows so far; the criteria compare columns of the first sub query
    [b] with columns of [h] *)
Section Joins.
  Variables (tab : string -> list row) (b : string).
  Definition on_row (on : list aeq) (j : jrow) (r : row) : bool :=
    forallb (fun e => sql_eq (col_val j b (ae_base e)) (r (ae_joined e))) on.
  Definition matches (q : ajoin) (j : jrow) : list row := filter (on_row (aj_on q) j) (tab (aj_cte q)).
  Definition add (q : ajoin) (j : jrow) (r : row) : jrow := j ++ [(aj_cte q, r)].
  Definition join_rows (L : list jrow) (q : ajoin) : list jrow :=
    match aj_type q with
    | JLeft => flat_map (fun j => match matches q j with [] => [j] | ms => map (add q j) ms end) L
    | JInner => flat_map (fun j => map (add q j) (matches q j)) L
    | JOuter => flat_map (fun j => match matches q j with [] => [j] | ms => map (add q j) ms end) L
                ++ map (fun r => [(aj_cte q, r)]) (filter (fun r => negb (existsb (fun j => on_row (aj_on q) j r) L)) (tab (aj_cte q)))
    | JCross => flat_map (fun j => map (add q j) (tab (aj_cte q))) L
    end.
  Definition result (js : list ajoin) : list jrow := fold_left join_rows js (map (fun r => [(b, r)]) (tab b)).

  (** ** The intended result: one row per row of the first query, with the matching row of every other *)
  Definition partner (q : ajoin) (r0 : row) : list (string * row) :=
    match filter (fun r => forallb (fun e => sql_eq (r0 (ae_base e)) (r (ae_joined e))) (aj_on q)) (tab (aj_cte q)) with
    | [] => []
    | r :: _ => [(aj_cte q, r)]
    end.
  Definition merged_row (js : list ajoin) (r0 : row) : jrow := (b, r0) :: flat_map (fun q => partner q r0) js.
  (** The sub query has one row per combination of its join columns. *)
  Definition unique_on (q : ajoin) : Prop := NoDup (map (fun r => map (fun e => r (ae_joined e)) (aj_on q)) (tab (aj_cte q))).
End Joins.
