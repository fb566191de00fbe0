(** Measures with a non-additive dimension: Field.non_additive_dimension and its aliases
    (core/model/field.py:451-469, 2675-2686), the conditions they put into the measure's CASE (field.py:279-297),
    MetricsLayerQuery.parse_definition (core/sql/query_generator.py:78-97), the joins of get_query (195-240) and
    _non_additive_cte (377-423).
    Simplified: fields are resolved by [get_field] (design.get_field); [refs m] are the measure itself and its
    referenced_fields (84).  SQL texts of fields stay symbolic.  The temporary field of the sub query is the subject of
    ProjectState.  The where conditions of query and sub query are rows of the specification. *)
From Coq Require Import List String Ascii Bool.
From Verif Require Import PyBase PyStr PySort.
Import ListNotations.
Local Open Scope string_scope.
Local Open Scope list_scope.

(** A resolved field: [f_name] is the name without timeframe, [f_alias] Field.alias() *)
Record fld := Fld { f_view : string; f_name : string; f_alias : string }.
(** Field.id, field.py:175-179 *)
Definition f_id (f : fld) : string := (f_view f ++ "." ++ f_alias f)%string.
(** alias(with_view=True), field.py:482-494 *)
Definition col_alias (f : fld) : string := (f_view f ++ "_" ++ f_alias f)%string.

Inductive choice := CMax | CMin.
Definition choice_text (c : choice) : string := match c with CMax => "max" | CMin => "min" end.

(** The dict of a measure's definition.  window_groupings: None is a missing key.  The defaults of the two flags are
    those of 200 and 221. *)
Record nad := Nad { n_name : string; n_choice : choice; n_groupings : option (list string); n_aware : bool; n_nulls : bool }.
(** A measure: its view and its name *)
Record meas := Meas { m_view : string; m_name : string }.
Definition m_id (m : meas) : string := (m_view m ++ "." ++ m_name m)%string.

(** field.py:455-464 *)
Definition qualify (v n : string) : string := if has_char dot n then n else (v ++ "." ++ n)%string.
(** Field.non_additive_dimension, field.py:452-469; the dict itself is changed: the new value stays in the definition *)
Definition qualified (v : string) (n : nad) : nad :=
  Nad (qualify v (n_name n)) (n_choice n)
      (match n_groupings n with Some (g :: gs) => Some (map (qualify v) (g :: gs)) | g => g end) (n_aware n) (n_nulls n).
(** name.split(".")[-1] *)
Definition last_part (s : string) : string := List.last (split_char dot s) "".
(** field.py:2675-2680; [n] is qualified *)
Definition na_alias (m : meas) (n : nad) : string :=
  (m_view m ++ "_" ++ choice_text (n_choice n) ++ "_" ++ lower (last_part (n_name n)))%string.
(** field.py:2682-2686 *)
Definition na_cte (m : meas) (n : nad) : string := ("cte_" ++ m_name m ++ "_" ++ lower (last_part (n_name n)))%string.

(** The definitions of the project's measures, by id: the shared dicts *)
Definition store := list (string * nad).
Definition put (st : store) (k : string) (n : nad) : store := map (fun e => if String.eqb (fst e) k then (k, n) else e) st.

(** One entry of self.non_additive_ctes *)
Record cte := Cte { c_meas : meas; c_nad : nad; c_alias : string; c_cte : string }.
(** The sub query: its group by columns, the date it aggregates and the alias of the aggregate *)
Record csql := CSql { q_groups : list fld; q_choice : choice; q_date : fld; q_temp : string }.
(** The columns of the sub query in order *)
Definition columns (q : csql) : list string := map col_alias (q_groups q) ++ [q_temp q].
(** One conjunct of the join condition: 1=1, equality with a column, the two forms for equal NULLs *)
Inductive jcond := JTrue | JEq (f : fld) (c : string) | JOrNull (f : fld) (c : string) | JEqualNull (f : fld) (c : string).
Record part := Part { p_cte : string; p_sql : csql; p_on : list jcond }.
(** The conditions a measure's CASE gets from its non-additive dimension: field = cte.column *)
Record wcase := WCase { w_cte : string; w_conds : list (fld * string) }.

Section NonAdditive.
  Variable get_field : string -> res fld.
  Variable refs : string -> res (list meas).
  Variable snowflake : bool.

  (** field.py:279-297 *)
  Definition case_conds (m : meas) (n : nad) : res wcase :=
    let n := qualified (m_view m) n in
    f <- get_field (n_name n) ;;
    gs <- mapM (fun w => g <- get_field w ;; Ok (g, replace "." "_" w)) (match n_groupings n with Some l => l | None => [] end) ;;
    Ok (WCase (na_cte m n) ((f, na_alias m n) :: gs)).

  (** 85-97 *)
  Definition add_cte (st : store) (acc : list cte) (m : meas) : list cte :=
    match assoc (m_id m) st with
    | None => acc
    | Some n =>
        let n := qualified (m_view m) n in
        if mem (na_cte m n) (map c_cte acc) then acc else acc ++ [Cte m n (na_alias m n) (na_cte m n)]
    end.
  (** 80-97; [metrics]: those of the select and those of the having conditions *)
  Definition collect (st : store) (metrics : list string) : res (list cte) :=
    ms <- concatM refs metrics ;; Ok (fold_left (add_cte st) ms []).

  (** 199-207: what is appended to the window groupings *)
  Definition appended (dims : list string) (c : cte) : res (list string) :=
    if n_aware (c_nad c) then Ok (map lower dims)
    else
      nf <- get_field (n_name (c_nad c)) ;;
      filterM (fun d => f <- get_field d ;; Ok (String.eqb (f_name nf) (f_name f))) dims.
  Definition own_groupings (n : nad) : list string := match n_groupings n with Some l => l | None => [] end.
  (** 199-210 *)
  Definition group_dims (dims : list string) (c : cte) : res (list string) :=
    a <- appended dims c ;; Ok (dedup (own_groupings (c_nad c) ++ a)).
  (** The list of 199 is the one of the definition only when it is empty (otherwise non_additive_alias, 94, has put a
      fresh list there): then 201 or 208 extends the definition. *)
  Definition extended (n : nad) (a : list string) : nad :=
    match n_groupings n with
    | Some [] => Nad (n_name n) (n_choice n) (Some a) (n_aware n) (n_nulls n)
    | _ => n
    end.

  (** _non_additive_cte, 377-423: group by columns and the temporary measure *)
  Definition cte_sql (c : cte) (gs : list fld) : res csql :=
    let n := c_nad c in
    f <- get_field (n_name n) ;;
    Ok (CSql gs (n_choice n) f (f_view f ++ "_" ++ lower (choice_text (n_choice n) ++ "_" ++ last_part (n_name n)))%string).
  (** 214-240 *)
  Definition on_conds (n : nad) (gs : list fld) : list jcond :=
    match gs with
    | [] => [JTrue]
    | _ => map (fun f => if n_nulls n then (if snowflake then JEqualNull f (col_alias f) else JOrNull f (col_alias f)) else JEq f (col_alias f)) gs
    end.
  (** One turn of the loop 198-240 *)
  Definition one_part (dims : list string) (c : cte) : res part :=
    ds <- group_dims dims c ;;
    gs <- mapM get_field ds ;;
    q <- cte_sql c gs ;;
    Ok (Part (c_cte c) q (on_conds (c_nad c) gs)).
  Definition leave (dims : list string) (st : store) (c : cte) : store :=
    match appended dims c with Ok a => put st (m_id (c_meas c)) (extended (c_nad c) a) | Err _ => st end.

  Definition by_alias (a b : cte) : bool := String.leb (c_alias a) (c_alias b).
  (** The sub queries and joins of one query, and the definitions it leaves behind *)
  Definition parts (st : store) (metrics dims : list string) : res (list part * store) :=
    cs <- collect st metrics ;;
    let cs := isort by_alias cs in
    ps <- mapM (one_part dims) cs ;;
    Ok (ps, fold_left (leave dims) cs st).
End NonAdditive.
