(** A query on one join graph: core/sql/single_query_resolve.py (SingleSQLQueryResolver) and the select and group by
    parts of core/sql/query_generator.py. *)
From Coq Require Import List String Ascii Bool.
From Verif Require Import PyBase PyStr PySort OrderBy_Model.
Import ListNotations.
Local Open Scope string_scope.
Local Open Scope list_scope.

(** What the generator reads of a field.  sf_raw is Field.raw_sql_query (field.py:510-515): text, or for a measure of
    type number the list of the fields it refers to (get_referenced_sql_query, 2506-2522), or None. *)
Inductive raw := RawSql (s : string) | RawRefs (l : list string) | RawNone.
Record sfield := SField {
  sf_view : string;
  sf_name : string;           (* the name, with the timeframe or interval of a dimension group (field.py:482-491) *)
  sf_measure : bool;
  sf_cumulative : bool;       (* is_cumulative() *)
  sf_primary_key : bool;
  sf_sql : string;            (* Field.sql_query: for a measure the aggregate *)
  sf_raw : raw
}.
(** Field.alias(with_view=True), field.py:482-494 *)
Definition alias (f : sfield) : string := (sf_view f ++ "_" ++ sf_name f)%string.

(** ** The columns, query_generator.py:285-336 *)
(** a column: text, alias and whether the text is an aggregate *)
Record column := Column { co_sql : string; co_alias : string; co_aggregate : bool }.
Section Columns.
  Variable get_field : string -> res sfield.        (* design.get_field *)

  (** 295-300 *)
  Definition grouped_columns (dimensions metrics : list string) : res (list column) :=
    mapM (fun n => f <- get_field n ;; Ok (Column (sf_sql f) (alias f) (sf_measure f))) (dimensions ++ metrics).
  (** 311-327; the recursion over references is bounded here by fuel *)
  Fixpoint raw_columns (fuel : nat) (f : sfield) : res (list column) :=
    match sf_raw f with
    | RawSql s => Ok [Column s (alias f) false]
    | RawRefs l => match fuel with
                   | O => Err RecursionError
                   | S fuel => concatM (fun r => g <- get_field r ;; raw_columns fuel g) (sort_str l)
                   end
    | RawNone => Ok []
    end.
  (** 302-309 and 329-336.  The key of the deduplication is what follows the last " as ", which is the alias: an
      alias has no space. *)
  Definition ungrouped_columns (fuel : nat) (dimensions metrics : list string) : res (list column) :=
    l <- concatM (fun n => f <- get_field n ;; raw_columns fuel f) (dimensions ++ metrics) ;; Ok (dedup_by co_alias l).
  (** get_group_by_columns, 426-439, without select_raw_sql: an entry is a column alias for BigQuery, else a text *)
  Definition group_by (qt : string) (dimensions : list string) : res (list string) :=
    mapM (fun n => f <- get_field n ;; Ok (if String.eqb qt "BIGQUERY" then alias f else sf_sql f)) dimensions.
  (** select and group by of get_query, 166-180 *)
  Definition select_and_group (qt : string) (no_group_by : bool) (fuel : nat) (dimensions metrics : list string)
    : res (list column * list string) :=
    if no_group_by then s <- ungrouped_columns fuel dimensions metrics ;; Ok (s, [])
    else s <- grouped_columns dimensions metrics ;; g <- group_by qt dimensions ;; Ok (s, g).
End Columns.

(** ** The resolver *)
Section Resolver.
  Variable project_field : string -> res (option sfield).   (* project.get_field *)
  Variable W : Type.                                        (* where, having, order_by *)
  Variable names_of : W -> res (list string).               (* parse_identifiers_from_clause / _from_dicts *)
  Variable parse_where parse_having : W -> res W.           (* 97-152 *)
  Record args := Args {
    ar_metrics : list string; ar_dimensions : list string;
    ar_funnel : option (list string);                       (* keys of the funnel, None when it is empty *)
    ar_where : W; ar_having : W; ar_order_by : W;
    ar_query_type : option string; ar_force_group_by : bool
  }.
  (** parse_funnel, 209-217 *)
  Definition is_funnel (a : args) : res bool :=
    match ar_funnel a with
    | None => Ok false
    | Some ks => if forallb (fun k => mem k ks) ["steps"; "within"] then Ok true else Err QueryError
    end.
  Definition field_or_error (n : string) : res sfield :=
    f <- project_field n ;; match f with Some f => Ok f | None => Err QueryError end.
  Definition repeated (l : list string) : bool := negb (Nat.eqb (List.length (dedup l)) (List.length l)).
  Record state := State {
    st_lookup : list (string * sfield); st_no_group_by : bool; st_cumulative : bool; st_funnel : bool; st_query_type : string }.
  (** parse_input, 154-181 *)
  Definition parse_input (a : args) (wn hn on : list string) : res (list (string * sfield) * bool * bool) :=
    if repeated (ar_metrics a ++ ar_dimensions a) then Err QueryError
    else
      ms <- mapM field_or_error (ar_metrics a) ;;
      ds <- mapM field_or_error (ar_dimensions a) ;;
      let main := match ms with [] => None | m :: _ => Some (sf_view m) end in
      let no_group_by := existsb (fun d => sf_primary_key d && (match main with Some v => String.eqb (sf_view d) v | None => false end) && negb (ar_force_group_by a)) ds in
      ws <- mapM field_or_error wn ;; hs <- mapM field_or_error hn ;; os <- mapM field_or_error on ;;
      Ok (combine (ar_metrics a) ms ++ combine (ar_dimensions a) ds ++ combine wn ws ++ combine hn hs ++ combine on os,
          no_group_by, existsb sf_cumulative ms).
  (** __init__, 9-46 *)
  Definition init (a : args) : res state :=
    fu <- is_funnel a ;;
    wn <- names_of (ar_where a) ;; hn <- names_of (ar_having a) ;; on <- names_of (ar_order_by a) ;;
    match ar_query_type a with
    | None => Err QueryError
    | Some qt => x <- parse_input a wn hn on ;; let '(lk, ng, cu) := x in Ok (State lk ng cu fu qt)
    end.
  (** the generators, as functions of the state and the parsed conditions; the text has no semicolon *)
  Variable generate : kind -> state -> W -> W -> res string.
  (** get_query, 48-91 *)
  Definition get_query (a : args) (semicolon : bool) : res string :=
    s <- init a ;;
    w <- parse_where (ar_where a) ;; h <- parse_having (ar_having a) ;;
    if st_cumulative s && st_funnel s then Err QueryError
    else
      let k := if st_cumulative s then Cumulative else if st_funnel s then Funnel else Single in
      let semicolon := if mem (st_query_type s) ["DRUID"; "TRINO"] then false else semicolon in
      t <- generate k s w h ;; Ok (if semicolon then t ++ ";" else t)%string.
End Resolver.
Arguments Args {W}. Arguments ar_metrics {W}. Arguments ar_dimensions {W}. Arguments ar_funnel {W}. Arguments ar_where {W}.
Arguments ar_having {W}. Arguments ar_order_by {W}. Arguments ar_query_type {W}. Arguments ar_force_group_by {W}.
Arguments init _ {W}. Arguments get_query _ {W}. Arguments parse_input _ {W}. Arguments is_funnel {W}.
