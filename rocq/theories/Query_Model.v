(** The whole of one grouped query: MetricsLayerDesign.required_views / joins / functional_pk / get_access_filter
    (core/sql/query_design.py:38-52, 183-222, 262-295), MetricsLayerQuery.parse_definition and get_query
    (core/sql/query_generator.py:42-118, 154-184, 285-300, 339-368, 426-448) and the SQL of the fields they ask for
    (Field.sql_query, aggregate_sql_query, _number_aggregate_sql, required_views; core/model/field.py:496-536, 797-838).
    It composes the models of the parts: the join plan (JoinOrder_Model), the functional key (Rel_Model), the aggregates
    (Agg_Model) and the clauses (Clause_Model).
    Left out here: row level queries (Single_Model), ORDER BY and LIMIT (OrderBy_Model), conditions with group_by or
    funnels, non additive measures (NonAdditive_Model), select_raw_sql, derived tables. *)
From Coq Require Import List String Ascii Bool.
From Verif Require Import PyBase PyStr JoinGraph_Model JoinOrder_Model Rel_Model Agg_Model Clause_Model.
Import ListNotations.
Local Open Scope string_scope.
Local Open Scope list_scope.

(** What the generator reads of a field.  qf_refs is fields_to_replace(self.sql) without TABLE, each reference written
    out as view.field (get_field_with_view_info, field.py:2605-2628).  The text of a dimension, or of the argument of
    an aggregate, after substitution is qf_sql (Subst_Model says what it is). *)
Inductive body :=
| BDim                                        (* a dimension, or a timeframe or interval of a dimension group *)
| BAgg (t : mtype) (pk_count : bool)          (* a measure with an aggregate type; pk_count: see Agg_Model *)
| BNum.                                       (* a measure of type number *)
Record qfield := QField {
  qf_view : string; qf_name : string; qf_body : body;
  qf_sql : string; qf_refs : list string;
  qf_pk_sql : string; qf_dk_sql : string }.   (* the SQL of the view's primary key, and of sql_distinct_key *)
(** Field.id(), field.py:175-179, for fields whose name is already lower case *)
Definition qf_id (f : qfield) : string := (qf_view f ++ "." ++ qf_name f)%string.

(** The SQL of a column: the text of a dimension, an aggregate, or the text of a measure of type number with its
    references replaced, each in parentheses *)
Inductive sexp := EDim (id : string) | EAgg (view id : string) (a : ax) | ENum (id : string) (args : list sexp).

Section Fields.
  Variable get_field : string -> res qfield.               (* project.get_field *)
  Variable warehouse_of : warehouse.
  Variable pk : string -> option string.                   (* View.primary_key: its name *)

  (** Field.required_views, 818-838; fuel bounds the depth of the references *)
  Fixpoint required_views (fuel : nat) (f : qfield) : res (list string) :=
    match fuel with
    | O => Err RecursionError
    | S n => vs <- concatM (fun r => h <- get_field r ;; required_views n h) (qf_refs f) ;; Ok (qf_view f :: vs)
    end.
  (** Field.sql_query, 496-536 and 797-816 *)
  Fixpoint sql_query (fuel : nat) (k : fpk) (f : qfield) : res sexp :=
    match qf_body f with
    | BDim => Ok (EDim (qf_id f))
    | BAgg t pc => a <- aggregate t warehouse_of (qf_sql f) (qf_pk_sql f) (qf_dk_sql f) pc (pk_id pk (qf_view f)) k ;; Ok (EAgg (qf_view f) (qf_id f) a)
    | BNum =>
        match fuel with
        | O => Err RecursionError
        | S n => args <- mapM (fun r => h <- get_field r ;; sql_query n k h) (qf_refs f) ;; Ok (ENum (qf_id f) args)
        end
    end.
End Fields.

(** ** The query *)
Section Generator.
  Variable V C : Type.                                     (* the operator and value of a condition; a comparison *)
  Variable get_field : string -> res qfield.
  Variable w : warehouse.
  Variable pk : string -> option string.
  Variable g : graph.
  Variable comp : list (list string * string).
  Variable topo : list vpair -> option (list vpair).
  Variable sp : string -> string -> option (list string).
  Variable as_list : list string -> list string.           (* list(set(l)): in no particular order *)
  Variable valid : qfield -> V -> res unit.                (* MetricsLayerFilter.validate for one condition *)
  Variable compare : qfield -> V -> res (list C).          (* MetricsLayerFilter.criterion: the comparisons *)
  Variable access : string -> res (list (string * list C)). (* for a view: the fields of the access filters that apply to
                                                              the user, with the conditions on each (AccessFilter_Model) *)
  Variable fuel : nat.

  Notation leaf := (string * V)%type.
  Notation atom := (sexp * C)%type.
  Notation tree := (ftree atom leaf).
  Record request := Request {
    rq_metrics : list string; rq_dimensions : list string;
    rq_where : list tree; rq_having : list tree;
    rq_order : list string }.                              (* the fields named in order_by *)
  Record qsql := QSql {
    s_base : string; s_joins : list join;
    s_select : list sexp; s_where : option (list (tok atom)); s_group : list sexp; s_having : option (list (tok atom)) }.

  (** the fields named by conditions, utils.py:19-34 *)
  Fixpoint tree_fields (f : tree) : list string :=
    match f with
    | FLeaf l => [fst l]
    | FLit _ => []
    | FGroup _ cs => flat_map tree_fields cs
    end.
  (** field_lookup, single_query_resolve.py:154-181 *)
  Definition lookup_names (r : request) : list string :=
    rq_metrics r ++ rq_dimensions r ++ flat_map tree_fields (rq_where r) ++ flat_map tree_fields (rq_having r) ++ rq_order r.
  (** _fields_to_unique_views, query_design.py:188-190 *)
  Definition unique_views (fs : list qfield) : res (list string) :=
    vs <- concatM (required_views get_field fuel) fs ;; Ok (as_list vs).
  (** get_access_filter, 262-288: the conditions, as comparisons on the SQL of the field, and the fields *)
  Definition get_access_filter (views : list string) : res (list atom * list qfield) :=
    rs <- concatM (fun v =>
            fs <- access v ;;
            mapM (fun fc => f <- get_field (fst fc) ;;
                            e <- sql_query get_field w pk fuel FNone f ;;
                            Ok (map (fun c => (e, c)) (snd fc), f)) fs) views ;;
    match flat_map fst rs with
    | [] => Ok ([], [])
    | conds => Ok (conds, map snd rs)
    end.
  (** " and ".join(conditions) *)
  Fixpoint and_tokens (l : list atom) : list (tok atom) :=
    match l with
    | [] => []
    | [a] => [TAtom a]
    | a :: r => TAtom a :: TAnd :: and_tokens r
    end.
  Definition access_literal (conds : list atom) : option (list (tok atom)) :=
    match conds with [] => None | _ => Some (and_tokens conds) end.

  (** MetricsLayerFilter(...) and its criterion, query_filter.py:102-152, 195-212, 247-273 *)
  Definition leaf_ok (l : leaf) : res unit := f <- get_field (fst l) ;; valid f (snd l).
  Definition comparisons (k : fpk) (l : leaf) : res (list atom) :=
    f <- get_field (fst l) ;; e <- sql_query get_field w pk fuel k f ;; cs <- compare f (snd l) ;; Ok (map (fun c => (e, c)) cs).
  Definition clause_of (k : fpk) (a : option (list (tok atom))) (fs : list tree) : res (option (list (tok atom))) :=
    where_sql leaf_ok (comparisons k) a (ListWhere fs).
  Definition column (k : fpk) (n : string) : res sexp := f <- get_field n ;; sql_query get_field w pk fuel k f.

  (** The generator *)
  Definition generate (r : request) : res qsql :=
    fs <- mapM get_field (lookup_names r) ;;
    views <- unique_views fs ;;
    acc <- get_access_filter views ;;
    req <- unique_views (fs ++ snd acc) ;;
    js <- joins g comp topo sp req ;;
    base <- base_view_name req js ;;
    let k := fpk_of pk base js in
    sel <- mapM (column k) (rq_dimensions r ++ rq_metrics r) ;;
    wh <- clause_of k (access_literal (fst acc)) (rq_where r) ;;
    gr <- mapM (column FNone) (rq_dimensions r) ;;
    hv <- clause_of k None (rq_having r) ;;
    Ok (QSql base js sel wh gr hv).
End Generator.
Arguments Request {V C}. Arguments rq_metrics {V C}. Arguments rq_dimensions {V C}. Arguments rq_where {V C}. Arguments rq_having {V C}.
Arguments rq_order {V C}. Arguments QSql {C}. Arguments s_base {C}. Arguments s_joins {C}. Arguments s_select {C}. Arguments s_where {C}.
Arguments s_group {C}. Arguments s_having {C}. Arguments tree_fields {V C}. Arguments lookup_names {V C}. Arguments and_tokens {C}.
Arguments access_literal {C}. Arguments get_access_filter {C}. Arguments comparisons {V C}. Arguments leaf_ok {V}. Arguments clause_of {V C}.
Arguments generate {V C}.
