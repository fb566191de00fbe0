(** The clauses of a request: where the having, order_by and limit of a request go in the four kinds of queries, and
    which metrics they add.  core/sql/query_generator.py:41-76, 171-186, 255-277; core/sql/query_cumulative_metric.py:43-111,
    144-201, 373-391; core/sql/query_funnel.py:38-101, 126-149, 223-257; core/sql/merged_query_resolve.py:44-152;
    core/sql/query_merged_results.py:18-94, 131-139; core/sql/query_base.py:18-36. *)
From Coq Require Import List String Ascii ZArith Bool.
From Verif Require Import PyBase PyStr Core_Model Merged_Model Cumulative_Model OrderBy_Model.
Import ListNotations.
Local Open Scope string_scope.
Local Open Scope list_scope.

(** ** The request *)
Definition val := option Z.
(** A condition: a field and a test of its value, or a group of conditions *)
Inductive hcond := HLeaf (field : string) (test : val -> bool) | HGroup (any : bool) (conditions : list hcond).
(** A text is seen as the fields it names and the test it makes *)
Inductive having := HNone | HText (fields : list string) (test : (string -> val) -> bool) | HList (l : list hcond).
(** [if having] *)
Definition given (h : having) : bool := match h with HNone => false | HText _ _ => true | HList l => match l with [] => false | _ => true end end.
(** flatten_filters, core/utils.py:20-36, then the fields *)
Fixpoint leaf_fields (c : hcond) : list string := match c with HLeaf f _ => [f] | HGroup _ l => flat_map leaf_fields l end.
(** parse_field_names, core/sql/single_query_resolve.py:189-207 *)
Definition having_fields (h : having) : list string :=
  match h with HNone => [] | HText fs _ => fs | HList l => flat_map leaf_fields l end.
(** Criterion.all and Criterion.any of the criteria.  A group of no conditions is refused when the filter is made
    (core/sql/query_filter.py:88-109), which is not modelled here (see SetFilter_Model.v): here it keeps everything. *)
Fixpoint holds (c : hcond) (v : string -> val) : bool :=
  match c with
  | HLeaf f t => t (v f)
  | HGroup any l => match l with [] => true | _ => if any then existsb (fun c => holds c v) l else forallb (fun c => holds c v) l end
  end.
Definition having_holds (h : having) (v : string -> val) : bool :=
  match h with HNone => true | HText _ t => t v | HList l => forallb (fun c => holds c v) l end.

(** order_by, as parsed (OrderBy_Model): the fields and directions *)
Definition ordering := list (string * dir).
Record request (W : Type) := Request { q_metrics : list string; q_dims : list string; q_where : W; q_having : having; q_order : ordering; q_limit : option nat }.
Arguments Request {W}. Arguments q_metrics {W}. Arguments q_dims {W}. Arguments q_where {W}. Arguments q_having {W}.
Arguments q_order {W}. Arguments q_limit {W}.

Section Result.
  (** W: where clauses.  K: what tells the rows of a result apart, i.e. the values of the dimensions of a group, or the
      row of the joined tables when nothing is grouped *)
  Variables W K : Type.
  Variable keqb : K -> K -> bool.
  Definition row := (K * list (string * val))%type.
  Notation req := (request W).
  (** the columns besides the dimensions, the rows that pass the conditions, the order, the limit, and the columns that
      its conditions name although no table or column of the statement has that name *)
  Record stmt := Stmt { st_columns : list string; st_rows : list row; st_order : ordering; st_limit : option nat; st_missing : list string }.
  Definition cell (r : row) (f : string) : val := match assoc f (snd r) with Some v => v | None => None end.
  (** the rows of a statement used as a table *)
  Definition cte (s : stmt) : list row := match st_limit s with None => st_rows s | Some n => firstn n (st_rows s) end.

  (** ** The data, which are not modelled here *)
  Variable view_of : string -> string.
  Variable is_measure : string -> bool.
  Variable where_fields : W -> list string.
  (** the rows and the groups of the joined views under a where clause, and the value of a metric in a group or of its
      sql in a row *)
  Variable raw : list string -> W -> list K.
  Variable groups : list string -> list string -> W -> list K.
  Variable value : list string -> W -> string -> K -> val.
  Variable qt : string.
  (** does the warehouse let a WHERE use the names of the select (Snowflake does, Postgres and BigQuery do not) *)
  Variable alias_in_where : bool.

  (** the views of design.field_lookup, core/sql/query_design.py: in the order of the lookup *)
  Definition views (lookup : list string) : list string := dedup (map view_of lookup).
  Definition rows_of (ks : list K) (cols : list string) (v : string -> K -> val) : list row :=
    map (fun k => (k, map (fun m => (m, v m k)) cols)) ks.
  (** parse_input, single_query_resolve.py:151-181 *)
  Definition lookup (r : req) : list string :=
    dedup (q_metrics r ++ q_dims r ++ where_fields (q_where r) ++ having_fields (q_having r) ++ map fst (q_order r)).

  (** ** MetricsLayerQuery: query_generator.py:41-76 and 171-186, 255-277 *)
  Definition default_order (ms ds : list string) : ordering :=
    if mem qt ["SNOWFLAKE"; "REDSHIFT"; "DUCK_DB"] then
      match ms ++ ds with [] => [] | f :: _ => [(f, if is_measure f then Desc else Asc)] end
    else [].
  Definition plain (no_group_by : bool) (lk : list string) (r : req) : res stmt :=
    _ <- (if given (q_having r) && no_group_by then Err ArgumentError else Ok tt) ;;
    _ <- match q_order r with _ :: _ => if no_group_by then Err ArgumentError else Ok tt | [] => Ok tt end ;;
    let vs := views lk in
    let order := if no_group_by then [] else match q_order r with [] => default_order (q_metrics r) (q_dims r) | o => o end in
    let ks := if no_group_by then raw vs (q_where r)
              else filter (fun k => having_holds (q_having r) (fun f => value vs (q_where r) f k)) (groups vs (q_dims r) (q_where r)) in
    Ok (Stmt (q_metrics r) (rows_of ks (q_metrics r) (value vs (q_where r))) order (q_limit r) []).

  (** the conditions of an outer statement on the columns of its tables and of its own select, query_base.py:18-36;
      a text is no list of dictionaries *)
  Definition outer (cols table_columns : list string) (rows : list row) (h : having) (limit : option nat) : res stmt :=
    match h with
    | HText _ _ => Err TypeError
    | _ => Ok (Stmt cols
                 (map (fun x => (fst x, map (fun c => (c, cell x c)) cols)) (filter (fun x => having_holds h (cell x)) rows))
                 [] limit (filter (fun f => negb (mem f (table_columns ++ if alias_in_where then cols else []))) (having_fields h)))
    end.

  (** ** CumulativeMetricsQuery: query_cumulative_metric.py:43-111, 144-201 *)
  Variable metric : string -> cmetric.
  (** the conditions that are not on the dates; the dimensions of the sub query of a metric (its date and the
      fields of its cumulative_where are added); the groups and values of the accumulated metric over the rows of its
      sub query (Cumulative_Model); the value of a metric of type number from the values it refers to *)
  Variable row_part : W -> W.
  Variable sub_dims : string -> list string -> list string.
  Variable acc_groups : string -> list string -> W -> list K -> list K.
  Variable acc_value : string -> list K -> K -> val.
  Variable number : string -> (string -> val) -> val.
  (** _subquery, 176-201.  The order of the request is kept in the definition of the sub query *)
  Definition subquery (r : req) (ms ds : list string) (w : W) (no_group_by : bool) : res stmt :=
    plain no_group_by (dedup (filter (fun f => negb (is_measure f)) (lookup r) ++ ms)) (Request ms ds w HNone (q_order r) None).
  (** the fields of the metrics and of the having clause, 91-95: a text is no list, a group has no field *)
  Definition named_metrics (r : req) : res (list string) :=
    match q_having r with
    | HNone => Ok (q_metrics r)
    | HText _ _ => Err TypeError
    | HList l => fs <- mapM (fun c => match c with HLeaf f _ => Ok f | HGroup _ _ => Err KeyError end) l ;; Ok (q_metrics r ++ fs)
    end.
  Definition accumulated (r : req) (m : string) : res (string * list row) :=
    s <- subquery r [m] (sub_dims m (q_dims r)) (row_part (q_where r)) true ;;
    let ks := map fst (cte s) in
    Ok (m, map (fun k => (k, [(m, acc_value m ks k)])) (acc_groups m (q_dims r) (q_where r) ks)).
  Definition find_row (k : K) (t : list row) : option row := find (fun x => keqb (fst x) k) t.
  (** a row of the base with the columns of the others, LEFT JOIN on the dimensions (356-371); Cumulative_Model's final
      is the same join, C35_final says when it neither loses nor doubles rows *)
  Definition joined_cell (tabs : list (string * list row)) (base : row) (f : string) : val :=
    match assoc f (snd base) with
    | Some v => v
    | None => match assoc f tabs with
              | Some t => match find_row (fst base) t with Some x => cell x f | None => None end
              | None => None
              end
    end.
  (** the select, 373-391 *)
  Definition selected (r : req) (tabs : list (string * list row)) (base : row) (f : string) : val :=
    match metric f with
    | CM _ _ true refs => if is_cumulative (metric f) then number f (joined_cell tabs base) else joined_cell tabs base f
    | _ => joined_cell tabs base f
    end.
  Definition cumulative (r : req) : res stmt :=
    ns <- named_metrics r ;;
    let '(cs, ps) := separate_metrics (map metric ns) in
    tabs <- mapM (fun c => accumulated r (cm_id c)) cs ;;
    base <- match ps with
            | [] => match tabs with (_, t) :: _ => Ok t | [] => Err IndexError end
            | _ => s <- subquery r (map cm_id ps) (q_dims r) (q_where r) false ;; Ok (cte s)
            end ;;
    let others := match ps with [] => tl tabs | _ => tabs end in
    let all := map (fun x => (fst x, map (fun f => (f, selected r others x f)) (dedup (q_metrics r ++ map cm_id ps)))) base in
    (** the accumulated tables call their column by the measure (225-226), so the metric is a name of the select only *)
    outer (q_metrics r) (map cm_id ps) all (q_having r) (q_limit r).

  (** ** FunnelQuery: query_funnel.py:38-101, 126-149, 223-257 *)
  (** what a funnel adds: the event date, the link field, the fields of the steps; the primary key of a metric's view;
      groups (with the step) and values over the rows of the base *)
  Variable funnel_fields : list string.
  Variable primary_key : string -> string.
  Variable step_groups : list string -> list K -> list K.
  Variable step_value : string -> list K -> K -> val.
  (** 132: a text gives characters, a group has no field *)
  Definition having_metrics (h : having) : res (list string) :=
    match h with
    | HNone => Ok []
    | HText _ _ => Err TypeError
    | HList l => fs <- mapM (fun c => match c with HLeaf f _ => Ok f | HGroup _ _ => Err KeyError end) l ;; Ok (dedup fs)
    end.
  Definition funnel (r : req) : res stmt :=
    hs <- having_metrics (q_having r) ;;
    let ms := q_metrics r ++ hs in
    let lk := dedup (lookup r ++ q_dims r ++ funnel_fields ++ flat_map (fun m => [primary_key m; m]) ms) in
    s <- plain true lk (Request ms (q_dims r ++ funnel_fields) (q_where r) HNone (q_order r) None) ;;
    let ks := map fst (cte s) in
    let rows := rows_of (step_groups (q_dims r) ks) ms (fun m k => step_value m ks k) in
    outer ms ms rows (q_having r) (q_limit r).

  (** ** MergedSQLQueryResolver and MetricsLayerMergedResultsQuery *)
  (** the metrics a merged result metric refers to; the sub query of a metric, and the dimensions and the where clause of a
      sub query (MergedDerive_Model) *)
  Variable merged_refs : string -> option (list string).
  Variable sub_of : string -> string.
  Variable dims_in : string -> list string -> list string.
  Variable where_in : string -> W -> W.
  Definition is_merged (m : string) : bool := match merged_refs m with Some _ => true | None => false end.
  (** merged_query_resolve.py:115-131: those of the request, then those of the having clause that are not there yet *)
  Definition add_new (l fs : list string) : list string := fold_left (fun l f => if mem f l then l else l ++ [f]) fs l.
  (** 124-131 compare with the metrics of the request only, so a metric named twice comes twice; the same after
      deduplicate_fields (153) and existing_aliases (query_merged_results.py:80-86, 131-137) *)
  Definition merged_metrics (r : req) : list string :=
    add_new (filter is_merged (q_metrics r)) (filter is_merged (flat_map leaf_fields (match q_having r with HList l => l | _ => [] end))).
  Definition secondary_metrics (r : req) : list string :=
    add_new (filter (fun m => negb (is_merged m)) (q_metrics r))
            (filter (fun m => negb (is_merged m)) (flat_map leaf_fields (match q_having r with HList l => l | _ => [] end))).
  Definition query_metrics (r : req) : list string :=
    dedup (flat_map (fun m => match merged_refs m with Some l => l | None => [] end) (merged_metrics r) ++ secondary_metrics r).
  (** one sub query per date and join graph of a metric; sub queries with dimensions only (207-217) are not modelled *)
  Definition sub_names (r : req) : list string := dedup (map sub_of (query_metrics r)).
  (** 60-77: no having, no order, no limit *)
  Definition sub_query (r : req) (h : string) : res (string * stmt) :=
    let ms := filter (fun m => String.eqb (sub_of m) h) (query_metrics r) in
    let q := Request ms (dims_in h (q_dims r)) (where_in h (q_where r)) HNone [] None in
    s <- plain false (lookup q) q ;; Ok (h, s).
  Fixpoint kdedup (seen l : list K) : list K :=
    match l with [] => [] | x :: r => if existsb (keqb x) seen then kdedup seen r else x :: kdedup (x :: seen) r end.
  (** FULL OUTER JOIN of the sub queries on their dimensions: every combination once, as C32_exactly_once proves for two sub
      queries (and refutes for more) *)
  Definition merged (r : req) : res stmt :=
    subs <- mapM (sub_query r) (sub_names r) ;;
    let ks := kdedup [] (flat_map (fun s => map fst (cte (snd s))) subs) in
    let col (k : K) (m : string) : val :=
      match assoc (sub_of m) subs with
      | Some s => match find_row k (cte s) with Some x => cell x m | None => None end
      | None => None
      end in
    let cols := dedup (query_metrics r ++ merged_metrics r) in
    let all := rows_of ks cols (fun m k => if is_merged m then number m (col k) else col k m) in
    outer cols (query_metrics r) all (q_having r) (q_limit r).
End Result.
