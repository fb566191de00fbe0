(** Conditions that keep the rows of some groups or of some people: conditions with group_by and funnel conditions of a
    query of one statement.  core/sql/single_query_resolve.py:89-130, 151-181, 189-242; core/sql/query_generator.py:41-66,
    155-157, 171-198, 244-253; core/sql/query_filter.py:60-120, 159-205, 225-237, 275-327; core/sql/query_funnel.py:126-149,
    164-180, 223-269; core/model/project.py:523-531, 551-576.
    Simplified: conditions are dictionaries, not texts; the names in the request are full names; the value of a condition
    is no field (query_filter.py:131-137, which also computes the joins before the funnel adds its fields); a group of
    conditions has no group_by of its own; order_by, limit and the conditions on groups of the result are in
    Result_Model.v, the access filters of a view are one test of a row. *)
From Coq Require Import List String Ascii ZArith Bool.
From Verif Require Import PyBase PyStr Core_Model Duration_Model Funnel_Model.
Import ListNotations.
Local Open Scope string_scope.
Local Open Scope list_scope.

Definition val := option string.
(** The definition of a funnel: the steps with the fields of their conditions, the view that gives the date, the window *)
Record funnel (row : Type) := FunnelOf { fn_steps : list (fstep row); fn_fields : list string; fn_view : option string; fn_window : Z }.
Arguments FunnelOf {row}. Arguments fn_steps {row}. Arguments fn_fields {row}. Arguments fn_view {row}. Arguments fn_window {row}.
(** expression and value; the numbers are the keys from and to *)
Inductive expr := Compare (t : val -> bool) | Converted (from to : nat) | DroppedOff (from to : nat).
Record leaf (row : Type) := Leaf { l_field : string; l_expr : expr; l_group : option string; l_funnel : option (funnel row) }.
Arguments Leaf {row}. Arguments l_field {row}. Arguments l_expr {row}. Arguments l_group {row}. Arguments l_funnel {row}.
Inductive cond (row : Type) := CLeaf (l : leaf row) | CGroup (any : bool) (l : list (cond row)).
Arguments CLeaf {row}. Arguments CGroup {row}.
Record request (row : Type) := Request { r_metrics : list string; r_dims : list string; r_where : list (cond row); r_having : list (cond row); r_order : list string }.
Arguments Request {row}. Arguments r_metrics {row}. Arguments r_dims {row}. Arguments r_where {row}. Arguments r_having {row}. Arguments r_order {row}.

Section SetFilter.
  Variable row : Type.
  Notation leaf := (leaf row). Notation cond := (cond row). Notation request := (request row). Notation funnel := (funnel row).
  (** ** The project and the data *)
  Variable view_of : string -> string.
  Variable required : string -> list string.             (* Field.required_views *)
  Variable is_measure : string -> bool.
  Variable default_date : string -> option string.
  Variable primary_key : string -> option string.        (* of a view, its id *)
  Variable customers : list string.                      (* the fields tagged customer or customers *)
  Variable graphs : string -> list string.               (* Field.join_graphs, without those of merged results *)
  (** the value of a field in a row, its instant, the value of a metric over rows of the join of views *)
  Variable value : string -> row -> val.
  Variable instant : string -> row -> option Z.
  Variable metric : string -> list string -> list row -> val.
  (** the rows of the join of views; a row that a user may see, for the access filters of views; the views of these filters *)
  Variable joined : list string -> list row.
  Variable allowed : list string -> row -> bool.
  Variable filter_views : list string -> list string.
  Variable diff : Z -> Z -> Z.

  (** flatten_filters, core/utils.py:19-34 *)
  Fixpoint leaves (c : cond) : list leaf := match c with CLeaf l => [l] | CGroup _ l => flat_map leaves l end.
  Definition no_group (l : leaf) : bool := match l_group l with None => true | Some _ => false end.
  Definition no_funnel (l : leaf) : bool := match l_funnel l with None => true | Some _ => false end.
  (** is_funnel, query_filter.py:73-75 *)
  Definition is_funnel (l : leaf) : bool := match l_expr l with Compare _ => false | _ => true end.
  (** parse_identifiers_from_dicts, single_query_resolve.py:223-232 *)
  Definition identifiers (cs : list cond) : list string := map l_field (filter no_group (flat_map leaves cs)).
  (** parse_input, 151-181 *)
  Definition lookup (r : request) : list string :=
    dedup (r_metrics r ++ r_dims r ++ identifiers (r_where r) ++ identifiers (r_having r) ++ r_order r).
  (** _fields_to_unique_views, query_design.py:188-190 *)
  Definition views (fields : list string) : list string := dedup (flat_map required fields).
  (** required_views, query_design.py:183-186 *)
  Definition all_views (fields : list string) : list string := dedup (views fields ++ filter_views (views fields)).

  (** parse_where and parse_having, 111-126, 137-150 *)
  Definition check_group (lk : list string) (c : cond) : res unit :=
    match c with
    | CLeaf _ | CGroup _ [] => Ok tt
    | CGroup _ l =>
        let fs := map l_field (flat_map leaves l) in
        if forallb (fun f => mem f lk) fs then
          if existsb is_measure fs && existsb (fun f => negb (is_measure f)) fs then Err QueryError else Ok tt
        else Err KeyError
    end.

  (** ** Criteria of rows; group_sql_query, query_filter.py:159-196: group_by and funnel are not looked at *)
  (** None is pypika's EmptyCriterion *)
  Definition both (any : bool) (a b : option (row -> bool)) : option (row -> bool) :=
    match a, b with None, x | x, None => x | Some f, Some g => Some (fun r => if any then f r || g r else f r && g r) end.
  Fixpoint criterion (c : cond) : option (row -> bool) :=
    match c with
    | CLeaf l => match l_expr l with Compare t => Some (fun r => t (value (l_field l) r)) | _ => None end
    | CGroup any l => fold_right (fun c a => both any (criterion c) a) None l
    end.
  (** core/model/filter.py:580-583: converted and dropped_off are unknown as expressions *)
  Definition unknown (c : cond) : bool := existsb is_funnel (leaves c).
  Definition meets (c : cond) (r : row) : bool := match criterion c with Some f => f r | None => true end.

  (** validate, query_filter.py:77-104, for the filter and each filter in it: a group needs conditions *)
  Fixpoint empty_group (c : cond) : bool := match c with CLeaf _ => false | CGroup _ l => (match l with [] => true | _ => false end) || existsb empty_group l end.

  (** ** parse_definition, query_generator.py:41-66 *)
  Definition row_filter (c : cond) : bool := match c with CLeaf l => no_group l && negb (is_funnel l) | CGroup _ _ => true end.
  Definition group_filters (cs : list cond) : list leaf :=
    flat_map (fun c => match c with CLeaf l => if no_group l then [] else [l] | _ => [] end) cs.
  Definition funnel_filters (cs : list cond) : list leaf :=
    flat_map (fun c => match c with CLeaf l => if is_funnel l then [l] else [] | _ => [] end) cs.

  (** x IN (l), in a WHERE *)
  Definition veqb (a b : val) : bool := match a, b with Some a, Some b => String.eqb a b | None, None => true | _, _ => false end.
  Definition null_eq (a b : val) : bool := match a, b with Some a, Some b => String.eqb a b | _, _ => false end.
  Definition isin (x : val) (l : list val) : bool := existsb (null_eq x) l.
  (** NOT x IN (l): a null in l leaves nothing; nothing at all is in an empty l *)
  Definition isnotin (x : val) (l : list val) : bool :=
    match l with [] => true | _ => match x with None => false | Some _ => negb (existsb (null_eq x) l) && forallb (fun v => match v with None => false | Some _ => true end) l end end.

  (** cte, query_filter.py:275-301: SELECT group_by ... GROUP BY group_by HAVING condition, with the fields group_by and
      the metric only *)
  Definition group_cte (g : string) (l : leaf) : res (list val) :=
    match l_expr l with
    | Compare t =>
        let vs := all_views [g; l_field l] in
        let rows := filter (allowed (views [g; l_field l])) (joined vs) in
        let of_group k := filter (fun r => veqb (value g r) k) rows in
        Ok (filter (fun k => t (metric (l_field l) vs (of_group k))) (map (value g) rows))
    | _ => Err QueryError
    end.

  (** ** The funnel of a condition *)
  (** set.intersection, query_funnel.py:259-269 *)
  Fixpoint common (l : list (list string)) : list string :=
    match l with [] => [] | [g] => g | g :: r => filter (fun x => mem x (common r)) g end.
  (** get_field_by_tag and its handler, project.py:523-531, 551-576, and query_funnel.py:138-145: no common join graph is
      no restriction *)
  Definition link_field (gs : list string) : res string :=
    let fs := match gs with [] => customers | _ => filter (fun f => existsb (fun g => mem g (graphs f)) gs) customers end in
    match fs with [f] => Ok f | _ => Err QueryError end.
  Definition direct (c : cond) : list leaf := match c with CLeaf l => [l] | CGroup _ _ => [] end.
  (** list(set(f["field"] for f in self.having)), 132: the order is not specified *)
  Definition having_metrics (cs : list cond) : res (list string) :=
    if existsb (fun c => match c with CGroup _ _ => true | CLeaf _ => false end) cs then Err KeyError else Ok (dedup (map l_field (flat_map direct cs))).
  (** _enrich_query_design, 242-257 *)
  Definition add (f : string) (lk : list string) : list string := if mem f lk then lk else lk ++ [f].
  Fixpoint add_metrics (ms : list string) (lk : list string) : res (list string) :=
    match ms with
    | [] => Ok lk
    | m :: r => match primary_key (view_of m) with None => Err AttributeError | Some k => add_metrics r (add m (add k lk)) end
    end.
  Definition enrich (ms ds lk : list string) : res (list string) := add_metrics ms (fold_left (fun l d => add d l) ds lk).
  (** single_query_resolve.py:103: the conditions of the funnel *)
  Definition of_funnel (c : cond) : bool := match c with CLeaf l => no_funnel l && no_group l | CGroup _ _ => true end.
  (** get_funnel_base, query_funnel.py:126-149: the fields of the design after it, the link and the rows of base *)
  Definition funnel_base (r : request) (fn : funnel) : res (list string * string * list (event row)) :=
    date <- event_date default_date (fn_view fn) (map view_of (r_metrics r)) ;;
    hs <- having_metrics (r_having r) ;;
    let ms := r_metrics r ++ hs in
    let wh := filter of_funnel (r_where r) in
    link <- link_field (common (map graphs (ms ++ [date] ++ fn_fields fn ++ map l_field (flat_map direct wh)))) ;;
    lk <- enrich ms ([date; link] ++ fn_fields fn) (lookup r) ;;
    if existsb unknown wh then Err QueryError else
    let rows := filter (fun x => allowed (views lk) x && forallb (fun c => meets c x) wh) (joined (all_views lk)) in
    Ok (lk, link, map (fun x => Event (value link x) (instant date x) x) rows).
  (** the columns of _cte(n): None when there is no such step *)
  Definition step_column (qs : list (list (srow row))) (n : nat) : option (list val) :=
    match n with O => None | S i => match nth_error qs i with Some q => Some (map (fun s => ev_person (sr_event s)) q) | None => None end end.
  (** funnel_cte, query_filter.py:303-327 *)
  Definition funnel_cte (e : expr) (base : list (event row)) (qs : list (list (srow row))) : option (list val) :=
    match e with
    | Compare _ => None
    | Converted a b | DroppedOff a b =>
        match step_column qs a, step_column qs b with
        | Some la, Some lb =>
            let stays x := match e with Converted _ _ => isin x lb | _ => isnotin x lb end in
            Some (filter (fun x => isin x la && stays x) (map ev_person base))
        | _, _ => None
        end
    end.

  (** ** The query: the rows its metrics are computed over, and the views and tables it uses without having them *)
  Record result := Result { o_views : list string; o_rows : list row; o_missing : list string }.
  Definition missing (vs : list string) (f : string) : list string := filter (fun v => negb (mem v vs)) (required f).
  (** get_query of MetricsLayerQuery, query_generator.py:155-198, 244-253, after SingleSQLQueryResolver.get_query,
      single_query_resolve.py:46-87 *)
  Definition run (r : request) : res result :=
    let lk := lookup r in
    _ <- mapM (check_group lk) (r_where r) ;;
    _ <- mapM (check_group lk) (r_having r) ;;
    if existsb empty_group (r_where r ++ r_having r) then Err ParseError else
    let rows := filter row_filter (r_where r) in
    let ffs := funnel_filters (r_where r) in
    let gfs := group_filters (r_where r) ++ group_filters (r_having r) in
    match ffs with
    | _ :: _ :: _ => Err QueryError                              (* 55-56 *)
    | _ =>
        fn <- match ffs with
              | [] => Ok None
              | l :: _ =>
                  match l_funnel l with
                  | None => Err AttributeError                   (* query_class of the filter is None *)
                  | Some fn => b <- funnel_base r fn ;; qs <- step_queries diff (fn_window fn) (fn_steps fn) (snd b) ;; Ok (Some (b, funnel_cte (l_expr l) (snd b) qs))
                  end
              end ;;
        let lk' := match fn with Some (lk', _, _, _) => lk' | None => lk end in
        let vs := all_views lk' in
        if existsb unknown rows then Err QueryError else
        match gfs with
        | _ :: _ :: _ => Err TypeError                           (* sorted, 190 *)
        | _ =>
            gs <- mapM (fun l => match l_group l with Some g => ks <- group_cte g l ;; Ok (g, ks) | None => Err KeyError end) gfs ;;
            let in_groups x := forallb (fun gk => isin (value (fst gk) x) (snd gk)) gs in
            let in_funnel x := match fn with Some (_, link, _, Some ks) => isin (value link x) ks | _ => true end in
            (* the access filter is that of the fields before the funnel, 47-48 *)
            let keep x := allowed (views lk) x && forallb (fun c => meets c x) rows && in_groups x && in_funnel x in
            Ok (Result vs (filter keep (joined vs))
                 (flat_map (fun gk => missing vs (fst gk)) gs ++
                  match fn with Some (_, link, _, ks) => missing vs link ++ match ks with None => ["step"] | Some _ => [] end | None => [] end))
        end
    end.
End SetFilter.
