(** The entry points of MetricsLayerConnection (core/query/query.py:89-178), the choice of the model and of the
    warehouse of a query (core/sql/resolve.py:405-470, 523-524). *)
From Verif Require Import PyBase PyStr PySort Core_Model.
Local Open Scope string_scope.
Local Open Scope list_scope.
Local Open Scope nat_scope.

(** ** get_sql_query and query *)
Section Dispatch.
  Variables M C : Type.                     (* a merged_queries entry; a connection *)
  Inductive kind := KSingle | KMerged.
  Inductive used := UMql | UMetrics | UMerged.
  Inductive answer := AText (q : string) | AConn (q : string) (c : option C) | AKind (q : string) (k : kind).

  (** The keyword arguments that decide anything here; all others only reach the resolvers. *)
  Record request := Request {
    rq_sql : option string; rq_metrics : list string; rq_dimensions : list string; rq_merged : list M;
    rq_pretty : bool; rq_connection : bool; rq_kind : bool }.

  (** The three resolvers on this request.  MQLConverter.__init__ cannot fail and leaves connection None
      (convert.py:70-75); SQLQueryResolver.__init__ sets the connection (resolve.py:49), its query_kind is set by
      get_query (resolve.py:68-76); ArbitraryMergedQueryResolver.__init__ validates, leaves connection None and
      sets the kind (arbitrary_merge_resolve.py:30-44).  The connections are those after construction: each is
      read before get_query is called (query.py:129-130, 143-144, 160-161). *)
  Variable mql_query : request -> res string.
  Variable metrics_init : request -> res (option C).
  Variable metrics_query : request -> res (string * kind).
  Variable merged_init : request -> res unit.
  Variable merged_query : request -> res string.
  Variable pretty_sql : string -> string.

  Definition given (s : option string) : bool := match s with None | Some "" => false | _ => true end.
  (** Which resolver ran, and query, connection and (None: the name resolver is not bound) its query_kind;
      query.py:125-166 *)
  Definition dispatch (r : request) : list used * res (string * option C * option kind) :=
    if given (rq_sql r) then ([UMql], q <- mql_query r ;; Ok (q, None, None))
    else match rq_metrics r, rq_dimensions r with
         | [], [] =>
             match rq_merged r with
             | [] => ([], Err QueryError)
             | _ => ([UMerged], _ <- merged_init r ;; q <- merged_query r ;; Ok (q, None, Some KMerged))
             end
         | _, _ => ([UMetrics], c <- metrics_init r ;; q <- metrics_query r ;; Ok (fst q, c, Some (snd q)))
         end.
  (** query.py:168-178 *)
  Definition finish (r : request) (x : string * option C * option kind) : res answer :=
    let '(q, c, k) := x in
    let q := if rq_pretty r then pretty_sql q else q in
    if rq_connection r then Ok (AConn q c)
    else if rq_kind r then match k with Some k => Ok (AKind q k) | None => Err UnboundLocal end
    else Ok (AText q).
  Definition get_sql_query (r : request) : list used * res answer :=
    let '(u, x) := dispatch r in (u, y <- x ;; finish r y).

  (** query, 89-111 and run_query, 175-178: QueryRunner.__init__ reads connection.type (query_runner.py:41) and
      the lookup of supported warehouses raises MetricsLayerConnectionError, here ValueError.  [exec] runs the
      text; connection types are those of [ctype]. *)
  Variable ctype : C -> string.
  Variable T : Type.
  Variable exec : string -> C -> res T.
  Definition runnable : list string := ["SNOWFLAKE"; "BIGQUERY"; "REDSHIFT"; "POSTGRES"].
  Definition run_query (q : string) (c : option C) : res T :=
    match c with
    | None => Err AttributeError
    | Some c => if mem (ctype c) runnable then exec q c else Err ValueError
    end.
  Definition with_connection (r : request) : request :=
    Request (rq_sql r) (rq_metrics r) (rq_dimensions r) (rq_merged r) (rq_pretty r) true (rq_kind r).
  Definition query (r : request) : res T :=
    a <- snd (get_sql_query (with_connection r)) ;;
    match a with AConn q c => run_query q c | _ => Err TypeError end.
End Dispatch.
Arguments Request {M}. Arguments rq_sql {M}. Arguments rq_metrics {M}. Arguments rq_dimensions {M}. Arguments rq_merged {M}.
Arguments rq_pretty {M}. Arguments rq_connection {M}. Arguments rq_kind {M}.
Arguments AText {C}. Arguments AConn {C}. Arguments AKind {C}.
Arguments dispatch {M C}. Arguments finish {M C}. Arguments get_sql_query {M C}. Arguments with_connection {M}. Arguments query {M C}. Arguments run_query {C}.

(** ** The model of a query *)
Section Model.
  (** project.get_field(f).view.model_name, None when the view has no such property *)
  Variable model_name_of : string -> res (option string).
  (** names of project.models(), in order *)
  Variable models : list string.
  (** the mapping names of a model (model.py:144-170; Err: reading the mappings raises) *)
  Variable mappings_of : string -> res (list string).
  (** list(set(...)) *)
  Variable enum : list (option string) -> list (option string).

  (** project.get_model, project.py:369-377 *)
  Definition get_model (n : option string) : res string :=
    match n with Some n => if mem n models then Ok n else Err AccessDenied | None => Err AccessDenied end.
  (** project.get_mapped_field, project.py:508-513: None when there is no such mapping *)
  Definition get_mapped_field (f m : string) : res (option string) :=
    ms <- mappings_of m ;; Ok (if mem (lower f) ms then Some (lower f) else None).
  (** 432-440: the models a name that is not a field is counted for *)
  Definition mapped_models (f : string) : list string :=
    filter (fun m => match get_mapped_field f m with Ok _ => true | Err _ => false end) models.
  Definition collect_models (fs : list string) : list (option string) * list string :=
    fold_left (fun acc f => match model_name_of f with
                            | Ok n => (fst acc ++ [n], snd acc)
                            | Err _ => (fst acc, snd acc ++ mapped_models f)
                            end) fs ([], []).
  (** Counter(l).most_common(): by count, largest first, ties in the order of first occurrence *)
  Definition most_common (l : list string) : list string :=
    map fst (isort (fun a b : string * nat => Nat.leb (snd b) (snd a))
                   (map (fun x => (x, List.length (filter (String.eqb x) l))) (dedup l))).
  (** _derive_model, 426-458 *)
  Definition derive_model (metrics dimensions : list string) : res string :=
    let '(all, mapped) := collect_models (metrics ++ dimensions) in
    match enum all, mapped with
    | [], _ :: _ => match most_common mapped with m :: _ => get_model (Some m) | [] => Err IndexError end
    | [n], [] => get_model n
    | [n], _ => if match n with Some n => mem n mapped | None => false end then get_model n else Err QueryError
    | _, _ => Err QueryError
    end.
  (** _get_model_for_query, 405-424 *)
  Definition model_for_query (model_name : option string) (metrics dimensions : list string) : res string :=
    match model_name with
    | Some (String _ _ as n) => get_model (Some n)
    | _ => match models with [m] => Ok m | [] => Err QueryError | _ => derive_model metrics dimensions end
    end.
End Model.

(** ** The warehouse of a query *)
Record conn := Conn { cn_name : string; cn_type : string }.
(** _get_connection, 523-524 *)
Definition get_connection (cs : list conn) (name : string) : option conn := find (fun c => String.eqb (cn_name c) name) cs.
(** _get_query_type, 460-470 *)
Definition get_query_type (requested : option string) (c : option conn) : res string :=
  match requested, c with Some q, _ => Ok q | None, Some c => Ok (cn_type c) | None, None => Err QueryError end.
