(** Merging arbitrary queries: core/sql/arbitrary_merge_resolve.py and
    core/sql/query_arbitrary_merged_queries.py.  The resolution of each sub query (SQLQueryResolver) is an
    argument of the model; the text of the sub queries, LIMIT and messages are not modelled. *)
From Verif Require Import PyBase PyStr PySort Merged_Model.
Local Open Scope string_scope.
Local Open Scope list_scope.
Local Open Scope nat_scope.

(** ** Validation (arbitrary_merge_resolve.py:176-218).  The argument is a Python value: strings, lists,
    dicts with string keys, and other values of which only truth matters.  deepcopy is the identity on
    values. *)
Inductive jv := JStr (s : string) | JList (l : list jv) | JDict (d : list (string * jv)) | JOther (truth : bool).
Definition truthy (v : jv) : bool :=
  match v with
  | JStr s => negb (String.eqb s "")
  | JList l => match l with [] => false | _ => true end
  | JDict d => match d with [] => false | _ => true end
  | JOther b => b
  end.
Definition is_list (v : jv) : bool := match v with JList _ => true | _ => false end.
(** "field" in x, for a list *)
Definition has_str (k : string) (l : list jv) : bool :=
  existsb (fun v => match v with JStr s => String.eqb k s | _ => false end) l.
(** arbitrary_merge_resolve.py:200-215: x["field"] of something that is not a dict ends in .get *)
Definition clean_join (x : jv) : res (string * string) :=
  match x with
  | JDict d =>
      match assoc "field" d, assoc "source_field" d with
      | Some (JStr f), Some (JStr s) => Ok (lower f, lower s)
      | _, _ => Err QueryError
      end
  | JStr s => if contains "field" s then Err AttributeError else Err QueryError
  | JList l => if has_str "field" l then Err AttributeError else Err QueryError
  | JOther _ => Err TypeError
  end.
Definition jf_dict (p : string * string) : jv := JDict [("field", JStr (fst p)); ("source_field", JStr (snd p))].
Definition list_key (k : string) (d : list (string * jv)) : bool :=
  match assoc k d with Some v => is_list v | None => false end.
Definition validate_one (first : bool) (q : jv) : res jv :=
  match q with
  | JDict d =>
      if negb (list_key "metrics" d && list_key "dimensions" d) then Err QueryError else
      if match assoc "funnel" d with Some v => truthy v | None => false end then Err QueryError else
      match match assoc "join_fields" d with Some v => v | None => JList [] end with
      | JList jfs =>
          if first then Ok q
          else match jfs with
               | [] => Err QueryError
               | _ => l <- mapM clean_join jfs ;; Ok (JDict (set_item "join_fields" (JList (map jf_dict l)) d))
               end
      | _ => Err QueryError
      end
  | _ => Err QueryError
  end.
Definition validate (l : list jv) : res (list jv) :=
  match l with
  | [] => Ok []
  | q :: r => q' <- validate_one true q ;; r' <- mapM (validate_one false) r ;; Ok (q' :: r')
  end.

(** ** Sub queries *)
(** What is read of a field: id(), alias(with_view=True), datatype *)
Record afield := AF { af_id : string; af_alias : string; af_datatype : string }.
(** A resolved sub query: resolver.metrics, resolver.dimensions, where and order_by field names, mapping_lookup
    (name to fields), field_object_lookup (name to id), and the entries taken from the merged query.  The join
    fields of the first query, which are not checked, are taken to be pairs as well. *)
Record rquery := RQ { rq_metrics : list string; rq_dims : list string; rq_where : list string; rq_order : list string;
                      rq_map : list (string * list string); rq_ids : list (string * string);
                      rq_join : list (string * string); rq_type : option string }.

Section Merge.
  Variable get_field : string -> res afield.            (* project.get_field *)

  (** arbitrary_merge_resolve.py:121-137, 139-143.  The mapping case keeps the field's name. *)
  Definition in_dims (q : rquery) (f : string) : bool := mem f (rq_dims q).
  Definition resolve_side (q : rquery) (name : string) : res string :=
    match assoc name (rq_map q) with
    | Some fields => match find (in_dims q) fields with Some f => Ok f | None => Err JoinError end
    | None =>
        match get_field name with
        | Ok f =>
            let ids := map (fun d => match assoc d (rq_ids q) with Some i => i | None => d end) (rq_dims q) in
            if mem (af_id f) ids then Ok name else Err JoinError
        | Err AccessDenied => Err JoinError
        | Err e => Err e
        end
    end.
  (** arbitrary_merge_resolve.py:106-119 *)
  Definition resolve_joins (primary q : rquery) : res (list (string * string)) :=
    mapM (fun p => f <- resolve_side q (fst p) ;; s <- resolve_side primary (snd p) ;; Ok (f, s)) (rq_join q).

  (** arbitrary_merge_resolve.py:163-174: [cur] is the local variable field_name *)
  Fixpoint add_mapping (q : rquery) (ms : list (string * list string)) (cur : option string)
    (lk : list (string * string)) : res (list (string * string)) :=
    match ms with
    | [] => Ok lk
    | (n, fields) :: r =>
        if match assoc n lk with Some _ => true | None => false end then add_mapping q r cur lk
        else
          let cur' :=
            match find (in_dims q) fields with
            | Some f => Some f
            | None => match find (fun f => mem f (rq_where q)) fields with
                      | Some f => Some f
                      | None => match find (fun f => mem f (rq_order q)) fields with
                                | Some f => Some f
                                | None => cur
                                end
                      end
            end in
          match cur' with
          | None => Err UnboundLocal
          | Some f => add_mapping q r cur' (lk ++ [(n, f)])
          end
    end.
  Fixpoint add_mappings (qs : list rquery) (lk : list (string * string)) : res (list (string * string)) :=
    match qs with [] => Ok lk | q :: r => lk' <- add_mapping q (rq_map q) None lk ;; add_mappings r lk' end.

  (** f"merged_query_{i}" *)
  Definition cte (i : nat) : string := ("merged_query_" ++ nat_str i)%string.

  (** ** SELECT (query_arbitrary_merged_queries.py:113-137) *)
  Record squery := SQ { sq_cte : string; sq_metrics : list string; sq_dims : list string;
                        sq_join : list (string * string); sq_type : option string }.
  Definition alias_of (n : string) : res string := f <- get_field n ;; Ok (af_alias f).
  Fixpoint select_fields (h : string) (fs : list string) (seen : list string) (out : list (string * string))
    : res (list string * list (string * string)) :=
    match fs with
    | [] => Ok (seen, out)
    | n :: r =>
        a <- alias_of n ;;
        if mem a seen then select_fields h r seen out
        else select_fields h r (seen ++ [a]) (out ++ [(h, a)])
    end.
  Fixpoint select_loop (qs : list squery) (seen : list string) (out : list (string * string))
    : res (list (string * string)) :=
    match qs with
    | [] => Ok out
    | q :: r =>
        js <- mapM (fun p => alias_of (fst p)) (sq_join q) ;;
        so <- select_fields (sq_cte q) (sq_metrics q ++ sq_dims q) (seen ++ js) out ;;
        select_loop r (fst so) (snd so)
    end.
  (** The columns, each with the sub query it is taken from *)
  Definition select (qs : list squery) : res (list (string * string)) := select_loop qs [] [].
  (** cte_alias_lookup *)
  Definition lookup_of (out : list (string * string)) : list (string * string) := map (fun p => (snd p, fst p)) out.

  (** ** FROM (query_arbitrary_merged_queries.py:63-111) *)
  Inductive jtype := JLeft | JInner | JOuter | JCross.
  (** query_base.py:55-68; a missing join_type is left_outer *)
  Definition join_type (t : option string) : jtype :=
    match t with
    | Some "inner" => JInner
    | Some "full_outer" => JOuter
    | Some "cross" => JCross
    | _ => JLeft
    end.
  (** base alias, joined alias, cast *)
  Record aeq := AE { ae_base : string; ae_joined : string; ae_cast : bool }.
  Definition criteria (query_type : string) (l : list (string * string)) : res (list aeq) :=
    mapM (fun p => f <- get_field (fst p) ;; b <- get_field (snd p) ;;
                   Ok (AE (af_alias b) (af_alias f)
                          (String.eqb query_type "BIGQUERY" && negb (String.eqb (af_datatype b) (af_datatype f))))) l.
  (** [None] is Redshift's cross join; an empty list is 1=1 *)
  Record ajoin := AJ { aj_cte : string; aj_type : jtype; aj_on : list aeq }.
  Definition join_query (query_type : string) (q : squery) : res ajoin :=
    match sq_join q with
    | [] => if String.eqb query_type "REDSHIFT" then Ok (AJ (sq_cte q) JCross []) else Ok (AJ (sq_cte q) (join_type (sq_type q)) [])
    | l => on <- criteria query_type l ;; Ok (AJ (sq_cte q) (join_type (sq_type q)) on)
    end.

  (** ** WHERE, HAVING, ORDER BY on output columns (query_arbitrary_merged_queries.py:24-55,
      query_filter.py:214-224); a condition is its field, groups are not accepted (w["field"]) *)
  Definition column (lk : list (string * string)) (name : string) : res (string * string) :=
    a <- alias_of name ;;
    match assoc a lk with Some h => Ok (h, a) | None => Err QueryError end.
  (** arbitrary_merge_resolve.py:81-87 *)
  Definition clean_name (ml : list (string * string)) (n : string) : string :=
    match assoc (lower n) ml with Some f => f | None => n end.

  (** ** get_query (arbitrary_merge_resolve.py:51-104).  A condition without "field" is a KeyError.  The mapping
      lookups of all queries are read before any join field is resolved; this only matters for which of two
      errors is raised. *)
  Record aquery := AQ { aq_select : list (string * string); aq_from : string; aq_joins : list ajoin;
                        aq_where : list (string * string); aq_having : list (string * string);
                        aq_order : list (string * string) }.
  Definition named (l : list (option string)) : res (list string) :=
    mapM (fun o => match o with Some n => Ok n | None => Err KeyError end) l.
  Fixpoint sub_queries (primary : rquery) (i : nat) (qs : list rquery) : res (list squery) :=
    match qs with
    | [] => Ok []
    | q :: r =>
        js <- (if Nat.eqb i 0 then Ok (rq_join q) else resolve_joins primary q) ;;
        l <- sub_queries primary (S i) r ;;
        Ok (SQ (cte i) (rq_metrics q) (rq_dims q) js (rq_type q) :: l)
    end.
  Definition get_query (query_type : string) (qs : list rquery) (where_ having order : list (option string)) : res aquery :=
    match qs with
    | [] => Err IndexError
    | primary :: rest =>
        ml <- add_mappings (primary :: qs) [] ;;
        sqs <- sub_queries primary 0 qs ;;
        w <- named where_ ;; h <- named having ;; o <- named order ;;
        js <- mapM (join_query query_type) (tl sqs) ;;
        out <- select sqs ;;
        let lk := lookup_of out in
        w' <- mapM (fun n => column lk (clean_name ml n)) w ;;
        h' <- mapM (fun n => column lk (clean_name ml n)) h ;;
        o' <- mapM (fun n => column lk (clean_name ml n)) o ;;
        Ok (AQ out (cte 0) js w' h' o')
    end.
End Merge.
