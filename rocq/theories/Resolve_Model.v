(** SQLQueryResolver: the single / merged decision (core/sql/resolve.py:57-92), always_filter collection
    (42-44, 472-500) and the clean-up of filters (45-46, 502-516). *)
From Verif Require Import PyBase PyStr Core_Model.
Local Open Scope string_scope.
Local Open Scope list_scope.

(** ** Single or merged.  [single] and [merged]: what the two sub-resolvers do on this query (94-124). *)
Section GetQuery.
  Variable T : Type.
  Inductive kind := Single | Merged.

  (** any(...) over a generator: stops at the first true, raises at the first exception before it *)
  Fixpoint any_res (l : list (res bool)) : res bool :=
    match l with
    | [] => Ok false
    | r :: rest => b <- r ;; if b then Ok true else any_res rest
    end.
  (** is_merged_result, 57-61: [metrics] is project.get_field(m).is_merged_result for each metric *)
  Definition is_merged_result (metrics : list (res bool)) (specified forced : bool) : res bool :=
    b <- any_res metrics ;; Ok (b || specified || forced).
  (** isinstance(e, QueryError) / JoinError: exceptions.py:11-20.  The handler at 80-92 only rewrites the
      message and raises the exception again. *)
  Definition get_query (metrics : list (res bool)) (specified forced single_query : bool) (single merged : res T) : list kind * res T :=
    match is_merged_result metrics specified forced with
    | Err e => ([], Err e)
    | Ok true => ([Merged], merged)
    | Ok false =>
        match single with
        | Ok q => ([Single], Ok q)
        | Err JoinError => if single_query then ([Single], Err JoinError) else ([Single; Merged], merged)
        | Err e => ([Single], Err e)
        end
    end.
End GetQuery.
Arguments get_query {T}.

(** ** always_filter.  The dicts of a view's always_filter live in the project and are changed in place, so
    they are kept in a store and views hold addresses.  The copy a join_as identifier creates shares the
    dicts of the original view ({**v, **view_args}, core/model/project.py:171). *)
Section Always.
  Variables R C : Type.                            (* the other keys of a filter dict; parsed conditions *)
  Record adict := ADict { ad_field : option string; ad_rest : R }.
  Record aview := AView { av_name : string; av_filters : list nat }.
  (** Filter({**f, **to_add}).filter_dict(json_safe=True) *)
  Variable parse : adict -> res (list C).
  (** project.get_field(s).view *)
  Variable view_of : string -> res aview.
  (** equality of the hashable form of two conditions, 496 *)
  Variable c_eqb : C -> C -> bool.

  Definition store := list adict.
  Fixpoint update (s : store) (a : nat) (d : adict) : store :=
    match s, a with
    | [], _ => []
    | _ :: r, O => d :: r
    | x :: r, S a => x :: update r a d
    end.
  (** One pass of the loop at 480-483: the dict is qualified in place before it is parsed *)
  Definition qualify_at (v : aview) (s : store) (a : nat) : res (store * adict) :=
    match nth_error s a with
    | None => Err KeyError
    | Some f =>
        match ad_field f with
        | None => Err KeyError
        | Some x =>
            if contains "." x then Ok (s, f)
            else let f' := ADict (Some (av_name v ++ "." ++ x)%string) (ad_rest f) in Ok (update s a f', f')
        end
    end.
  (** 478-484; on an exception the changes to the store stay and nothing is collected *)
  Fixpoint view_filters (v : aview) (addrs : list nat) (s : store) (acc : list C) : store * res (list C) :=
    match addrs with
    | [] => (s, Ok acc)
    | a :: r =>
        match qualify_at v s a with
        | Err e => (s, Err e)
        | Ok (s', f) => match parse f with Err e => (s', Err e) | Ok cs => view_filters v r s' (acc ++ cs) end
        end
    end.
  (** 475-487 *)
  Fixpoint collect (fields : list string) (s : store) : store * list C :=
    match fields with
    | [] => (s, [])
    | x :: r =>
        match view_of x with
        | Err _ => collect r s
        | Ok v =>
            let '(s1, p) := view_filters v (av_filters v) s [] in
            let '(s2, cs) := collect r s1 in
            (s2, match p with Ok ps => ps ++ cs | Err _ => cs end)
        end
    end.
  (** _deduplicate_always_where_filters, 491-500 *)
  Fixpoint dedup_seen (seen l : list C) : list C :=
    match l with
    | [] => []
    | c :: r => if existsb (c_eqb c) seen then dedup_seen seen r else c :: dedup_seen (c :: seen) r
    end.
  Definition apply_always_filter (fields : list string) (s : store) : store * list C :=
    let '(s', cs) := collect fields s in (s', dedup_seen [] cs).

  (** ** The where of the query, 41-46.  A condition the user writes, a conditional_filter_logic entry
      (which stands for its contents), or a group. *)
  Inductive wobj := WCond (c : C) | WLogic (o : wobj) | WGroup (cs : list wobj).
  Inductive wclause := WNone | WStr (t : string) | WDict (o : wobj) | WList (l : list wobj).
  Definition falsy (w : wclause) : bool := match w with WNone | WList [] => true | WStr t => String.eqb t "" | _ => false end.
  Fixpoint process_filter (o : wobj) : wobj :=
    match o with
    | WCond c => WCond c
    | WLogic x => x
    | WGroup cs => WGroup (map process_filter cs)
    end.
  Definition clean_conditional (w : wclause) : wclause :=
    match w with
    | WNone | WStr _ => w
    | WDict o => WList [o]
    | WList l => WList (map process_filter l)
    end.
  (** str and dict have no extend *)
  Definition init_where (where_ : wclause) (always : list C) : res wclause :=
    let w := if falsy where_ then WList [] else where_ in
    w' <- match always, w with
          | [], _ => Ok w
          | _, WList l => Ok (WList (l ++ map WCond always))
          | _, _ => Err AttributeError
          end ;;
    Ok (clean_conditional w').
End Always.
Arguments ADict {R}. Arguments ad_field {R}. Arguments ad_rest {R}.
Arguments update {R}. Arguments qualify_at {R}. Arguments view_filters {R C}. Arguments collect {R C}. Arguments apply_always_filter {R C}. Arguments dedup_seen {C}.
Arguments WCond {C}. Arguments WLogic {C}. Arguments WGroup {C}. Arguments WNone {C}. Arguments WStr {C}. Arguments WDict {C}. Arguments WList {C}.
Arguments falsy {C}. Arguments process_filter {C}. Arguments clean_conditional {C}. Arguments init_where {C}.
