(** WHERE and HAVING clauses: filter groups, their validation, the pypika criteria built from them and
    the text pypika prints (core/sql/query_filter.py:41-212, core/sql/query_generator.py:42-118,172-184,
    core/sql/single_query_resolve.py:97-152,223-242, core/utils.py:19-34).
    Text is a list of tokens.  One comparison (column sql, operator, value) is one token; that a column's
    sql is itself a well delimited expression is not modelled. *)
From Verif Require Import PyBase PyStr Core_Model.
Local Open Scope string_scope.
Local Open Scope list_scope.

Section Clause.
  Variable A : Type.                                (* comparisons *)

  (** ** pypika criteria *)
  Inductive tok := TAtom (a : A) | TAnd | TOr | TOpen | TClose.
  Inductive bop := BAnd | BOr.
  (** A criterion: a comparison, a LiteralValueCriterion (filter.py:21-28, printed verbatim), a
      ComplexCriterion, or the EmptyCriterion. *)
  Inductive pcrit := PAtom (a : A) | PLit (ts : list tok) | PBin (o : bop) (l r : pcrit) | PEmpty.

  (** [crit &= term], [crit |= term]: EmptyCriterion.__and__ returns the other operand *)
  Definition pbin (o : bop) (x y : pcrit) : pcrit := match x with PEmpty => y | _ => PBin o x y end.
  (** Criterion.all, Criterion.any *)
  Definition criterion_all (l : list pcrit) : pcrit := fold_left (pbin BAnd) l PEmpty.
  Definition criterion_any (l : list pcrit) : pcrit := fold_left (pbin BOr) l PEmpty.

  (** ComplexCriterion.needs_brackets: a ComplexCriterion with another comparator *)
  Definition bop_eqb (a b : bop) : bool := match a, b with BAnd, BAnd | BOr, BOr => true | _, _ => false end.
  Definition needs_brackets (o : bop) (t : pcrit) : bool := match t with PBin o' _ _ => negb (bop_eqb o o') | _ => false end.
  Definition op_tok (o : bop) : tok := match o with BAnd => TAnd | BOr => TOr end.
  (** get_sql; an EmptyCriterion has none *)
  Fixpoint get_sql (sub : bool) (c : pcrit) : res (list tok) :=
    match c with
    | PAtom a => Ok [TAtom a]
    | PLit ts => Ok ts
    | PEmpty => Err AttributeError
    | PBin o l r =>
        x <- get_sql (needs_brackets o l) l ;;
        y <- get_sql (needs_brackets o r) r ;;
        let s := x ++ op_tok o :: y in
        Ok (if sub then TOpen :: s ++ [TClose] else s)
    end.

  (** ** Filters *)
  (** A filter as the user writes it: a condition, a literal ({"literal": ...}), or a group *)
  Variable L : Type.
  Inductive ftree := FLeaf (l : L) | FLit (ts : list tok) | FGroup (op : option string) (conds : list ftree).
  (** Validation of one condition, query_filter.py:102-152, and its comparisons: several for a "matches"
      expression, which are ANDed (criterion, 247-273) *)
  Variable leaf_ok : L -> res unit.
  Variable comparisons : L -> res (list A).

  (** MetricsLayerFilter.validate, 78-100 *)
  Definition op_options : list string := ["AND"; "OR"].
  Fixpoint validate (f : ftree) : res unit :=
    match f with
    | FLeaf l => leaf_ok l
    | FLit _ => Ok tt
    | FGroup op conds =>
        match conds with
        | [] => Err ParseError         (* "conditions": [] is falsy; then no key and no literal, 102-106 *)
        | _ =>
            _ <- (fix go (l : list ftree) : res unit := match l with [] => Ok tt | x :: r => _ <- validate x ;; go r end) conds ;;
            match op with
            | Some o => if mem o op_options then Ok tt else Err ParseError
            | None => Ok tt
            end
        end
    end.

  (** MetricsLayerFilter.criterion, 247-273 *)
  Definition criterion (l : L) : res pcrit := cs <- comparisons l ;; Ok (criterion_all (map PAtom cs)).

  (** group_sql_query, 154-193; a literal inside a group has no field *)
  Fixpoint group_sql_query (f : ftree) : res pcrit :=
    match f with
    | FLeaf l => criterion l
    | FLit _ => Err AttributeError
    | FGroup op conds =>
        cs <- (fix go (l : list ftree) : res (list pcrit) :=
                 match l with [] => Ok [] | x :: r => y <- group_sql_query x ;; ys <- go r ;; Ok (y :: ys) end) conds ;;
        match op with
        | Some o => if String.eqb o "OR" then Ok (criterion_any cs)
                    else if String.eqb o "AND" then Ok (criterion_all cs)
                    else Err ParseError
        | None => Ok (criterion_all cs)
        end
    end.
  (** MetricsLayerFilter(...) followed by sql_query(), 41-62 and 195-212 *)
  Definition filter_sql (f : ftree) : res pcrit :=
    _ <- validate f ;;
    match f with FLit ts => Ok (PLit ts) | _ => group_sql_query f end.

  (** The clause of a query: the access filter's literal, then the user's filters, under Criterion.all
      (query_generator.py:48-51, 99-118, 172-174).  pypika's where() ignores an EmptyCriterion.
      [None]: no WHERE clause. *)
  Inductive user_where := NoWhere | LitWhere (ts : list tok) | ListWhere (fs : list ftree).
  Definition parse_filter_object (access : option (list tok)) (w : user_where) : list ftree :=
    (match access with Some ts => [FLit ts] | None => [] end) ++
    match w with NoWhere => [] | LitWhere ts => [FLit ts] | ListWhere fs => fs end.
  Definition where_sql (access : option (list tok)) (w : user_where) : res (option (list tok)) :=
    cs <- mapM filter_sql (parse_filter_object access w) ;;
    match criterion_all cs with
    | PEmpty => Ok None
    | c => ts <- get_sql false c ;; Ok (Some ts)
    end.

  (** ** flatten_filters, utils.py:19-34, with its accumulator.  [OOther]: anything that is neither a dict
      nor a list. *)
  Inductive fobj := OLeaf (l : L) | OGroup (conds : list fobj) | OList (items : list fobj) | OOther.
  Fixpoint recurse (o : fobj) (flat : list L) : list L :=
    match o with
    | OLeaf l => flat ++ [l]
    | OGroup cs | OList cs => (fix go (l : list fobj) (flat : list L) : list L := match l with [] => flat | x :: r => go r (recurse x flat) end) cs flat
    | OOther => flat
    end.
  Definition flatten_filters (o : fobj) : list L := recurse o [].

  (** ** Mixing, single_query_resolve.py:97-152.  [field_type l] is self.field_lookup[l["field"]].field_type *)
  Variable field_type : L -> res string.
  Definition check_group (conds : list fobj) : res unit :=
    match conds with
    | [] => Ok tt
    | _ =>
        types <- mapM field_type (flatten_filters (OList conds)) ;;
        if mem "measure" types && (mem "dimension" types || mem "dimension_group" types) then Err QueryError else Ok tt
    end.
  (** One element of the where or having list, without funnels *)
  Definition check_item (o : fobj) : res unit := match o with OGroup conds => check_group conds | _ => Ok tt end.
  Definition parse_where (items : list fobj) : res (list fobj) := mapM (fun o => _ <- check_item o ;; Ok o) items.
End Clause.
Arguments TAtom {A}. Arguments TAnd {A}. Arguments TOr {A}. Arguments TOpen {A}. Arguments TClose {A}.
Arguments PAtom {A}. Arguments PLit {A}. Arguments PBin {A}. Arguments PEmpty {A}.
Arguments pbin {A}. Arguments criterion_all {A}. Arguments criterion_any {A}. Arguments needs_brackets {A}. Arguments op_tok {A}. Arguments get_sql {A}.
Arguments FLeaf {A L}. Arguments FLit {A L}. Arguments FGroup {A L}.
Arguments NoWhere {A L}. Arguments LitWhere {A L}. Arguments ListWhere {A L}. Arguments parse_filter_object {A L}.
Arguments OLeaf {L}. Arguments OGroup {L}. Arguments OList {L}. Arguments OOther {L}.
Arguments recurse {L}. Arguments flatten_filters {L}.
Arguments validate {A L}. Arguments criterion {A L}. Arguments group_sql_query {A L}. Arguments filter_sql {A L}. Arguments where_sql {A L}.
Arguments check_group {L}. Arguments check_item {L}. Arguments parse_where {L}.
