(** What a query does to the lists and dicts it was asked with: SQLQueryResolver.__init__ (core/sql/resolve.py:36-53),
    _clean_conditional_filter_syntax (502-516), _replace_mapped_field (374-406) and SingleSQLQueryResolver.parse_where
    (core/sql/single_query_resolve.py:97-130). The caller's objects are followed: the result of a call is the request as it was
    resolved, and the objects as the caller finds them afterwards. The choice of fields for mapped names is Mapping_Model.v, the
    conditions of always_filter are Resolve_Model.v (a parameter here).
    Simplified: the lists given are different objects; the query is answered as one statement (a query that fails may leave the
    names of some mappings replaced and others not); order_by is a list or text; the value of a condition is not changed anywhere. *)
From Coq Require Import List String Bool.
From Verif Require Import PyBase PyStr Mapping_Model.
Import ListNotations.
Local Open Scope string_scope.
Local Open Scope list_scope.

Section Args.
  Variable R : Type.                                       (* the other keys of a dict *)
  (** A condition: its keys field, conditions, conditional_filter_logic, funnel, query_class (the last two: present or not) *)
  Inductive cdict := CDict (field : option string) (conds : option (list cdict)) (logic : option cdict) (funnel stamped : bool) (rest : R).
  Definition cd_field (d : cdict) := let '(CDict f _ _ _ _ _) := d in f.
  Definition cd_conds (d : cdict) := let '(CDict _ cs _ _ _ _) := d in cs.
  Definition cd_logic (d : cdict) := let '(CDict _ _ l _ _ _) := d in l.
  Definition cd_funnel (d : cdict) := let '(CDict _ _ _ u _ _) := d in u.
  Definition cd_stamped (d : cdict) := let '(CDict _ _ _ _ s _) := d in s.
  (** What a resolved condition keeps of the dict beside field and conditions: all but query_class *)
  Definition kept := (R * bool * option cdict)%type.
  Variable group_by : R -> bool.                           (* the dict has the key group_by *)
  Definition kept_group_by (k : kept) : bool := group_by (fst (fst k)).
  Inductive aclause := ANone | AText (t : string) | ADict (d : cdict) | AList (l : list cdict).
  Record args := Args { a_metrics : list string; a_dims : list string; a_where : aclause; a_having : aclause; a_order : aclause }.

  (** process_filter: the value it returns. The list under conditions is put into the same dict, so a dict without
      conditional_filter_logic is itself the value, and the caller's dict has changed with it. *)
  Fixpoint process (d : cdict) : cdict :=
    match d with
    | CDict _ _ (Some x) _ _ _ => x
    | CDict f (Some cs) None u s r => CDict f (Some (map process cs)) None u s r
    | CDict _ None None _ _ _ => d
    end.
  Definition process_leaves (d : cdict) : cdict := match cd_logic d with Some _ => d | None => process d end.

  (** the value as Mapping_Model.v reads it *)
  Fixpoint as_robj (d : cdict) : robj kept :=
    match d with CDict f cs l u s r => RDict f (match cs with Some cs => Some (map as_robj cs) | None => None end) (r, u, l) end.
  Definition as_clause (c : aclause) : clause kept :=
    match c with ANone => CNone | AText t => CText t | ADict d => CList [as_robj d] | AList l => CList (map as_robj l) end.

  Variable get_field : string -> res mfld.
  Variable get_mapped : string -> option mapping.
  Variable special : string -> bool.
  Variable n_measures : string -> res nat.
  Variable enum : list string -> list string.
  Variable idents : string -> list string.
  Variable always : list string -> list cdict.             (* _apply_always_filter(metrics + dimensions), new dicts *)

  Definition falsy (c : aclause) : bool := match c with ANone | AList [] => true | AText t => String.eqb t "" | _ => false end.
  (** 41-44: self.where is the caller's list itself, when it has elements *)
  Definition extended (c : aclause) (aw : list cdict) : res aclause :=
    match aw with
    | [] => Ok (if falsy c then AList [] else c)
    | _ => if falsy c then Ok (AList aw) else match c with AList l => Ok (AList (l ++ aw)) | _ => Err AttributeError end
    end.
  (** 502-516 *)
  Definition cleaned (c : aclause) : aclause :=
    match c with
    | ADict d => AList [d]
    | AList l => AList (map process l)
    | _ => c
    end.
  Definition resolve_args (a : args) : res (query kept) :=
    w <- extended (a_where a) (always (a_metrics a ++ a_dims a)) ;;
    resolve kept_group_by get_field get_mapped special n_measures enum idents []
      (Query (a_metrics a) (a_dims a) (as_clause (cleaned w)) (as_clause (cleaned (a_having a))) (as_clause (a_order a)) false).

  (** w["query_class"] = ..., single_query_resolve.py:106-114: on the dict of the list, unless a mapped name made a copy of it
      ({**w, ...}, resolve.py:397-402) *)
  Definition is_mapped (x : string) : bool := match get_mapped x with Some _ => true | None => false end.
  Definition copied (names : list string) (d : cdict) : bool :=
    match cd_field d with
    | Some x => mem x names && is_mapped x
    | None => match cd_conds d with Some _ => existsb is_mapped names | None => false end
    end.
  Definition stamp (names : list string) (d : cdict) : cdict :=
    match d with CDict f cs l u s r => if u && negb (copied names d) then CDict f cs l u true r else d end.
  (** the caller's dict after the call: process_filter has changed it, and the dict it stands for may have been stamped *)
  Definition touched (names : list string) (d : cdict) : cdict :=
    match d with
    | CDict f cs (Some x) u s r => CDict f cs (Some (stamp names x)) u s r
    | _ => stamp names (process d)
    end.
  (** self._where_fields, 130 *)
  Definition where_names (c : aclause) : list string :=
    match clause_fields kept_group_by idents (as_clause c) with Ok l => l | Err _ => [] end.
  (** the caller's where after the call *)
  Definition where_left (c : aclause) (aw : list cdict) : aclause :=
    match c with
    | AList [] => c
    | AList l => AList (map (touched (where_names (cleaned (AList (l ++ aw))))) (l ++ aw))
    | ADict d => ADict (stamp (where_names (AList [d])) d)
    | _ => c
    end.
  Definition having_left (c : aclause) : aclause := match c with AList l => AList (map process_leaves l) | _ => c end.
  (** One call: the objects afterwards, and the request as resolved. self.metrics and self.dimensions are the caller's lists (38-39),
      replaced in place (376-381). *)
  Definition ask (a : args) : res (args * query kept) :=
    q <- resolve_args a ;;
    Ok (Args (q_metrics q) (q_dims q) (where_left (a_where a) (always (a_metrics a ++ a_dims a))) (having_left (a_having a)) (a_order a), q).
End Args.
Arguments CDict {R}. Arguments cd_field {R}. Arguments cd_conds {R}. Arguments cd_logic {R}. Arguments cd_funnel {R}. Arguments cd_stamped {R}.
Arguments ANone {R}. Arguments AText {R}. Arguments ADict {R}. Arguments AList {R}. Arguments Args {R}. Arguments a_metrics {R}. Arguments a_dims {R}.
Arguments a_where {R}. Arguments a_having {R}. Arguments a_order {R}. Arguments process {R}. Arguments process_leaves {R}. Arguments as_robj {R}. Arguments as_clause {R}.
Arguments falsy {R}. Arguments extended {R}. Arguments cleaned {R}. Arguments resolve_args {R}. Arguments kept_group_by {R}. Arguments where_names {R}. Arguments copied {R}. Arguments stamp {R}. Arguments touched {R}.
Arguments where_left {R}. Arguments having_left {R}. Arguments ask {R}.
