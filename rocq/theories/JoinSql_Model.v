(** How two views are joined in SQL: the edges of the join graph with all the keys they carry
    (join_graph.py:111-191, 325-376), Join (join.py:33-140, 176-206), get_join_query_from
    (sql/query_generator.py:338-360) and pypika_join_type_lookup (sql/query_base.py:56-68).

    JoinGraph_Model keeps the four keys that every join sets.  Here an edge also has the keys that only an explicit
    join sets.  networkx's add_edge updates the dictionary of an edge, so a key that the new join does not set stays. *)
From Coq Require Import List String Bool Arith.
From Verif Require Import PyBase PyStr PySort PyRefs PyGraph JoinGraph_Model.
Import ListNotations.
Local Open Scope string_scope.
Local Open Scope list_scope.

(** The keys of an explicit join beside relationship, type, sql_on and weight that are read later *)
Record extra := Extra { x_join_type : option string; x_sql : bool; x_key : bool }.   (* join_type; sql and foreign_key are present *)
Record xident := XIdent { xi_id : jident; xi_extra : extra }.
Record xview := XView { xv_name : string; xv_ids : list xident }.
Definition plain_view (v : xview) : gview := GView (xv_name v) (map xi_id (xv_ids v)).

Record xedge := XEdge { x_edge : edge; x_extra : option extra }.
Definition xadj := list (string * xedge).
Definition xgraph := list (string * xadj).
Definition get_xedge (g : xgraph) (u v : string) : option xedge := match assoc u g with Some a => assoc v a | None => None end.

(** graph.add_node, graph.add_edge(u, v, ...keys...).  [o] is None for the join of two identifiers, which sets none
    of the other keys.  An explicit join sets them; it is only added to a pair without edge. *)
Definition x_add_node (g : xgraph) (n : string) : xgraph := match assoc n g with Some _ => g | None => g ++ [(n, [])] end.
Definition x_add_edge (g : xgraph) (u v : string) (e : edge) (o : option extra) : xgraph :=
  let g := x_add_node (x_add_node g u) v in
  let a := match assoc u g with Some a => a | None => [] end in
  let o' := match o with Some x => Some x | None => match assoc v a with Some old => x_extra old | None => None end end in
  upsert u (upsert v (XEdge e o') a) g.

(** _reference_map, 325-344 *)
Definition x_set2 (u v : string) (e : xedge) (d : xgraph) : xgraph := upsert u (upsert v e (match assoc u d with Some a => a | None => [] end)) d.
Definition x_reference_step (v : xview) (d : xgraph) (xi : xident) : xgraph :=
  let i := xi_id xi in
  if is_join_type (ji_type i) then
    let d := x_set2 (xv_name v) (ji_ref i) (XEdge (explicit_edge (ji_rel i) (ji_sql_on i)) (Some (xi_extra xi))) d in
    let r := invert (ji_rel i) in
    if is_fanout r then d else x_set2 (ji_ref i) (xv_name v) (XEdge (explicit_edge r (ji_sql_on i)) (Some (xi_extra xi))) d
  else d.
Definition x_reference_map (vs : list xview) : xgraph := fold_left (fun d v => fold_left (x_reference_step v) (xv_ids v) d) vs [].

(** 158-188 *)
Definition x_add_identifier_join (vs : list xview) (v : string) (i : jident) (g : xgraph) (w : string) : res xgraph :=
  if negb (String.eqb w v) && allowed_join (ji_only_join i) w then
    match find (fun x => String.eqb (gv_name x) w) (map plain_view vs) with
    | None => Err AccessDenied
    | Some wv =>
        match find (fun j => String.eqb (ji_name j) (ji_name i)) (gv_ids wv) with
        | None => Err AttributeError
        | Some j =>
            if negb (allowed_join (ji_only_join j) v) then Ok g
            else
              e <- identifier_to_join i v j w ;;
              if is_fanout (e_rel e) && negb (mem w (ji_fanouts i)) then Ok g
              else match get_xedge g v w with
                   | Some old => Ok (if Nat.ltb (preference (e_rel e)) (preference (e_rel (x_edge old))) then x_add_edge g v w e None else g)
                   | None => Ok (x_add_edge g v w e None)
                   end
        end
    end
  else Ok g.
Definition x_add_view (vs : list xview) (rm : xgraph) (g : xgraph) (v : xview) : res xgraph :=
  let g := x_add_node g (xv_name v) in
  let g := fold_left (fun g we => x_add_edge g (xv_name v) (fst we) (x_edge (snd we)) (x_extra (snd we)))
                     (match assoc (xv_name v) rm with Some a => a | None => [] end) g in
  foldM (fun g i => foldM (x_add_identifier_join vs (xv_name v) i) g (identifier_map (map plain_view vs) (ji_name i))) g (map xi_id (xv_ids v)).
Fixpoint x_build_loop (vs : list xview) (rm : xgraph) (todo : list xview) (seen : list string) (g : xgraph) : res xgraph :=
  match todo with
  | [] => Ok g
  | v :: r => if mem (xv_name v) seen then Err QueryError else g' <- x_add_view vs rm g v ;; x_build_loop vs rm r (xv_name v :: seen) g'
  end.
Definition x_build (vs : list xview) : res xgraph := x_build_loop vs (x_reference_map vs) vs [] [].

(** get_join, 133-136, with Join.validate, join.py:51-82: sql_on is always there, so any other argument is one too many *)
Definition join_valid (x : xedge) : bool :=
  negb (match x_extra x with Some k => x_sql k || x_key k | None => false end) && negb (String.eqb (e_type (x_edge x)) "cross").
Definition get_join (g : xgraph) (a b : string) : res xedge :=
  match get_xedge g a b with
  | None => Err KeyError
  | Some x => if join_valid x then Ok x else Err QueryError
  end.

(** What the project answers: get_view(name).name, and get_field(column, view_name=view) with its sql_query(query_type) *)
Record jenv := JEnv { je_view : string -> res string; je_field : string -> string -> res (res string) }.

(** get_replaced_sql_on, join.py:176-206; None when a reference names no view *)
Section Replace.
  Variable E : jenv.
  Fixpoint replace_on (names : list string) (sql : string) : res (option string) :=
    match names with
    | [] => Ok (Some sql)
    | f :: r =>
        let '(_, v, c) := field_name_parts f in
        match v with
        | None => Ok None
        | Some v =>
            t <- je_view E v ;;
            fo <- je_field E c t ;;
            s <- fo ;;
            replace_on r (replace (placeholder f) s sql)
        end
    end.
  Definition replaced_sql_on (sql : string) : res (option string) := replace_on (fields_to_replace sql) sql.

  (** Join.collect_errors, 88-140, for a join of the graph: it has no foreign_key *)
  Inductive jrule := JNoView (f : string) | JView (v : string) | JField (v c : string).
  Definition reference_errors (f : string) : list jrule :=
    let '(_, v, c) := field_name_parts f in
    match v with
    | None => [JNoView f]
    | Some v => match je_view E v with
                | Err _ => [JView v]
                | Ok t => match je_field E c t with Err _ => [JField v c] | Ok _ => [] end
                end
    end.
  Definition join_errors (sql : string) : list jrule := if String.eqb sql "" then [] else flat_map reference_errors (fields_to_replace sql).
  (** JoinGraph.collect_errors and joins, 121-131 *)
  Definition edges (g : xgraph) : list (string * string) := flat_map (fun ua => map (fun ve => (fst ua, fst ve)) (snd ua)) g.
  Definition graph_errors (g : xgraph) : res (list jrule) :=
    joins <- mapM (fun ab => get_join g (fst ab) (snd ab)) (edges g) ;;
    Ok (flat_map (fun x => join_errors (e_sql_on (x_edge x))) joins).

  (** pypika_join_type_lookup, query_base.py:56-68, of join.join_type *)
  Inductive kind := KLeft | KInner | KOuter | KCross.
  Definition join_kind (x : xedge) : kind :=
    match match x_extra x with Some k => x_join_type k | None => None end with
    | Some t => if String.eqb t "left_outer" then KLeft else if String.eqb t "inner" then KInner else if String.eqb t "full_outer" then KOuter
                else if String.eqb t "cross" then KCross else KLeft
    | None => KLeft
    end.
  (** get_join_query_from, query_generator.py:349-358: the kind of the JOIN and its ON condition.  join.type is never
      cross (see join_valid), so ON is always written; without condition its text is None *)
  Definition join_clause (g : xgraph) (a b : string) : res (kind * option string) :=
    x <- get_join g a b ;;
    on <- replaced_sql_on (e_sql_on (x_edge x)) ;;
    Ok (join_kind x, on).
End Replace.
