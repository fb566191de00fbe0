(** The join graph: join_graph.py:18-191 and 297-423.
    A networkx.DiGraph is an association list from nodes to their out-edges, both in insertion order.
    The views are the ones project.views() returns for the current user (Core_Model.views); their
    identifiers have passed the checks of View.identifiers (view.py:69-127), so every "join" identifier
    carries relationship, sql_on and reference.  Memo tables of the JoinGraph object are omitted: the
    graph is built once per object, so they only store what is recomputed here. *)
From Verif Require Import PyBase PyStr PySort PyRefs PyGraph.
Local Open Scope string_scope.
Local Open Scope list_scope.
Local Open Scope nat_scope.

(** join.py:26-31 ZenlyticJoinRelationship *)
Inductive rel := M2O | O2O | O2M | M2M.
(** join_graph.py:18-23; [TOther] is any other string *)
Inductive itype := TPrimary | TForeign | TJoin | TOther.

Record jident := JIdent {
  ji_name : string;
  ji_type : itype;
  ji_only_join : list string;
  ji_fanouts : list string;          (* allowed_fanouts *)
  ji_ref : string;                   (* reference, "join" only *)
  ji_rel : rel;                      (* relationship, "join" only *)
  ji_sql_on : string;                (* sql_on, "join" only *)
  ji_sql : option string;
  ji_subs : option (list string) }.  (* names of the sub identifiers of a composite identifier *)
Record gview := GView { gv_name : string; gv_ids : list jident }.

(** Edge attributes; add_edge overwrites all four. *)
Record edge := Edge { e_rel : rel; e_type : string; e_sql_on : string; e_weight : nat }.
Definition adj := list (string * edge).
Definition graph := list (string * adj).

(** _derive_relationship, 378-395 *)
Definition derive_relationship (a b : itype) : res rel :=
  match a, b with
  | TForeign, TPrimary => Ok M2O
  | TPrimary, TPrimary => Ok O2O
  | TPrimary, TForeign => Ok O2M
  | TForeign, TForeign => Ok M2M
  | _, _ => Err QueryError
  end.
(** _invert_relationship, 397-405 *)
Definition invert (r : rel) : rel := match r with M2O => O2M | O2M => M2O | M2M => M2M | O2O => O2O end.
(** _edge_weight, 407-415 *)
Definition edge_weight (r : rel) : nat := match r with M2O => 2 | O2M => 3 | M2M => 4 | O2O => 1 end.
(** _allowed_join, 417-419 *)
Definition allowed_join (only : list string) (v : string) : bool :=
  match only with [] => true | _ => mem v only end.
(** _is_fanout, 421-423 *)
Definition is_fanout (r : rel) : bool := match r with O2M | M2M => true | _ => false end.
(** self._join_preference.index, 29-34 *)
Definition preference (r : rel) : nat := match r with O2O => 0 | M2O => 1 | O2M => 2 | M2M => 3 end.

(** _identifier_join_clause, 355-368 *)
Definition replace_reference (view : string) (sql name : string) : string :=
  let sql := if negb (String.eqb name "TABLE") && negb (has_char dot name)
             then replace (placeholder name) (placeholder (view ++ "." ++ name)) sql else sql in
  if String.eqb name "TABLE" then replace (placeholder name) view sql else sql.
Definition identifier_join_clause (i : jident) (view : string) : string :=
  match ji_sql i with
  | Some sql => fold_left (replace_reference view) (fields_to_replace sql) sql
  | None => placeholder (view ++ "." ++ ji_name i)
  end.

(** _identifier_to_join, 346-353 *)
Definition identifier_to_join (i : jident) (v : string) (j : jident) (w : string) : res edge :=
  r <- derive_relationship (ji_type i) (ji_type j) ;;
  Ok (Edge r "left_outer" (identifier_join_clause i v ++ "=" ++ identifier_join_clause j w) (edge_weight r)).

Definition is_join_type (t : itype) : bool := match t with TJoin => true | _ => false end.
Definition is_primary_type (t : itype) : bool := match t with TPrimary => true | _ => false end.

(** _identifier_map, 297-308: the two defaultdicts as functions of the identifier name *)
Definition identifier_map (vs : list gview) (n : string) : list string :=
  flat_map (fun v => flat_map (fun i =>
    if negb (is_join_type (ji_type i)) && String.eqb (ji_name i) n then [gv_name v] else []) (gv_ids v)) vs.
Definition primary_key_map (vs : list gview) (n : string) : list string :=
  flat_map (fun v => flat_map (fun i =>
    if is_primary_type (ji_type i) && String.eqb (ji_name i) n then [gv_name v] else []) (gv_ids v)) vs.

(** dict[key] = value: an existing key keeps its position *)
Fixpoint upsert {V} (k : string) (v : V) (d : list (string * V)) : list (string * V) :=
  match d with
  | [] => [(k, v)]
  | (k', v') :: r => if String.eqb k k' then (k, v) :: r else (k', v') :: upsert k v r
  end.

(** itertools.product *)
Fixpoint product (ls : list (list string)) : list (list string) :=
  match ls with
  | [] => [[]]
  | l :: r => flat_map (fun x => map (cons x) (product r)) l
  end.

(** _composite_keys, 310-323: the dict from sorted tuples of views to a view, in insertion order *)
Fixpoint list_eqb (a b : list string) : bool :=
  match a, b with
  | [], [] => true
  | x :: a, y :: b => String.eqb x y && list_eqb a b
  | _, _ => false
  end.
Fixpoint upsert_key (k : list string) (v : string) (d : list (list string * string)) : list (list string * string) :=
  match d with
  | [] => [(k, v)]
  | (k', v') :: r => if list_eqb k k' then (k, v) :: r else (k', v') :: upsert_key k v r
  end.
Definition composite_entries (vs : list gview) : list (list string * string) :=
  flat_map (fun v => flat_map (fun i =>
    match is_join_type (ji_type i), ji_subs i with
    | false, Some subs => map (fun g => (sort_str g, gv_name v)) (product (map (primary_key_map vs) subs))
    | _, _ => []
    end) (gv_ids v)) vs.
Definition composite_keys (vs : list gview) : list (list string * string) :=
  fold_left (fun d e => upsert_key (fst e) (snd e) d) (composite_entries vs) [].

(** _verify_identifier_join, 370-376: the type of an explicit join is the identifier's own type *)
Definition explicit_edge (r : rel) (sql_on : string) : edge := Edge r "join" sql_on (edge_weight r).

(** result[u][v] = e on a defaultdict(dict) *)
Definition set2 (u v : string) (e : edge) (d : graph) : graph :=
  upsert u (upsert v e (match assoc u d with Some a => a | None => [] end)) d.

(** _reference_map, 325-344 *)
Definition reference_step (v : gview) (d : graph) (i : jident) : graph :=
  if is_join_type (ji_type i) then
    let d := set2 (gv_name v) (ji_ref i) (explicit_edge (ji_rel i) (ji_sql_on i)) d in
    let r := invert (ji_rel i) in
    if is_fanout r then d else set2 (ji_ref i) (gv_name v) (explicit_edge r (ji_sql_on i)) d
  else d.
Definition reference_map (vs : list gview) : graph :=
  fold_left (fun d v => fold_left (reference_step v) (gv_ids v) d) vs [].

(** networkx: add_node, add_edge (adds missing end points), graph[u][v] *)
Definition add_node (g : graph) (n : string) : graph :=
  match assoc n g with Some _ => g | None => g ++ [(n, [])] end.
Definition add_edge (g : graph) (u v : string) (e : edge) : graph :=
  let g := add_node (add_node g u) v in
  upsert u (upsert v e (match assoc u g with Some a => a | None => [] end)) g.
Definition get_edge (g : graph) (u v : string) : option edge :=
  match assoc u g with Some a => assoc v a | None => None end.
Definition g_nodes (g : graph) : list string := map fst g.
Definition g_succ (g : graph) (u : string) : list string :=
  match assoc u g with Some a => map fst a | None => [] end.

(** The body of the two inner loops, 158-188: identifier [i] of view [v] against view [w] *)
Definition add_identifier_join (vs : list gview) (v : string) (i : jident) (g : graph) (w : string) : res graph :=
  if negb (String.eqb w v) && allowed_join (ji_only_join i) w then
    match find (fun x => String.eqb (gv_name x) w) vs with
    | None => Err AccessDenied                                 (* project.get_view *)
    | Some wv =>
        match find (fun j => String.eqb (ji_name j) (ji_name i)) (gv_ids wv) with
        | None => Err AttributeError                           (* None.get, not reachable *)
        | Some j =>
            if negb (allowed_join (ji_only_join j) v) then Ok g
            else
              e <- identifier_to_join i v j w ;;
              if is_fanout (e_rel e) && negb (mem w (ji_fanouts i)) then Ok g
              else match get_edge g v w with
                   | Some old => Ok (if preference (e_rel e) <? preference (e_rel old) then add_edge g v w e else g)
                   | None => Ok (add_edge g v w e)
                   end
        end
    end
  else Ok g.

Fixpoint foldM {A B} (f : A -> B -> res A) (a : A) (l : list B) : res A :=
  match l with
  | [] => Ok a
  | b :: r => a' <- f a b ;; foldM f a' r
  end.

(** One view, 144-188 *)
Definition add_view (vs : list gview) (rm : graph) (g : graph) (v : gview) : res graph :=
  let g := add_node g (gv_name v) in
  let g := fold_left (fun g we => add_edge g (gv_name v) (fst we) (snd we))
                     (match assoc (gv_name v) rm with Some a => a | None => [] end) g in
  foldM (fun g i => foldM (add_identifier_join vs (gv_name v) i) g (identifier_map vs (ji_name i))) g (gv_ids v).

(** build, 138-191; [seen] is views_seen *)
Fixpoint build_loop (vs : list gview) (rm : graph) (todo : list gview) (seen : list string) (g : graph) : res graph :=
  match todo with
  | [] => Ok g
  | v :: r => if mem (gv_name v) seen then Err QueryError
              else g' <- add_view vs rm g v ;; build_loop vs rm r (gv_name v :: seen) g'
  end.
Definition build (vs : list gview) : res graph := build_loop vs (reference_map vs) vs [] [].

(** networkx.strongly_connected_components, its order being unspecified: here the components in node
    order, by mutual reachability. *)
Definition g_reach (g : graph) (starts : list string) : list string := reachable_from (g_nodes g) (g_succ g) starts.
Definition component (g : graph) (u : string) : list string :=
  filter (fun w => mem w (g_reach g [u]) && mem u (g_reach g [w])) (g_nodes g).
Fixpoint components_aux (g : graph) (todo : list string) (seen : list string) : list (list string) :=
  match todo with
  | [] => []
  | u :: r => if mem u seen then components_aux g r seen
              else let c := component g u in c :: components_aux g r (c ++ seen)
  end.
Definition components (g : graph) : list (list string) := components_aux g (g_nodes g) [].

(** _strongly_connected_components, 97-103, applied to an enumeration of the components:
    sorted(key=(len, first), reverse=True) *)
Definition comp_key_leb (a b : list string) : bool :=     (* (len a, a[0]) >= (len b, b[0]) *)
  (List.length b <? List.length a) ||
  (Nat.eqb (List.length a) (List.length b) && String.leb (hd "" b) (hd "" a)).
Definition sort_components (cs : list (list string)) : list (list string) :=
  isort comp_key_leb (map sort_str cs).
Definition sorted_components (g : graph) : list (list string) := sort_components (components g).

Definition subquery (i : nat) : string := "subquery_" ++ nat_str i.

(** list_join_graphs, 50-53 *)
Definition list_join_graphs (g : graph) : list string :=
  map subquery (seq 0 (List.length (sorted_components g))).

(** join_graph_hash, 55-69 *)
Definition enumerate {A} (l : list A) : list (nat * A) := combine (seq 0 (List.length l)) l.
Definition join_graph_hash (g : graph) (v : string) : res string :=
  match find (fun ic => mem v (snd ic)) (enumerate (sorted_components g)) with
  | Some (i, _) => Ok (subquery i)
  | None => Err QueryError
  end.

(** _subgraph_nodes_from_components, 105-109: edge_dfs from all members visits the reachable edges *)
Definition subgraph_nodes (g : graph) (c : list string) : list string := g_reach g c.

(** weak_join_graph_hashes, 71-83 *)
Definition weak_join_graph_hashes (g : graph) (v : string) : list string :=
  map (fun ic => subquery (fst ic))
      (filter (fun ic => mem v (subgraph_nodes g (snd ic))) (enumerate (sorted_components g))).

(** get_joinable_view_names, 85-95 *)
Definition get_joinable_view_names (g : graph) (v : string) : list string :=
  filter (fun w => negb (String.eqb w v))
    (sort_str (dedup (flat_map (fun c => let ns := subgraph_nodes g c in if mem v ns then ns else [])
                               (sorted_components g)))).

(** get_join / ordered_joins, 111-119, 133-136: graph[u][v] raises KeyError for a missing edge *)
Record join := Join { jn_base : string; jn_view : string; jn_edge : edge }.
Definition get_join (g : graph) (u v : string) : res join :=
  match get_edge g u v with Some e => Ok (Join u v e) | None => Err KeyError end.
Fixpoint ordered_joins_aux (g : graph) (pairs : list (string * string)) (joined : list string) : res (list join) :=
  match pairs with
  | [] => Ok []
  | (u, v) :: r =>
      j <- get_join g u v ;;
      js <- ordered_joins_aux g r (v :: joined) ;;
      Ok (if mem v joined then js else j :: js)
  end.
Definition ordered_joins (g : graph) (pairs : list (string * string)) : res (list join) := ordered_joins_aux g pairs [].
