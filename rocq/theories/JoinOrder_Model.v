(** Choosing and ordering the joins of a query: MetricsLayerDesign.joins and helpers,
    query_design.py:39-181 and 290-295.
    Parameters (networkx, contracts in JoinOrder_Spec.v, instances in JoinOrder_Nx.v):
    - [topo es]: list(topological_sort(line_graph(subgraph))) where [es] are the subgraph's edges;
      None stands for NetworkXUnfeasible;
    - [sp s t]: shortest_path(graph, s, t, weight="weight"); None stands for NetworkXNoPath.
    Both end points are nodes of the graph (a missing node would raise NodeNotFound).
    NetworkXNoPath is [Err JoinError] because joins() converts it (47-51).
    The paths of single_source_dijkstra (116-117) are only used up to the first entry of the dict:
    every branch of the loop body returns or raises.  That first entry is the path [source]. *)
From Verif Require Import PyBase PyStr PySort PyGraph JoinGraph_Model.
Local Open Scope string_scope.
Local Open Scope list_scope.
Local Open Scope nat_scope.

Notation vpair := (string * string)%type.
Definition pair_eqb (a b : vpair) : bool := String.eqb (fst a) (fst b) && String.eqb (snd a) (snd b).
Definition pair_in (x : vpair) (l : list vpair) : bool := existsb (pair_eqb x) l.

(** graph.edges() in insertion order *)
Definition g_edges (g : graph) : list vpair := flat_map (fun ua => map (fun ve => (fst ua, fst ve)) (snd ua)) g.
(** graph.subgraph(view_names).edges(), 40-41 *)
Definition sub_edges (g : graph) (req : list string) : list vpair :=
  filter (fun e => mem (fst e) req && mem (snd e) req) (g_edges g).

Section Order.
  Variable g : graph.
  Variable comp : list (list string * string).          (* join_graph.composite_keys *)
  Variable topo : list vpair -> option (list vpair).
  Variable sp : string -> string -> option (list string).

  (** networkx.path_weight(graph, path, "weight") *)
  Fixpoint path_weight (p : list string) : nat :=
    match p with
    | u :: ((v :: _) as r) => (match get_edge g u v with Some e => e_weight e | None => 0 end) + path_weight r
    | _ => 0
    end.

  (** zip(path, path[1:]) *)
  Definition zip_path (p : list string) : list vpair := combine p (tl p).

  (** _clean_view_pairs, 172-181; [prev] is pairs[:i] *)
  Definition same_views (p q : vpair) : bool :=
    pair_eqb p q || (String.eqb (fst p) (snd q) && String.eqb (snd p) (fst q)).
  Definition included (prev : list vpair) : list string :=
    match prev with [] => [] | (a, b) :: r => a :: b :: map snd r end.
  Fixpoint clean_aux (prev todo : list vpair) : list vpair :=
    match todo with
    | [] => []
    | p :: r =>
        let duplicate := existsb (fun q => String.eqb (snd p) (snd q)) prev in
        let inverted := existsb (same_views p) prev in
        let keep := negb duplicate && negb inverted && negb (mem (snd p) (included prev)) in
        let rest := clean_aux (prev ++ [p]) r in
        if keep then p :: rest else rest
    end.
  Definition clean_view_pairs (pairs : list vpair) : list vpair := clean_aux [] pairs.

  (** _validate_join_path, 102-113; true when some required view is not covered *)
  Fixpoint validate_aux (pairs : list vpair) (added : list string) : res (list string) :=
    match pairs with
    | [] => Ok added
    | (a, b) :: r => if mem a added then validate_aux r (added ++ [b]) else Err JoinError
    end.
  Definition validate_join_path (pairs : list vpair) (req : list string) : res bool :=
    added <- match pairs with [] => Ok [] | (a, b) :: r => validate_aux r [a; b] end ;;
    Ok (existsb (fun v => negb (mem v added)) req).

  (** _shortest_path_between_two over explicit pairs, 149-170 *)
  Definition path_leb (a b : list string * nat) : bool :=
    (snd a <? snd b) || (Nat.eqb (snd a) (snd b) && String.leb (join_with "" (fst a)) (join_with "" (fst b))).
  Definition found_paths (pairs : list vpair) : list (list string * nat) :=
    flat_map (fun st => match sp (fst st) (snd st) with
                        | Some p => [(p, path_weight p)]
                        | None => []
                        end) pairs.
  Definition shortest_between (pairs : list vpair) : option (list string) :=
    match isort path_leb (found_paths pairs) with
    | [] => None
    | x :: _ => Some (fst x)
    end.
  (** itertools.permutations(required_views, 2) for two views *)
  Definition both_ways (a b : string) : list vpair := [(a, b); (b, a)].

  (** _bridge_views, 95-100 *)
  Definition bridge_views (req : list string) : list string :=
    flat_map (fun kv => if existsb (fun r => mem r (fst kv)) req then [snd kv] else []) comp.

  (** _add_missing_views, 128-147: one pass over sorted(missing) with fixed anchors *)
  Fixpoint add_pass (anchors missing : list string) (pairs : list vpair) (still : list string)
    : list vpair * list string :=
    match missing with
    | [] => (pairs, still)
    | v :: r =>
        match shortest_between (map (fun a => (a, v)) anchors) with
        | Some p => add_pass anchors r (pairs ++ zip_path p) still
        | None => add_pass anchors r pairs (still ++ [v])
        end
    end.
  (** the recursion; [fuel] bounds its depth, running out is RecursionError *)
  Fixpoint add_missing (fuel : nat) (missing : list string) (pairs : list vpair) (missing_n : nat) : res (list vpair) :=
    match fuel with
    | O => Err RecursionError
    | S f =>
        let anchors := match pairs with [] => [] | p :: _ => fst p :: map snd pairs end in
        let '(pairs', still) := add_pass anchors (sort_str missing) pairs [] in
        match still with
        | [] => Ok pairs'
        | _ => if Nat.eqb (List.length still) missing_n then Err ValueError
               else add_missing f still pairs' (List.length missing)
        end
    end.

  (** _greedy_build_join, 115-126 *)
  Definition greedy_build_join (start : vpair) (req : list string) : res (list vpair) :=
    let pairs := clean_view_pairs [start] in
    let joined := flat_map (fun p => [fst p; snd p]) pairs in
    match filter (fun v => negb (mem v joined)) req with
    | [] => Ok pairs
    | missing => add_missing (S (S (2 * List.length missing))) missing pairs (List.length missing)
    end.

  (** The sort key of candidate starting edges, 76-85 *)
  Definition edge_leb (bridges : list string) (sub : list vpair) (x y : vpair) : bool :=
    let b (e : vpair) := mem (fst e) bridges || mem (snd e) bridges in
    let k (e : vpair) := ((if b e then 0 else 1), (if pair_in e sub then 0 else 1)) in
    let '(b1, s1) := k x in let '(b2, s2) := k y in
    if b1 <? b2 then true else if b2 <? b1 then false else
    if s1 <? s2 then true else if s2 <? s1 then false else
    if String.eqb (fst x) (fst y) then String.leb (snd x) (snd y) else String.leb (fst x) (fst y).

  Fixpoint first_greedy (es : list vpair) (req : list string) : res (list vpair) :=
    match es with
    | [] => Err JoinError
    | e :: r => match greedy_build_join e req with
                | Err ValueError => first_greedy r req
                | x => x
                end
    end.
  Definition greedy (req : list string) : res (list vpair) :=
    let es := filter (fun e => mem (fst e) req || mem (snd e) req) (g_edges g) in
    first_greedy (isort (edge_leb (bridge_views req) (sub_edges g req)) es) req.

  (** The except branch of determine_join_order, 65-93 *)
  Definition fallback (req : list string) : res (list vpair) :=
    match req with
    | [a; b] => match shortest_between (both_ways a b) with
                | Some p => Ok (zip_path p)
                | None => greedy req
                end
    | _ => greedy req
    end.

  (** determine_join_order, 54-93 *)
  Definition determine_join_order (req : list string) : res (list vpair) :=
    match req with
    | [_] => Ok []
    | _ =>
        match topo (sub_edges g req) with
        | None => fallback req
        | Some raw =>
            let pairs := clean_view_pairs raw in
            if (1 <? List.length req) then
              missing <- validate_join_path pairs req ;;
              if (missing : bool) then fallback req else Ok pairs
            else Ok pairs
        end
    end.

  (** joins, 38-52 *)
  Definition joins (req : list string) : res (list join) :=
    pairs <- determine_join_order req ;; ordered_joins g pairs.

  (** base_view_name, 290-295 *)
  Definition base_view_name (req : list string) (js : list join) : res string :=
    match js with
    | j :: _ => Ok (jn_base j)
    | [] => match req with r :: _ => Ok r | [] => Err IndexError end
    end.
End Order.
